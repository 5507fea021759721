(** Specification of the files of RPG cloud radars. *)
From Verif Require Import Base GridSpec TimeSpec InstrumentSpec OutputModel RadarModel RpgModel.
From Coq Require Import Qabs Qround String.
Local Notation length := List.length (only parsing).
Open Scope string_scope.
Open Scope list_scope.
Open Scope nat_scope.

(** ** Files of the day *)

(** [l] are the time stamps of the file. *)
Definition stamps (f : rpg_file) (l : list Q) : Prop :=
  exists e, lookup "time" (f_data f) = Some (D1 e) /\ l = map fst e.
(** All time stamps are on the expected day, if one is given. *)
Definition of_day (epoch : Z) (expected : option Z) (f : rpg_file) : Prop :=
  match expected with
  | None => True
  | Some day => exists l, stamps f l /\ Forall (on_date epoch day) l
  end.
(** The files that can be read and satisfy [P], in their order. *)
Inductive picked (P : rpg_file -> Prop) : list (string * result rpg_file) -> list (string * rpg_file) -> Prop :=
| picked_none : picked P [] []
| picked_take : forall name f rest used, P f -> picked P rest used ->
    picked P ((name, Ok f) :: rest) ((name, f) :: used)
| picked_skip : forall name r rest used, (forall f, r = Ok f -> ~ P f) -> picked P rest used ->
    picked P ((name, r) :: rest) used.
(** Every file that can be read has time stamps, and reading fails in no other ways
    than those of a broken file. *)
Definition readable (files : list (string * result rpg_file)) : Prop :=
  forall name r, In (name, r) files ->
    match r with
    | Ok f => exists l, stamps f l
    | Raise e => e = TypeError \/ e = ValueError \/ e = IndexError
    end.

(** ** Contents of a file *)

(** A variable with one value per profile. *)
Definition series (k : string) (f : rpg_file) (l : list entry) : Prop := lookup k (f_data f) = Some (D1 l).
(** A variable with a profile of [n] gates per time stamp. *)
Definition field (k : string) (f : rpg_file) (n : nat) (rows : image entry) : Prop :=
  lookup k (f_data f) = Some (D2 n rows).
(** Range gates of the file. *)
Definition gates (f : rpg_file) (y : list Q) : Prop := lookup "range" (f_header f) = Some (HVec (map Some y)).
(** Names starting with an underscore stay internal. *)
Definition internal (k : string) : Prop := exists s, k = String "_" s.
(** Each name is used once in the data and once in the header, and not in both. *)
Definition well_named (f : rpg_file) : Prop :=
  NoDup (map fst (f_data f)) /\ NoDup (map fst (f_header f)) /\
  forall k, In k (map fst (f_data f)) -> ~ In k (map fst (f_header f)).

(** Values that the instrument writes for missing data: zero, about -999, about
    1e-10. *)
Definition missing (x : Q) : Prop :=
  (Qabs (x - (1 # 10000000000)) <= (1 # 100000000) + (1 # 1000000000000000) \/
   Qabs (x + 999) <= (1 # 100000000) + (999 # 100000))%Q.
(** [e'] is the value [e], hidden if it was hidden or if [Q] holds. *)
Definition hides_if (H : Prop) (e e' : entry) : Prop :=
  fst e' = fst e /\ (snd e' = true <-> snd e = true \/ H).

(** ** Chirps *)

(** Text and variables that have to be the same in all files. *)
Definition fixed_names : list string :=
  ["model_number"; "dual_polarization"; "antenna_separation"; "antenna_diameter";
   "antenna_gain"; "half_power_beam_width"; "radar_frequency"; "customer_name"].
(** Start indices of the chirps of a file, and their maximum velocities. *)
Definition chirps (f : rpg_file) (starts : list nat) (v : list Q) : Prop :=
  lookup "chirp_start_indices" (f_header f) = Some (HVec (map (fun i => Some (inject_Z (Z.of_nat i))) starts)) /\
  lookup "nyquist_velocity" (f_header f) = Some (HVec (map Some v)) /\ length v = length starts.
(** The chirps start at the first gate and follow each other inside the range. *)
Definition chirps_in_order (starts : list nat) (n : nat) : Prop :=
  (exists rest, starts = 0 :: rest) /\ StronglySorted Nat.le starts /\ Forall (fun i => i < n) starts.
(** A chirp starts at the gate of the new range that is nearest to its first gate,
    the first chirp at the first gate. *)
Definition moved_start (y y' : list Q) (c i i' : nat) : Prop :=
  (c = 0 /\ i' = 0) \/ (c <> 0 /\ exists h, nth_error y i = Some h /\ is_nearest y' h i').
Definition moved (y y' : list Q) (starts starts' : list nat) : Prop :=
  length starts' = length starts /\
  forall c i i', nth_error starts c = Some i -> nth_error starts' c = Some i' -> moved_start y y' c i i'.

(** ** Zenith *)

(** The angles between -5 and 15 degrees. *)
Definition near_angles (zenith : list (masked Q)) (l : list Q) : Prop :=
  exists sel, l = map snd sel /\ NoDup (map fst sel) /\
    forall i x, In (i, x) sel <-> nth_error zenith i = Some (Some x) /\ (-5 < x /\ x < 15)%Q.

(** ** Heights *)

(** Height [h] is below or above all of [y]. *)
Definition outside (y : list Q) (h : Q) : Prop :=
  (forall x, In x y -> h < x)%Q \/ (forall x, In x y -> x < h)%Q.
(** Profiles on the gates [y'] taken from profiles on the gates [y]: each value from
    the nearest gate, hidden where there is no measurement. *)
Definition resampled (y y' : list Q) (rows rows' : image entry) : Prop :=
  length rows' = length rows /\
  forall i row row', nth_error rows i = Some row -> nth_error rows' i = Some row' ->
    length row' = length y' /\
    forall j h, nth_error y' j = Some h ->
      exists g e e', is_nearest y h g /\ nth_error row g = Some e /\ nth_error row' j = Some e' /\
        hides_if (missing (fst e) \/ outside y h) e e'.
(** The last gate. *)
Definition highest_gate (y : list Q) (t : Q) : Prop := nth_error y (length y - 1) = Some t /\ y <> [].

(** ** Values of the header *)
Definition plain_value (v : hval) : Prop := match v with HVec _ => False | _ => True end.
Definition same_value (a b : hval) : Prop :=
  match a, b with
  | HStr s, HStr t => s = t
  | HNum x, HNum y => (x == y)%Q
  | _, _ => False
  end.
(** [l] holds the value of each file once for each of its profiles. *)
Fixpoint for_each_profile (values : list hval) (times : list (list Q)) : list hval :=
  match values, times with
  | v :: vs, t :: ts => repeat v (length t) ++ for_each_profile vs ts
  | _, _ => []
  end.

(** Gates, chirps and time stamps of a file. *)
Record layout := { l_gates : list Q; l_starts : list nat; l_speeds : list Q; l_times : list Q }.
Definition laid_out (f : rpg_file) (a : layout) : Prop :=
  gates f (l_gates a) /\ chirps f (l_starts a) (l_speeds a) /\ stamps f (l_times a).
(** The gates ascend, the chirps are in order, and there are fewer of them than [n]
    and of gates at least [n]. *)
Definition sound_layout (n : nat) (a : layout) : Prop :=
  StronglySorted Qlt (l_gates a) /\ chirps_in_order (l_starts a) (length (l_gates a)) /\
  length (l_starts a) < n /\ n <= length (l_gates a).
(** Maximum velocities of the profiles of a file on the gates [y']: every gate has
    the velocity of its chirp, and the chirps start as before. *)
Definition chirp_speeds (y' : list Q) (a : layout) (rows : list (list Q)) : Prop :=
  length rows = length (l_times a) /\
  exists starts', moved (l_gates a) y' (l_starts a) starts' /\ chirps_in_order starts' (length y') /\
    forall row, In row rows -> expanded (map Z.of_nat starts') (l_speeds a) (length y') row.

(** ** Screening *)

(** Depolarisation ratios at or below the noise of the instrument. *)
Definition no_depolarisation (k : string) (x : Q) : Prop :=
  ((k = "ldr" /\ x <= -35) \/ (k = "sldr" /\ x <= -40))%Q.
(** Variables hidden where the spectral width is too small. *)
Definition spectral (k : string) : Prop := In k ["Zh"; "v"; "width"; "ldr"; "sldr"].
(** A zenith angle close to the typical one. *)
Definition stable (m x : Q) : Prop := (Qabs (x - m) <= (1 # 10) + (1 # 100000) * Qabs m)%Q.
(** Units of the variables of the instrument in SI units. *)
Definition si_unit (k : string) (c : Q) : Prop :=
  (k = "rainfall_rate" /\ c * (3600 * 1000) == 1)%Q \/ (k = "lwp" /\ c * 1000 == 1)%Q \/
  (k = "relative_humidity" /\ c * 100 == 1)%Q \/ (k = "air_pressure" /\ c == 100)%Q \/
  (k = "wind_speed" /\ c * 3600 == 1000)%Q.
(** Of the variables with one value per profile, only missing temperatures and
    pressures are hidden. *)
Definition hides_if_missing (k : string) (e e' : entry) : Prop :=
  hides_if ((k = "air_temperature" \/ k = "air_pressure") /\ missing (fst e)) e e'.
