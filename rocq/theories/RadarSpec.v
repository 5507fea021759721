(** Specifications for the rain flag and for the screening of radar data.  An entry
    of a masked array is a pair of the data and the mask. *)
From Verif Require Import Base.
From Coq Require Import Qabs Qround String.
Open Scope nat_scope.
Open Scope list_scope.
Local Notation length := List.length (only parsing).

(** ** Rain *)
(** The image has [nt] profiles of [n] gates. *)
Definition sized {A} (nt n : nat) (m : image A) : Prop :=
  length m = nt /\ forall i row, nth_error m i = Some row -> length row = n.
(** Nothing is visible in gate [k]. *)
Definition empty_gate (z : image (Q * bool)) (k : nat) : Prop :=
  forall i x, pixel z i k <> Some (x, false).
(** The lowest gate with a visible value; the lowest gate if there is none. *)
Definition lowest_gate (n : nat) (z : image (Q * bool)) (k : nat) : Prop :=
  k < n /\
  ((~ empty_gate z k /\ forall j, j < k -> empty_gate z j) \/ (k = 0 /\ forall j, j < n -> empty_gate z j)).
(** Signature of rain in gate [g] of profile [i]: Z above 3 dBZ, falling, and linear
    depolarisation ratio, if measured, below -15 dB. *)
Definition echo_of_rain (z v : image (Q * bool)) (l : option (image (Q * bool))) (g i : nat) : Prop :=
  (exists x, pixel z i g = Some (x, false) /\ 3 < x)%Q /\
  (exists y, pixel v i g = Some y /\ fst y < 0)%Q /\
  (forall m, l = Some m -> exists y, pixel m i g = Some y /\ fst y < -15)%Q.
(** More than 0.25 mm/h (from m/s) and more than 30 particles. *)
Definition measured_rain (rate particles : Q) : Prop :=
  (1 # 4 < rate * 3600000 /\ 30 < particles)%Q.
(** Present weather codes 57 and 58 (drizzle and rain), 61 to 66 (rain, freezing rain)
    and 81 to 84 (rain showers) of WMO table 4680 are liquid; 67, 68 and 85 to 87 contain
    snow. *)
Definition liquid_code (c : Q) : Prop := In c (map inject_Z [57; 58; 60; 61; 62; 63; 64; 65; 66; 81; 82; 83; 84]%Z).
Definition snow_code (c : Q) : Prop := In c (map inject_Z [67; 68; 70; 71; 72; 73; 85; 86; 87]%Z).
(** Gate [k] has a value in every profile of the image. *)
Definition full_gate (m : image (masked Q)) (k : nat) : Prop :=
  forall i, i < length m -> exists t, pixel m i k = Some (Some t).

(** ** Pointing *)
(** The angle of the profile before [i]; for the first profile the one of the second. *)
Definition before {A} (l : list A) (i : nat) : option A :=
  match i with 0 => nth_error l 1 | S j => nth_error l j end.
(** The direction changes by less than [t] degrees between two azimuth angles. *)
Definition turned_less (a b t : Q) : Prop := exists k : Z, (Qabs (a - b - 360 * inject_Z k) < t)%Q.
(** All values are known. *)
Definition known {A} (l : list (masked A)) : Prop := forall i, nth_error l i <> Some None.

(** ** Masks *)
(** The pixel of an image is masked or its data are below the limit. *)
Definition hidden_at (m : image (Q * bool)) (i j : nat) : Prop := exists x, pixel m i j = Some (x, true).
Definition below_at (m : image (Q * bool)) (limit : Q) (i j : nat) : Prop :=
  exists x b, pixel m i j = Some (x, b) /\ (x < limit)%Q.
(** [m'] has the data of [m], and is masked where [m] is masked or [p] holds. *)
Definition masked_also (p : nat -> nat -> Prop) (m m' : image (Q * bool)) : Prop :=
  (forall i j, pixel m i j = None <-> pixel m' i j = None) /\
  forall i j x b, pixel m i j = Some (x, b) ->
    exists b', pixel m' i j = Some (x, b') /\ (b' = true <-> b = true \/ p i j).

(** ** Weather radar *)
(** Sum and number of the reflectivities of gate [j] that are visible together with a
    velocity that is not below -1 m/s. *)
Fixpoint still_echo (z v : image (Q * bool)) (j : nat) : list Q :=
  match z, v with
  | zr :: z', vr :: v' =>
      match nth_error zr j, nth_error vr j with
      | Some (x, false), Some (y, false) => if Qle_bool (-1) y then x :: still_echo z' v' j else still_echo z' v' j
      | _, _ => still_echo z' v' j
      end
  | _, _ => []
  end.
Fixpoint qsum (l : list Q) : Q := match l with [] => 0 | x :: r => x + qsum r end%Q.
(** The mean of these is above -10 dBZ. *)
Definition clutter_gate (z v : image (Q * bool)) (j : nat) : Prop :=
  still_echo z v j <> [] /\
  (-10 * inject_Z (Z.of_nat (length (still_echo z v j))) < qsum (still_echo z v j))%Q.
(** A time belongs to a day. *)
Definition of_day (day : Z) (t : Q) : Prop := (inject_Z day * 86400 <= t /\ t < inject_Z (day + 1) * 86400)%Q.

(** ** Pointing with missing angles *)
(** [l'] has the values of [l] changed by [f]; missing values stay missing. *)
Definition changed_by (f : Q -> Q) (l l' : list (masked Q)) : Prop :=
  length l' = length l /\
  forall i, (nth_error l i = Some None -> nth_error l' i = Some None) /\
    forall x, nth_error l i = Some (Some x) -> exists y, nth_error l' i = Some (Some y) /\ (y == f x)%Q.
Definition offset (o : option Q) : Q := match o with Some x => x | None => 0%Q end.
(** The angle the angle of profile [i] is compared with: that of the profile before;
    for the first profile that of the second, which counts as 0 if it is missing. *)
Definition prior (l : list (masked Q)) (i : nat) : option (masked Q) :=
  match i with
  | 0 => option_map (fun x : masked Q => Some (offset x)) (nth_error l 1)
  | S j => nth_error l j
  end.

(** ** Profiles of weather radar files *)
(** A profile on the heights [target] taken from the values [values] at the heights
    [range]: the value of a nearest gate, nothing beyond the first and the last gate. *)
Definition from_nearest (range : list Q) (values : list (masked Q)) (target : list Q) (row : list (masked Q)) : Prop :=
  length row = length target /\
  forall j h, nth_error target j = Some h ->
    (((forall y, In y range -> h < y) \/ (forall y, In y range -> y < h))%Q -> nth_error row j = Some None) /\
    (~ ((forall y, In y range -> h < y) \/ (forall y, In y range -> y < h))%Q ->
      exists g y v, nth_error range g = Some y /\ (forall y', In y' range -> Qabs (h - y) <= Qabs (h - y'))%Q /\
        nth_error values g = Some v /\ nth_error row j = Some v).
(** Nothing is known at any of [n] heights. *)
Definition all_missing (n : nat) (row : list (masked Q)) : Prop :=
  length row = n /\ forall j x, nth_error row j <> Some (Some x).
