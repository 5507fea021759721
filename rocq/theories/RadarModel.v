(** Model of the rain flag of containers.py and of the screening of cloud radar
    data in instruments/nc_radar.py, mira.py and weather_radar.py.  Floating point
    numbers are exact rationals. *)
From Verif Require Import Base ArrayModel FillModel TimeModel GridModel OutputModel ClassifyModel ImageModel.
From Coq Require Import Qabs Qround String.
Open Scope string_scope.
Open Scope nat_scope.
Open Scope list_scope.
Local Notation length := List.length (only parsing).
Local Notation get := ImageModel.get (only parsing).

(** An entry of a numpy.ma array where the data under the mask matter: the data and
    whether they are masked. *)
Notation entry := (Q * bool)%type (only parsing).
Definition raw (x : entry) : Q := fst x.
Definition hides (x : entry) : bool := snd x.
(** [x[i, j]]; arrays are rectangular, so the default is not used. *)
Definition at_gate (row : list entry) (j : nat) : entry := nth j row (0%Q, true).

(** ** Rain *)

(** containers.py 109-110: [np.argmin(z.mask.all(axis=0)) + 3].  [n] is the number of
    gates; the smallest boolean is the first false one, index 0 if all are true, and
    [argmin] of an empty array raises ValueError. *)
Definition rain_gate (n : nat) (z : image entry) : result nat :=
  let all_masked := map (fun j => forallb (fun row => hides (at_gate row j)) z) (seq 0 n) in
  bind (argmax_bool (map negb all_masked)) (fun first_gate_with_data =>
  Ok (first_gate_with_data + 3)).

(** containers.py 108-128, [_find_rain_from_radar_echo].  [np.where] looks at the data
    of a masked condition, so the data under the masks of v and ldr are compared. *)
Definition find_rain_from_radar_echo (n : nat) (z v : image entry)
  (ldr sldr : option (image entry)) : result (list bool) :=
  bind (rain_gate n z) (fun gate =>
  if gate <? n then
    let ldr_low := match ldr, sldr with
      | Some m, _ => map (fun row => qlt (raw (at_gate row gate)) (-15)) m
      | None, Some m => map (fun row => qlt (raw (at_gate row gate)) (-15)) m
      | None, None => map (fun _ => qlt (-15 - 1) (-15)) z
      end in
    let z_high := map (fun row => negb (hides (at_gate row gate)) && qgt (raw (at_gate row gate)) 3) z in
    let v_low := map (fun row => qlt (raw (at_gate row gate)) 0) v in
    Ok (map2 andb (map2 andb z_high v_low) ldr_low)
  else Raise IndexError).

(** The variables of a disdrometer on the time grid; n_particles and rainfall_rate
    (m/s) are always there, the present weather code may be missing.  The code is an
    interpolated number. *)
Record disdrometer := {
  d_rate : list (masked Q); d_particles : list (masked Q); d_wawa : option (list (masked Q)) }.

(** containers.py 130-141, [_find_rain_from_disdrometer] for [n_time] profiles. *)
Definition find_rain_from_disdrometer (n_time : nat) (d : option disdrometer) : list (masked bool) :=
  match d with
  | None => List.repeat None n_time
  | Some d =>
      map2 (fun r p => match r, p with
        | Some r, Some p => Some (qgt r ((25 # 100) * (1 # 3600000))%Q && qgt p 30)
        | _, _ => None
        end) (d_rate d) (d_particles d)
  end.

(** containers.py 96-105: the filter for snow.  With a present weather code the
    comparison is masked where the code is masked; otherwise the first gate is taken
    where the wet bulb temperature of no profile is masked ([n] gates). *)
Definition liquid_rain_only (n : nat) (tw : image (masked Q)) (d : option disdrometer)
  : result (list (masked bool)) :=
  match d with
  | Some {| d_wawa := Some wawa |} =>
      Ok (map (option_map (fun w => Qle_bool 57 w && Qle_bool w 68)) wawa)
  | _ =>
      let valid := map (fun j => forallb (fun row => negb (is_masked (nth j row None))) tw) (seq 0 n) in
      match first_true valid with
      | None => Raise IndexError
      | Some j => Ok (map (fun row => option_map (fun t => qgt t (T0 + 5)) (nth j row None)) tw)
      end
  end.

(** containers.py 90-106, [_find_profiles_with_rain]: the values of the disdrometer
    replace those of the radar where they are not masked. *)
Definition find_profiles_with_rain (n : nat) (z v : image entry) (ldr sldr : option (image entry))
  (tw : image (masked Q)) (d : option disdrometer) : result (list (masked bool)) :=
  bind (find_rain_from_radar_echo n z v ldr sldr) (fun echo =>
  let is_rain := map2 (fun e (r : masked bool) => match r with Some b => b | None => e end)
    echo (find_rain_from_disdrometer (length z) d) in
  bind (liquid_rain_only n tw d) (fun liquid =>
  Ok (map2 (fun r => option_map (andb r)) is_rain liquid))).

(** ** Pointing of the radar *)

(** [a - b] of numpy.ma. *)
Definition msub (a b : masked Q) : masked Q :=
  match a, b with Some x, Some y => Some (x - y)%Q | _, _ => None end.
(** [ma.diff(x, prepend=x[1])] for at least two values.  [np.broadcast_to] drops the
    mask of the prepended value, so a masked one becomes 0. *)
Fixpoint mdiff_from (prev : masked Q) (l : list (masked Q)) : list (masked Q) :=
  match l with [] => [] | x :: r => msub x prev :: mdiff_from x r end.
Definition mdiff_prepend (l : list (masked Q)) : list (masked Q) :=
  mdiff_from (Some (match nth 1 l None with Some x => x | None => 0%Q end)) l.
(** nc_radar.py 134-135: differences above 180 and below -180 are moved by one turn. *)
Definition wrap_once (d : Q) : Q :=
  let d := assign (qgt d 180) (d - 360)%Q d in
  assign (qlt d (-180)) (d + 360)%Q d.
(** [a & b] of masked booleans: masked if one is masked. *)
Definition mand (a b : masked bool) : masked bool :=
  match a, b with Some x, Some y => Some (x && y) | _, _ => None end.

(** nc_radar.py 100-154, [add_zenith_and_azimuth_angles]: the zenith angle, the azimuth
    angle with its offset, and the stable profiles.  Azimuth and elevation of different
    lengths raise ValueError when they are combined. *)
Definition add_zenith_and_azimuth_angles (el_thr el_diff_thr az_diff_thr : Q)
  (zenith_offset azimuth_offset : option Q) (elevation azimuth : list (masked Q))
  : result (list (masked Q) * list (masked Q) * list bool) :=
  let elevation := match zenith_offset with
    | Some o => map (option_map (fun e => (e - o)%Q)) elevation | None => elevation end in
  let azimuth := match azimuth_offset with
    | Some o => map (option_map (fun a => (a + o)%Q)) azimuth | None => azimuth end in
  if (length elevation <? 2) || (length azimuth <? 2) then Raise ValidTimeStampError else
  let elevation_diff := mdiff_prepend elevation in
  let is_stable := map (option_map (fun e => qlt (Qabs (e - 90)) el_thr)) elevation in
  let is_stable := map2 mand is_stable
    (map (option_map (fun d => qlt (Qabs d) el_diff_thr)) elevation_diff) in
  let with_azimuth :=
    if forallb is_masked azimuth then Ok is_stable
    else if length azimuth =? length elevation then
      Ok (map2 mand is_stable
            (map (option_map (fun d => qlt (Qabs (wrap_once d)) az_diff_thr)) (mdiff_prepend azimuth)))
    else Raise ValueError in
  bind with_azimuth (fun is_stable =>
  let is_stable := map (fun b : masked bool => match b with Some b => b | None => true end) is_stable in
  let n_removed := length (filter negb is_stable) in
  if (length elevation - 1 <=? n_removed) then Raise ValidTimeStampError
  else Ok (map (option_map (fun e => (90 - e)%Q)) elevation, azimuth, is_stable)).

(** mira.py 262-273, [mask_bad_angles], for one variable with its limits. *)
Definition mask_bad_angle (lower upper : Q) (array : list (masked Q)) : list (masked Q) :=
  let margin := ((upper - lower) * (5 # 100))%Q in
  map (fun x => match x with
    | Some v => if qlt v (lower - margin) || qgt v (upper + margin) then None else Some v
    | None => None
    end) array.
(** mira.py 99-113: the bad angles are masked and the profiles are selected with the
    thresholds of [mira2nc]. *)
Definition mira_angles (zenith_offset azimuth_offset : option Q) (elevation azimuth : list (masked Q))
  : result (list (masked Q) * list (masked Q) * list bool) :=
  add_zenith_and_azimuth_angles (11 # 10) (1 # 1000000) (1 # 1000) zenith_offset azimuth_offset
    (mask_bad_angle 0 180 elevation) (mask_bad_angle (-360) 360 azimuth).

(** ** Masking of radar images *)

(** Radar variables: two-dimensional ones, and others that are never masked here.  All
    two-dimensional variables have the shape of the radar image. *)
Inductive rvar : Type :=
| Two : image entry -> rvar
| Other : list Q -> rvar.
Definition rdict := list (string * rvar).
Definition rimage (d : rdict) (key : string) : result (image entry) :=
  match lookup key d with
  | Some (Two m) => Ok m
  | Some (Other _) => Raise IndexError
  | None => Raise KeyError
  end.
(** cloudnetarray.py 54-56, [data[ind] = ma.masked] with a boolean image. *)
Definition mask_indices (ind : image bool) (m : image entry) : image entry :=
  imapi (fun i j (x : entry) => (raw x, assign (get ind i j) true (hides x))) m.
(** Loop over all two-dimensional variables. *)
Definition mask_all (ind : image bool) (d : rdict) : rdict :=
  map (fun kv : string * rvar => (fst kv, match snd kv with
    | Two m => Two (mask_indices ind m) | Other l => Other l end)) d.

(** nc_radar.py 65-71, [screen_by_snr] without the variable snr_limit: masked values
    are compared by the data under the mask. *)
Definition screen_by_snr (snr_limit : Q) (d : rdict) : result rdict :=
  bind (rimage d "SNR") (fun snr =>
  Ok (mask_all (imap (fun x => qlt (raw x) snr_limit) snr) d)).
(** nc_radar.py 83-90, [mask_invalid_data].  Both masks are taken before the loop; the
    mask of v is a view and grows during the loop, which changes nothing as every
    variable gets both masks. *)
Definition mask_invalid_data (d : rdict) : result rdict :=
  bind (rimage d "Zh") (fun z =>
  bind (rimage d "v") (fun v =>
  Ok (mask_all (imap hides v) (mask_all (imap hides z) d)))).
(** mira.py 96-98 without [screen_invalid_ldr], which only concerns ldr. *)
Definition screen_radar (snr_limit : Q) (d : rdict) : result rdict :=
  bind (screen_by_snr snr_limit d) mask_invalid_data.

(** ** Low transmit power *)

(** mira.py 226-241, [_correct_fzk_tpow]; [sn] and [has_fzk100] are the entries of the
    hrd attribute. *)
Definition correct_fzk_tpow (sn : string) (has_fzk100 : bool) (tpow : list entry) : list entry :=
  if negb (String.eqb sn "fzk") || has_fzk100 then tpow
  else map (fun x => ((raw x * 100)%Q, hides x)) tpow.
(** mira.py 215-224, the profiles that are kept, [None] if nothing is screened. *)
Definition low_power_selection (mira35c : bool) (tpow : list entry) : option (list bool) :=
  let low_threshold := if mira35c then 1 # 2 else 5%Q in
  let is_low := map (fun x => qlt (raw x) low_threshold) tpow in
  if 0 <? length (filter (fun b => b) is_low) then Some (map negb is_low) else None.
(** cloudnet_instrument.py 59-80 with a boolean vector: no true entry raises, otherwise
    the profiles with a true entry are kept.  IndexError if the length differs. *)
Definition screen_time_mask {P} (r : instrument P) (valid : list bool) : result (instrument P) :=
  if existsb (fun b => b) valid then
    if length valid =? length (i_time r) then screen_time_indices r (where1 valid) else Raise IndexError
  else Raise ValidTimeStampError.
(** mira.py 188-224, [screen_low_power]; [tpow] is the variable of that name. *)
Definition screen_low_power {P} (mira35c : bool) (sn : string) (has_fzk100 : bool)
  (tpow : option (list entry)) (r : instrument P) : result (instrument P) :=
  match tpow with
  | None => Ok r
  | Some tpow =>
      match low_power_selection mira35c (correct_fzk_tpow sn has_fzk100 tpow) with
      | None => Ok r
      | Some valid => screen_time_mask r valid
      end
  end.

(** ** Weather radar *)

(** One file as read by [_read_opera_h5] (weather_radar.py 186-236), which is not
    modelled: the time in seconds, the range, the profiles by name and the scalars. *)
Record wr_file (S : Type) := {
  w_time : Q; w_range : list Q; w_data : list (string * list (masked Q)); w_scalars : S }.
Arguments w_time {S}. Arguments w_range {S}. Arguments w_data {S}. Arguments w_scalars {S}.
(** The raw data of the radar object. *)
Record wr_raw (S : Type) := {
  r_time : list Q; r_range : list Q; r_data : list (string * image (masked Q)); r_scalars : S }.
Arguments r_time {S}. Arguments r_range {S}. Arguments r_data {S}. Arguments r_scalars {S}.
Arguments Build_wr_raw {S}.

(** weather_radar.py 87, [max(ranges, key=lambda rng: rng[-1])]: the first of the
    largest; ranges are not empty. *)
Fixpoint max_range (best : list Q) (l : list (list Q)) : list Q :=
  match l with
  | [] => best
  | r :: l' => max_range (if qgt (last r 0%Q) (last best 0%Q) then r else best) l'
  end.
(** [np.array_equal] of two vectors. *)
Definition array_equal (a b : list Q) : bool :=
  (length a =? length b) && forallb (fun p : Q * Q => Qeq_bool (fst p) (snd p)) (combine a b).
(** Keys of several dictionaries in order of first appearance (line 88). *)
Fixpoint first_keys (seen : list string) (l : list string) : list string :=
  match l with
  | [] => []
  | k :: l' => if existsb (String.eqb k) seen then first_keys seen l' else k :: first_keys (k :: seen) l'
  end.
(** weather_radar.py 89-99, the row of one variable from one file. *)
Definition wr_block {S} (target : list Q) (key : string) (f : wr_file S) : result (list (masked Q)) :=
  match lookup key (w_data f) with
  | Some values =>
      if array_equal (w_range f) target then Ok values
      else bind (interpolate_2D_along_y (w_range f) [values] target) (fun rows =>
           Ok (nth 0 rows []))
  | None => Ok (List.repeat None (length target))
  end.
(** weather_radar.py 70-103, [_read_data]; [None] is a file with an invalid range.  The
    scalars are those of the last file that could be read. *)
Definition wr_read {S} (files : list (option (wr_file S))) : result (wr_raw S) :=
  let valid := unmasked files in
  match valid with
  | [] => Raise ValidTimeStampError
  | f0 :: rest =>
      let target := max_range (w_range f0) (map w_range rest) in
      let keys := first_keys [] (flat_map (fun f => map fst (w_data f)) valid) in
      bind (sequence (map (fun key =>
        bind (sequence (map (wr_block target key) valid)) (fun rows => Ok (key, rows))) keys)) (fun data =>
      Ok (Build_wr_raw (map w_time valid) target data (w_scalars (last valid f0))))
  end.
(** Day number of a time. *)
Definition wr_day (t : Q) : Z := Qfloor (t / 86400).
(** weather_radar.py 104-112, [_screen_time]: the data and the date. *)
Definition wr_screen_time {S} (date : option Z) (r : wr_raw S) : result (wr_raw S * Z) :=
  match date with
  | None => match r_time r with [] => Raise IndexError | t :: _ => Ok (r, wr_day t) end
  | Some day =>
      let is_valid := map (fun t => Z.eqb (wr_day t) day) (r_time r) in
      Ok (Build_wr_raw (select is_valid (r_time r)) (r_range r)
            (map (fun kv => (fst kv, select is_valid (snd kv))) (r_data r)) (r_scalars r), day)
  end.
(** weather_radar.py 114-117, [sort_and_dedup_timestamps]. *)
Definition wr_dedup {S} (r : wr_raw S) : wr_raw S :=
  let u := unique (r_time r) in
  Build_wr_raw (map fst u) (r_range r)
    (map (fun kv => (fst kv, map (fun i => nth i (snd kv) []) (map snd u))) (r_data r)) (r_scalars r).
(** weather_radar.py 46-48 and 126-128: read, select the day, sort, and convert the time
    to hours of the date. *)
Definition wr_load {S} (date : option Z) (files : list (option (wr_file S)))
  : result (list Q * wr_raw S * Z) :=
  bind (wr_read files) (fun r =>
  bind (wr_screen_time date r) (fun p =>
  let (r, day) := p in
  let r := wr_dedup r in
  Ok (map (fun t => ((t - inject_Z day * 86400) / 3600)%Q) (r_time r), r, day))).

(** weather_radar.py 156-161: mean reflectivity of gate [j] without falling rain;
    [ma.masked_where] also masks where the comparison is masked. *)
Definition clutter_mean (z v : image entry) (j : nat) : masked Q :=
  ma_stat mean (map2 (fun zr vr =>
    let z := at_gate zr j in let v := at_gate vr j in
    if hides z || hides v || qlt (raw v) (-1) then None else Some (raw z)) z v).
(** weather_radar.py 149-170, [screen_clutter], for [n] gates. *)
Definition screen_clutter (n : nat) (d : rdict) : result rdict :=
  bind (rimage d "Zh") (fun z =>
  bind (rimage d "v") (fun v =>
  let z_high := map (fun j => match clutter_mean z v j with Some m => qgt m (-10) | None => false end)
    (seq 0 (Nat.min 10 n)) in
  match rev (where1 z_high) with
  | [] => Ok d
  | top :: _ => Ok (mask_all (imapi (fun _ j (_ : entry) => j <? S top) z) d)
  end)).
(** weather_radar.py 172-174, [screen_noise]. *)
Definition screen_noise (d : rdict) : result rdict :=
  bind (rimage d "SNR") (fun snr => Ok (mask_all (imap (fun x => qlt (raw x) 0) snr) d)).
(** weather_radar.py 49-50. *)
Definition screen_weather_radar (n : nat) (d : rdict) : result rdict :=
  bind (screen_clutter n d) screen_noise.
