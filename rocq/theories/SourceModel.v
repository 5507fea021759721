(** Model of the input files of the categorize product: the common part (datasource.py)
    and the lidar, radiometer and disdrometer on the time grid.  Floating point numbers
    are exact rationals. *)
From Verif Require Import Base ArrayModel FillModel TimeModel GridModel ImageModel OutputModel TelegramModel.
From Coq Require Import Qabs String.
Open Scope string_scope.
Open Scope nat_scope.
Open Scope list_scope.
Local Notation length := List.length (only parsing).
Local Notation dict := OutputModel.dict (only parsing).

(** ** Times and heights *)

(** The variables of a file that are read by [DataSource.__init__], each with its unit.
    A scalar is a list with one value.  Times and heights have no masked values. *)
Record source := {
  s_time : list Q;
  s_altitude : option (string * list (masked Q));
  s_height : option (string * list Q);
  s_range : option (string * list Q) }.
(** datasource.py 136-145, [to_m]: the factor. *)
Definition to_m_factor (units : string) : result Q :=
  if String.eqb units "km" then Ok 1000%Q
  else if mem_str units ["m"; "meters"] then Ok 1%Q
  else Raise ValueError.
Definition to_m (v : string * list Q) : result (list Q) :=
  bind (to_m_factor (fst v)) (fun f => Ok (map (fun x => (x * f)%Q) (snd v))).
(** datasource.py 147-155, [_init_time]. *)
Definition init_time (time : list Q) : result (list Q) :=
  match time with
  | [] => Raise ValidTimeStampError
  | t0 :: r => if qgt (list_max t0 r) 25 then seconds2hours time else Ok time
  end.
(** datasource.py 157-169, [_init_altitude].  The mean ignores masked values; an array
    without values, which has no mean, counts as masked. *)
Definition init_altitude (v : option (string * list (masked Q))) : result (option Q) :=
  match v with
  | None => Ok None
  | Some (units, l) =>
      match unmasked l with
      | [] => Ok None
      | x => bind (to_m_factor units) (fun f => Ok (Some (mean (map (fun x => (x * f)%Q) x))))
      end
  end.
(** datasource.py 171-178, [_init_height]. *)
Definition init_height (s : source) (altitude : option Q) : result (option (list Q)) :=
  match s_height s with
  | Some v => bind (to_m v) (fun h => Ok (Some h))
  | None =>
      match s_range s, altitude with
      | Some v, Some a => bind (to_m v) (fun r => Ok (Some (map (fun x => (x + a)%Q) r)))
      | _, _ => Ok None
      end
  end.
Record opened := { o_time : list Q; o_altitude : option Q; o_height : option (list Q); o_height_agl : option (list Q) }.
(** datasource.py 54-68, [__init__]. *)
Definition open_source (s : source) : result opened :=
  bind (init_time (s_time s)) (fun time =>
  bind (init_altitude (s_altitude s)) (fun altitude =>
  bind (init_height s altitude) (fun height =>
  Ok {| o_time := time; o_altitude := altitude; o_height := height;
        o_height_agl := match height, altitude with
          | Some h, Some a => Some (map (fun x => (x - a)%Q) h)
          | _, _ => None
          end |}))).

(** ** Lidar *)

(** [scipy.interpolate.RegularGridInterpolator] with method "nearest", on one axis: the
    interval that contains the point, and its lower end if the point is not beyond the
    middle.  Points outside are replaced by NaN later. *)
Definition rgi_index (grid : list Q) (x : Q) : nat :=
  let i := Nat.min (searchsorted_right grid x - 1) (length grid - 2) in
  match nth_error grid i, nth_error grid (S i) with
  | Some a, Some b => if Qle_bool ((x - a) / (b - a))%Q (1 # 2) then i else S i
  | _, _ => 0
  end.
Definition rgi_outside (grid : list Q) (x : Q) : bool :=
  match nth_error grid 0, nth_error grid (length grid - 1) with
  | Some a, Some b => qlt x a || qgt x b
  | _, _ => true
  end.
Fixpoint strictly_up (l : list Q) : bool :=
  match l with
  | a :: (b :: _) as r => qlt a b && strictly_up r
  | _ => true
  end.
(** utils.py 409-441, [interpolate_2d_nearest]: masked values are NaN for scipy and
    masked in the result.  scipy raises ValueError for axes that are not strictly
    monotonic (descending axes are not modelled) or do not fit the data, and IndexError
    for an empty axis. *)
Definition interpolate_2d_nearest (x y : list Q) (z : image (masked Q)) (x_new y_new : list Q)
  : result (image (masked Q)) :=
  if negb (strictly_up x && strictly_up y) then Raise ValueError
  else if negb ((length x =? length z) && forallb (fun row => length row =? length y) z) then Raise ValueError
  else if (length x =? 0) || (length y =? 0) then Raise IndexError
  else Ok (map (fun xn => map (fun yn =>
    if rgi_outside x xn || rgi_outside y yn then None
    else match pixel z (rgi_index x xn) (rgi_index y yn) with Some v => v | None => None end) y_new) x_new).
(** lidar.py 40: [ma.all(b) is not ma.masked], true if some value is visible. *)
Definition has_data (row : list (masked Q)) : bool := existsb (fun v => negb (is_masked v)) row.
(** lidar.py 27-66, [interpolate_to_grid] with [_mask_profiles]: the new beta and the
    time steps without lidar. *)
Definition interpolate_lidar (time : list Q) (height : option (list Q)) (beta : image (masked Q))
  (time_new height_new : list Q) : result (image (masked Q) * list nat) :=
  match height with
  | None => Raise RuntimeError
  | Some h =>
      let indices := where1 (map has_data beta) in
      bind (gather time indices) (fun t =>
      bind (gather beta indices) (fun b =>
      bind (interpolate_2d_nearest t h b time_new height_new) (fun beta_interp =>
      let time_gap_ind := get_gap_ind t time_new (1 # 60) in
      let height_gap_ind := get_gap_ind h height_new 100 in
      let masked_time := imapi (fun i j v => if existsb (Nat.eqb i) time_gap_ind then None else v) beta_interp in
      Ok (imapi (fun i j v => if existsb (Nat.eqb j) height_gap_ind then None else v) masked_time, time_gap_ind))))
  end.

(** ** Microwave radiometer *)

Section Mwr.
  (** [ma.sqrt] of one value that is not negative. *)
  Variable sqrt : Q -> Q.
  (** mwr.py 42-47, [_init_lwp_data]: a masked flag differs from zero. *)
  Definition init_lwp (lwp : list (masked Q)) (flag : option (list (masked Z))) : result (list (masked Q)) :=
    match flag with
    | None => Ok lwp
    | Some f =>
        if length f =? length lwp
        then Ok (map2 (fun q x => match q with Some 0%Z => x | _ => None end) f lwp)
        else Raise IndexError
    end.
  (** mwr.py 49-51, [_init_lwp_error] with [utils.l2norm]. *)
  Definition lwp_error (lwp : list (masked Q)) : list (masked Q) :=
    map (option_map (fun x => sqrt (x * (1 # 4) * (x * (1 # 4)) + (20 * (1 # 1000)) * (20 * (1 # 1000)))%Q)) lwp.
  (** mwr.py 28-40, [interpolate_to_grid], for both variables. *)
  Definition mwr_to_grid (time : list Q) (lwp : list (masked Q)) (flag : option (list (masked Z)))
    (time_grid : list Q) (max_time : Q) : result (dict (list (masked Q))) :=
    bind (init_lwp lwp flag) (fun lwp =>
    bind (interpolate_1d time lwp time_grid max_time) (fun a =>
    bind (interpolate_1d time (lwp_error lwp) time_grid max_time) (fun b =>
    Ok [("lwp", a); ("lwp_error", b)]))).
End Mwr.

(** ** Disdrometer *)

(** [interp1d(kind="nearest")] with end values outside: the samples are separated at the
    middle between their times, which belongs to the earlier one. *)
Definition nearest_value (samples : list (Q * Q)) (t : Q) : Q :=
  let k := searchsorted_left (midpoints (map fst samples)) t in
  match nth_error samples (Nat.min k (length samples - 1)) with Some p => snd p | None => 0%Q end.
(** utils.py 476-512 with method "nearest"; otherwise as [interpolate_1d]. *)
Definition interpolate_1d_nearest (time : list Q) (y : list (masked Q)) (time_new : list Q) (max_time : Q)
  : result (list (masked Q)) :=
  if negb (length time =? length y) then Raise IndexError else
  match time with
  | [] => Raise ValueError
  | t0 :: r =>
      if qgt (list_max t0 r) 24 || qlt (list_min t0 r) 0 then Raise ValueError
      else
        let good := filter (fun p => negb (is_masked (snd p))) (combine time y) in
        match good with
        | [] => Ok (map (fun _ => None) time_new)
        | _ =>
            let gt := map fst good in
            let gy := unmasked (map snd good) in
            bind (gather gt (unique_index gt)) (fun ut =>
            bind (gather gy (unique_index gt)) (fun uy =>
            let bad := get_gap_ind ut time_new (max_time / 60)%Q in
            Ok (map (fun p => if existsb (Nat.eqb (fst p)) bad then None
                              else Some (nearest_value (combine ut uy) (snd p)))
                  (enumerate time_new))))
        end
  end.
(** disdrometer.py 31-40, [_init_rainfall_rate]: the variables that are used. *)
Definition init_disdrometer (variables : dict (list (masked Q))) : result (dict (list (masked Q))) :=
  bind (sequence (map (fun key =>
    match lookup key variables with
    | Some x => Ok [(key, x)]
    | None => if String.eqb key "synop_WaWa" then Ok [] else Raise DisdrometerDataError
    end) ["rainfall_rate"; "n_particles"; "synop_WaWa"])) (fun l => Ok (List.concat l)).
(** disdrometer.py 24-29, [interpolate_to_grid]. *)
Definition disdrometer_to_grid (time : list Q) (data : dict (list (masked Q))) (time_grid : list Q)
  : result (dict (list (masked Q))) :=
  sequence (map (fun kv =>
    bind (if String.eqb (fst kv) "synop_WaWa" then interpolate_1d_nearest time (snd kv) time_grid 1
          else interpolate_1d time (snd kv) time_grid 1) (fun y => Ok (fst kv, y))) data).

(** ** rebin_1d *)

(** [scipy.stats.binned_statistic]: the values of bin [k] of [n]; the last bin contains
    its right edge. *)
Definition bin_values (edges : list Q) (n : nat) (samples : list (Q * Q)) (k : nat) : list Q :=
  match nth_error edges k, nth_error edges (S k) with
  | Some lo, Some hi =>
      map snd (filter (fun p => Qle_bool lo (fst p) && (if S k =? n then Qle_bool (fst p) hi else qlt (fst p) hi)) samples)
  | _, _ => []
  end.
(** utils.py 167-197, [rebin_1d] with the mean; NaN is masked.  Arrays of different
    length raise IndexError. *)
Definition rebin_1d (x_in : list Q) (array : list (masked Q)) (x_new : list Q) : result (list (masked Q)) :=
  bind (binvec x_new) (fun edges =>
  if negb (length x_in =? length array) then Raise IndexError else
  let good := filter (fun p => negb (is_masked (snd p))) (combine x_in array) in
  let samples := combine (map fst good) (unmasked (map snd good)) in
  if existsb (fun v => negb (Qeq_bool v 0)) (unmasked array)
  then Ok (map (fun k => ma_stat mean (map Some (bin_values edges (length x_new) samples k))) (seq 0 (length x_new)))
  else Ok (map (fun _ => Some 0%Q) x_new)).
(** cloudnetarray.py 61-78, [rebin_data] of a one-dimensional array: the masked bins are
    the time steps without data. *)
Definition rebin_data_1d (time : list Q) (data : list (masked Q)) (time_new : list Q)
  : result (list (masked Q) * list nat) :=
  bind (rebin_1d time data time_new) (fun out => Ok (out, where1 (map is_masked out))).
