(** Model of the errors and the sensitivity of the radar reflectivity
    (categorize/radar.py, [calc_errors]). *)
From Verif Require Import Base GridModel DropletModel CleanModel.
From Coq Require Import Reals.
Open Scope nat_scope.
Open Scope list_scope.
Local Notation length := List.length (only parsing).

(** ** Sensitivity: rational numbers *)

(** radar.py 315, [z - log_range]: [log_range] is [20 * log10(range)], masked for a
    range that is not positive. *)
Definition minus (x y : masked Q) : masked Q :=
  match x, y with Some a, Some b => Some (a - b)%Q | _, _ => None end.
Definition plus (x y : masked Q) : masked Q :=
  match x, y with Some a, Some b => Some (a + b)%Q | _, _ => None end.
Fixpoint row_minus (row log_range : list (masked Q)) : list (masked Q) :=
  match row, log_range with
  | x :: r, y :: s => minus x y :: row_minus r s
  | _, _ => []
  end.
Definition z_power (z : image (masked Q)) (log_range : list (masked Q)) : image (masked Q) :=
  map (fun row => row_minus row log_range) z.
(** radar.py 307-310, [_calc_z_power_min]. *)
Definition z_power_min (z : image (masked Q)) (log_range : list (masked Q)) : Q :=
  match unmasked (List.concat (z_power z log_range)) with
  | [] => 0%Q
  | l => percentile (1 # 1000) l
  end.
(** [ma.array(z, mask=~is_clutter)]: what was masked stays masked. *)
Fixpoint row_clutter (row : list (masked Q)) (clutter : list bool) : list (masked Q) :=
  match row, clutter with
  | x :: r, b :: s => (if b then x else None) :: row_clutter r s
  | _, _ => []
  end.
Fixpoint clutter_only (z : image (masked Q)) (is_clutter : image bool) : image (masked Q) :=
  match z, is_clutter with
  | row :: r, b :: s => row_clutter row b :: clutter_only r s
  | _, _ => []
  end.
(** radar.py 250-257, [_calc_sensitivity], gate [j]. *)
Definition sensitivity (z gas : image (masked Q)) (is_clutter : image bool) (log_range : list (masked Q)) (j : nat) : masked Q :=
  let mean_gas_atten := ma_stat mean (column gas j) in
  let z_sensitivity := plus (plus (Some (z_power_min z log_range)) (nth j log_range None)) mean_gas_atten in
  match median (unmasked (column (clutter_only z is_clutter) j)) with
  | Some zc => Some zc
  | None => z_sensitivity
  end.
Definition calc_sensitivity (z gas : image (masked Q)) (is_clutter : image bool) (log_range : list (masked Q)) : list (masked Q) :=
  map (sensitivity z gas is_clutter log_range) (seq 0 (length log_range)).

(** ** Error: real numbers, one pixel *)

(** radar.py 289-305, [_number_of_independent_pulses]; [width] is [None] if there is
    no such variable, [step] is the median time step in hours, the frequency is in GHz.
    Simplification: the square root of a negative width (NaN) is not modelled. *)
Definition number_of_pulses (z : masked R) (width : option (masked R)) (step frequency : R) : masked R :=
  let width := match width with
               | Some w => w
               | None => match z with Some _ => Some (3 / 10)%R | None => None end
               end in
  let dwell_time := (step * 3600)%R in
  let wl := (300000000 / (frequency * 1000000000))%R in
  option_map (fun w => 4 * sqrt PI * dwell_time * w / wl)%R width.
(** [10 ** (x / 10)], utils.py 537-544. *)
Definition db2lin (x : R) : R := exp (x / 10 * ln 10).
(** radar.py 267-272: [ma.divide] masks a division by zero. *)
Definition z_precision (zmin : R) (power : masked R) (pulses : masked R) : masked R :=
  match pulses, power with
  | Some n, Some p =>
      if Req_EM_T (sqrt n) 0 then None
      else Some (10 / ln 10 / sqrt n * (1 + db2lin (zmin - p) / 3))%R
  | _, _ => None
  end.
Definition filled (x : masked R) : R := match x with Some v => v | None => 0%R end.
(** utils.py 559-579, [l2norm], of the precision and three numbers. *)
Definition l2norm (p : masked R) (a b c : R) : masked R :=
  option_map (fun x => sqrt (x ^ 2 + a ^ 2 + b ^ 2 + c ^ 2)) p.
(** The error of an attenuation and whether it is uncorrected, at a pixel. *)
Record atten := { at_error : masked R; at_uncorrected : bool }.
(** radar.py 259-287, [_calc_error]. *)
Definition z_error (zmin : R) (z log_range : masked R) (width : option (masked R)) (step frequency : R)
  (liquid rain melting : atten) : masked R :=
  let power := match z, log_range with Some a, Some b => Some (a - b)%R | _, _ => None end in
  let n_pulses := number_of_pulses z width step frequency in
  let e := l2norm (z_precision zmin power n_pulses)
             (filled (at_error liquid)) (filled (at_error rain)) (filled (at_error melting)) in
  if at_uncorrected liquid || at_uncorrected rain || at_uncorrected melting then None else e.
