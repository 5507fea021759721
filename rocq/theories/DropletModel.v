(** Model of the liquid layer detection of droplet.py, with [utils.n_elements]. *)
From Verif Require Import Base ArrayModel FillModel TimeModel GridModel LayerModel ImageModel.
Open Scope nat_scope.

(** ** NumPy primitives *)

(** [array[i]] with a non-negative index. *)
Definition item {A} (l : list A) (i : nat) : result A :=
  match nth_error l i with Some x => Ok x | None => Raise IndexError end.
(** [array[a:b]] with non-negative bounds. *)
Definition section {A} (a b : nat) (l : list A) : list A := firstn (b - a) (skipn a l).
(** [np.diff(array)]. *)
Definition diffs (l : list Q) : list Q := map2 (fun a b => (b - a)%Q) l (tl l).

(** [np.argmax] of a 1-D array: first maximum, ValueError when empty. *)
Fixpoint argmax_from (i best : nat) (bestv : Q) (l : list Q) : nat :=
  match l with
  | [] => best
  | x :: r => if qlt bestv x then argmax_from (S i) i x r else argmax_from (S i) best bestv r
  end.
Definition argmax (l : list Q) : result nat :=
  match l with [] => Raise ValueError | x :: r => Ok (argmax_from 1 0 x r) end.

(** [ma.median] of unmasked values: the middle value, or the mean of the two middle
    values; [None] (masked) when there are none. *)
Fixpoint qinsert (x : Q) (l : list Q) : list Q :=
  match l with [] => [x] | y :: r => if Qle_bool x y then x :: l else y :: qinsert x r end.
Definition qsort (l : list Q) : list Q := fold_right qinsert [] l.
Definition median (l : list Q) : masked Q :=
  let s := qsort l in
  match nth_error s ((length s - 1) / 2), nth_error s (length s / 2) with
  | Some a, Some b => Some ((a + b) / 2)%Q
  | _, _ => None
  end.

(* ------------------------------------------------------------------ *)
(** ** utils.py *)

(** utils.py 554-556, [mdiff].  For fewer than two points the median is masked and
    [float] of it is NaN, [None] here. *)
Definition mdiff (array : list Q) : masked Q := median (diffs array).
(** utils.py 694-730, [n_elements]; [per_minute] is [var == "time"].  [int] of NaN
    raises ValueError; a zero median difference is a division of Python floats. *)
Definition n_elements (array : list Q) (dist : Q) (per_minute : bool) : result Z :=
  match mdiff array with
  | None => Raise ValueError
  | Some d =>
      if Qeq_bool d 0 then Raise ZeroDivisionError
      else let n := (dist / d)%Q in
           Ok (round_half_even (if per_minute then n / 60 else n)%Q)
  end.

(* ------------------------------------------------------------------ *)
(** ** droplet.py *)

(** droplet.py 125-187, [ind_base]. *)
Definition ind_base (dprof : list Q) (ind_peak : nat) (dist : Z) (lim : Q) : result nat :=
  let start := Z.to_nat (Z.max (Z.of_nat ind_peak - dist) 0) in
  let d := section start ind_peak dprof in
  bind (argmax d) (fun mind =>
  bind (item d mind) (fun dmax =>
  match where1 (map (fun x => qlt (dmax / lim) x) d) with
  | [] => Raise IndexError
  | i :: _ => Ok (start + i)
  end)).

(** droplet.py 190-225, [ind_top].  Simplification: an end before the start of the
    profile (a negative [dist]) does not wrap around. *)
Definition ind_top (dprof : list Q) (ind_peak nprof : nat) (dist : Z) (lim : Q) : result nat :=
  let stop := Z.to_nat (Z.min (Z.of_nat ind_peak + dist) (Z.of_nat nprof)) in
  let d := section ind_peak stop dprof in
  bind (argmin d) (fun mind =>
  bind (item d mind) (fun dmin =>
  match where1 (map (fun x => qlt x (dmin / lim)) d) with
  | [] => Raise IndexError
  | i :: r => Ok (ind_peak + last (i :: r) 0 + 1)
  end)).

(** droplet.py 228-241, [interpolate_lwp]: the samples are the unmasked values that
    are not zero ([ma.where(obs.lwp)]). *)
Definition lwp_samples (time : list Q) (lwp : list (masked Q)) : list (Q * Q) :=
  flat_map (fun p => match snd p with
                     | Some y => if Qeq_bool y 0 then [] else [(fst p, y)]
                     | None => []
                     end) (combine time lwp).
Definition interpolate_lwp (time : list Q) (lwp : list (masked Q)) : list Q :=
  if forallb is_masked lwp || Qeq_bool (fold_right Qplus 0%Q (unmasked lwp)) 0
  then map (fun _ => 0%Q) time
  else map (interp (lwp_samples time lwp)) time.

(** droplet.py 244-248, [_find_strong_peaks]:
    [scipy.signal.argrelextrema(data, np.greater, order=4, axis=1)] compares a
    point with the four points on either side, the index being clipped to the
    array; then the threshold. *)
Definition is_local_maximum (row : list Q) (j : nat) : bool :=
  forallb (fun s => qlt (nth (Nat.min (j + s) (length row - 1)) row 0%Q) (nth j row 0%Q)
                    && qlt (nth (j - s) row 0%Q) (nth j row 0%Q)) [1; 2; 3; 4].
Definition find_strong_peaks (data : image Q) (threshold : Q) : list (nat * nat) :=
  where2 (map (fun row => map (fun j => is_local_maximum row j && qlt threshold (nth j row 0%Q))
                              (seq 0 (length row))) data).

(** The keyword arguments of [find_liquid] (droplet.py 53-61). *)
Record liquid_limits := {
  peak_amp : Q; max_width : Q; min_points : nat; min_top_der : Q; min_lwp : Q; min_alt : Q }.
Definition default_limits : liquid_limits :=
  {| peak_amp := 1 # 1000000; max_width := 300; min_points := 3; min_top_der := 1 # 10000000;
     min_lwp := 0; min_alt := 100 |}.

(** droplet.py 101-103: [np.diff(beta, axis=1)] filled with zero where either value
    is masked, and [beta.filled(0)]. *)
Definition filled_diff (row : list (masked Q)) : list Q :=
  map2 (fun a b => match a, b with Some x, Some y => (y - x)%Q | _, _ => 0%Q end) row (tl row).
Definition filled_row (row : list (masked Q)) : list Q := map filled0 row.

(** droplet.py 107-120: one peak.  [np.count_nonzero] of base..top; a division by
    zero (equal heights) is not modelled. *)
Definition liquid_peak (o : liquid_limits) (height lwp_int : list Q) (base_below top_above : Z)
  (beta : image (masked Q)) (is_liquid : image bool) (np : nat * nat) : result (image bool) :=
  let n := fst np in let peak := snd np in
  let lprof := filled_row (nth n beta []) in
  let dprof := filled_diff (nth n beta []) in
  match bind (ind_base dprof peak base_below 4) (fun base =>
        bind (ind_top dprof peak (length height) top_above 4) (fun top => Ok (base, top))) with
  | Raise IndexError => Ok is_liquid
  | Raise e => Raise e
  | Ok (base, top) =>
      let npoints := length (filter (fun x => negb (Qeq_bool x 0)) (section base (top + 1) lprof)) in
      bind (item height top) (fun h_top =>
      bind (item height base) (fun h_base =>
      bind (item height peak) (fun h_peak =>
      bind (item height 0) (fun h_first =>
      bind (item lprof peak) (fun l_peak =>
      bind (item lprof top) (fun l_top =>
      bind (item lwp_int n) (fun lwp_n =>
      let peak_width := (h_top - h_base)%Q in
      let peak_alt := (h_peak - h_first)%Q in
      let top_der := ((l_peak - l_top) / (h_top - h_peak))%Q in
      let is_positive_lwp := Qle_bool (min_lwp o) lwp_n in
      if (min_points o <=? npoints) && qlt peak_width (max_width o) && qlt (min_top_der o) top_der
         && is_positive_lwp && qlt (min_alt o) peak_alt
      then Ok (imapi (fun i j b => assign ((i =? n) && (base <=? j) && (j <=? top)) true b) is_liquid)
      else Ok is_liquid)))))))
  end.

(** droplet.py 53-122, [find_liquid]. *)
Definition find_liquid (o : liquid_limits) (time height : list Q) (lwp : list (masked Q))
  (beta : image (masked Q)) : result (image bool) :=
  let lwp_int := interpolate_lwp time lwp in
  let is_liquid := imap (fun _ => false) beta in
  bind (n_elements height 200 false) (fun base_below_peak =>
  bind (n_elements height 150 false) (fun top_above_peak =>
  let peaks := find_strong_peaks (map filled_row beta) (peak_amp o) in
  fold_result (liquid_peak o height lwp_int base_below_peak top_above_peak beta) peaks is_liquid)).
