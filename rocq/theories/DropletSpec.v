(** Specification of peaks, liquid layers and gap filling, independent of the
    model's helpers. *)
From Verif Require Import Base.
Open Scope nat_scope.

(** A profile as a partial function of the gate. *)
Definition profile := nat -> option Q.

(** The gates examined below a peak: at most [dist], none below the ground. *)
Definition below_peak (p : nat) (dist : Z) (k : nat) : Prop :=
  k < p /\ (Z.of_nat p - Z.of_nat k <= dist)%Z.
(** The gates examined above a peak, the peak included. *)
Definition above_peak (p : nat) (dist : Z) (stop k : nat) : Prop :=
  p <= k /\ (Z.of_nat k - Z.of_nat p < dist)%Z /\ k < stop.

(** The largest value of [d] in a window. *)
Definition greatest (d : profile) (window : nat -> Prop) (m : Q) : Prop :=
  (exists k, window k /\ d k = Some m) /\ forall k x, window k -> d k = Some x -> (x <= m)%Q.
Definition least (d : profile) (window : nat -> Prop) (m : Q) : Prop :=
  (exists k, window k /\ d k = Some m) /\ forall k x, window k -> d k = Some x -> (m <= x)%Q.

(** The base of a peak: the lowest gate of the window whose step exceeds a fraction
    of the steepest step. *)
Definition base_of (d : profile) (p : nat) (dist : Z) (lim : Q) (b : nat) : Prop :=
  exists m x, greatest d (below_peak p dist) m /\ below_peak p dist b /\ d b = Some x /\ (m < x * lim)%Q /\
    forall k y, below_peak p dist k -> k < b -> d k = Some y -> (y * lim <= m)%Q.
(** The top of a peak: just above the highest gate of the window whose (negative)
    step exceeds a fraction of the steepest descent. *)
Definition top_of (d : profile) (p stop : nat) (dist : Z) (lim : Q) (t : nat) : Prop :=
  exists m x k, t = S k /\ least d (above_peak p dist stop) m /\ above_peak p dist stop k /\ d k = Some x /\
    (x * lim < m)%Q /\
    forall j y, above_peak p dist stop j -> k < j -> d j = Some y -> (m <= y * lim)%Q.

(** ** Liquid layers *)

(** The backscatter at a gate, zero where masked. *)
Definition signal (row : list (masked Q)) (k : nat) : Q :=
  match nth_error row k with Some (Some x) => x | _ => 0%Q end.
(** The step from gate [k] to the next one, zero where either value is masked. *)
Definition step_up (row : list (masked Q)) (k : nat) : option Q :=
  match nth_error row k, nth_error row (S k) with
  | Some (Some a), Some (Some b) => Some (b - a)%Q
  | Some _, Some _ => Some 0%Q
  | _, _ => None
  end.
(** A local maximum over four gates on either side, neither first nor last gate. *)
Definition strong_peak (row : list (masked Q)) (amp : Q) (p : nat) : Prop :=
  (amp < signal row p)%Q /\ 0 < p /\ S p < length row /\
  forall k, k <> p -> k <= p + 4 -> p <= k + 4 -> k < length row -> (signal row k < signal row p)%Q.
(** Number of gates with signal between two gates. *)
Definition gates_with_signal (row : list (masked Q)) (a b : nat) : nat :=
  length (filter (fun k => negb (Qeq_bool (signal row k) 0)) (seq a (S b - a))).

(** ** Evenly spaced grids *)
Definition spacing_within (array : list Q) (lo hi : Q) : Prop :=
  forall i a b, nth_error array i = Some a -> nth_error array (S i) = Some b -> (lo <= b - a /\ b - a <= hi)%Q.

(** Strictly increasing. *)
Definition rising (l : list Q) : Prop :=
  forall i j a b, i < j -> nth_error l i = Some a -> nth_error l j = Some b -> (a < b)%Q.

(** The median: the middle of the sorted values, or half way between the two middle
    ones. *)
Definition is_median (l : list Q) (m : Q) : Prop :=
  exists s a b, Permutation l s /\
    (forall i j x y, i <= j -> nth_error s i = Some x -> nth_error s j = Some y -> (x <= y)%Q) /\
    nth_error s ((length l - 1) / 2) = Some a /\ nth_error s (length l / 2) = Some b /\ (m * 2 == a + b)%Q.
(** The step between neighbouring points. *)
Definition steps_of (array steps : list Q) : Prop :=
  S (length steps) = length array /\
  forall i x, nth_error steps i = Some x ->
    exists a b, nth_error array i = Some a /\ nth_error array (S i) = Some b /\ (x == b - a)%Q.
(** Nearest integer, ties to the even one. *)
Definition nearest_integer (q : Q) (n : Z) : Prop :=
  (q - inject_Z n < 1 # 2 /\ inject_Z n - q < 1 # 2)%Q \/
  ((q - inject_Z n == 1 # 2 \/ inject_Z n - q == 1 # 2)%Q /\ Z.even n = true).

(** A liquid layer around peak [p] of one profile, with all limits explicit. *)
Definition layer_of_peak (amp width : Q) (points : nat) (der lwp_limit alt : Q) (below above : Z)
  (height : list Q) (lwp : Q) (row : list (masked Q)) (p base top : nat) : Prop :=
  strong_peak row amp p /\ base_of (step_up row) p below 4 base /\ top_of (step_up row) p (length height) above 4 top /\
  points <= gates_with_signal row base top /\ (lwp_limit <= lwp)%Q /\
  exists h_first h_peak h_base h_top,
    nth_error height 0 = Some h_first /\ nth_error height p = Some h_peak /\
    nth_error height base = Some h_base /\ nth_error height top = Some h_top /\
    (h_top - h_base < width)%Q /\ (der * (h_top - h_peak) < signal row p - signal row top)%Q /\
    (alt < h_peak - h_first)%Q.
