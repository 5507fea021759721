(** Specifications for grids: bins, gaps, nearest neighbours. *)
From Verif Require Import Base.
From Coq Require Import Qabs.
Open Scope nat_scope.

Definition nat_q (n : nat) : Q := inject_Z (Z.of_nat n).

(** Values in non-decreasing order. *)
Definition ascending (l : list Q) : Prop := StronglySorted Qle l.

(** Half-open bin number [k] of [n] bins of equal width between [lo] and [hi]. *)
Definition in_bin (lo hi : Q) (n k : nat) (x : Q) : Prop :=
  let w := ((hi - lo) / nat_q n)%Q in
  (lo + nat_q k * w <= x /\ x < lo + (nat_q k + 1) * w)%Q.

(** The outer edges of a grid of centre points: half the first and the last step
    beyond the first and the last point. *)
Definition outer_edges (x : list Q) (lo hi : Q) : Prop :=
  exists x0 x1 xp xl, nth_error x 0 = Some x0 /\ nth_error x 1 = Some x1 /\
    nth_error x (length x - 2) = Some xp /\ nth_error x (length x - 1) = Some xl /\
    (lo == x0 - (x1 - x0) / 2)%Q /\ (hi == xl + (xl - xp) / 2)%Q.

(** Index [i] of [l] is at minimal distance from [x]. *)
Definition is_nearest (l : list Q) (x : Q) (i : nat) : Prop :=
  exists g, nth_error l i = Some g /\ forall h, In h l -> (Qabs (x - g) <= Qabs (x - h))%Q.

(** The values that are not masked, with their order. *)
Fixpoint present {A} (l : list (masked A)) : list A :=
  match l with [] => [] | Some v :: r => v :: present r | None :: r => present r end.

(** Column [j] of the rows with an index in [sel]. *)
Definition cell {A} (m : image (masked A)) (i j : nat) : masked A :=
  match nth_error m i with
  | Some row => match nth_error row j with Some v => v | None => None end
  | None => None
  end.

(** The statistic of the present values of a bin: masked if there are none, or if it
    is zero and zeros are to be masked. *)
Definition bin_value (stat : list Q -> Q) (mask_zeros : bool) (values : list Q) (out : masked Q) : Prop :=
  match values with
  | [] => out = None
  | _ => if mask_zeros then (stat values == 0 -> out = None)%Q /\ (~ stat values == 0 -> out = Some (stat values))%Q
         else out = Some (stat values)
  end.

(** Sample number [i] of a masked time series. *)
Definition sample (time : list Q) (y : list (masked Q)) (i : nat) (t v : Q) : Prop :=
  nth_error time i = Some t /\ nth_error y i = Some (Some v).
(** The first unmasked sample at its time. *)
Definition first_sample (time : list Q) (y : list (masked Q)) (t v : Q) : Prop :=
  exists i, sample time y i t v /\ forall i' t' v', i' < i -> sample time y i' t' v' -> ~ (t' == t)%Q.

(** Sum of the values of a list of valid observations. *)
Fixpoint total (l : list ((nat * nat) * Q)) : Q :=
  match l with [] => 0 | (_, v) :: r => v + total r end%Q.
(** The valid observations of a window, each once. *)
Definition window_observations (x_in y_in : nat -> Prop) (obs : image (masked Q)) (l : list ((nat * nat) * Q)) : Prop :=
  NoDup (map fst l) /\
  forall i j v, In ((i, j), v) l <-> pixel obs i j = Some (Some v) /\ x_in i /\ y_in j.
