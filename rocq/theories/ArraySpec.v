(** Specifications for the array helpers, on positions only. *)
From Verif Require Import Base.
Open Scope nat_scope.

(** [j] is the last position not after [i] holding something different from the
    fill value. *)
Definition last_valid {A} (value : A) (l : list A) (i j : nat) : Prop :=
  j <= i /\ (exists x, nth_error l j = Some x /\ x <> value)
  /\ forall k, j < k -> k <= i -> nth_error l k = Some value.

(** Output of a forward fill at position [i]. *)
Definition ffill_spec {A} (value : A) (l out : list A) : Prop :=
  length out = length l /\
  forall i x, nth_error out i = Some x <->
    (exists j, last_valid value l i j /\ nth_error l j = Some x /\ i < length l)
    \/ (x = value /\ i < length l /\ forall k, k <= i -> nth_error l k = Some value).

(** Sum of a list of rationals. *)
Fixpoint qsum (l : list Q) : Q := match l with [] => 0%Q | x :: r => (x + qsum r)%Q end.

(** Entries [a..b-1] of a list. *)
Definition slice {A} (a b : nat) (l : list A) : list A := firstn (b - a) (skipn a l).

(** Sum since the last zero: [s] is the first position after the last zero at or
    before [i] (or 0). *)
Definition since_zero (l : list Q) (i s : nat) : Prop :=
  s <= S i /\
  (forall k x, s <= k -> k <= i -> nth_error l k = Some x -> ~ (x == 0)%Q) /\
  (s = 0 \/ exists x, nth_error l (s - 1) = Some x /\ (x == 0)%Q).

Definition cumsumr_spec (l out : list Q) : Prop :=
  length out = length l /\
  forall i y s, nth_error out i = Some y -> since_zero l i s -> (y == qsum (slice s (S i) l))%Q.

(** A maximal vertical run of set pixels [b..t] in a profile. *)
Definition max_run (row : list bool) (b t : nat) : Prop :=
  b <= t /\ (forall k, b <= k -> k <= t -> nth_error row k = Some true) /\
  (b = 0 \/ nth_error row (b - 1) = Some false) /\
  (nth_error row (S t) = Some false \/ S t = length row).
