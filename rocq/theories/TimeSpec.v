(** Specifications for time screening: dates, alignment, first occurrences. *)
From Verif Require Import Base TimeModel.
From Coq Require Import Qabs String.
Open Scope nat_scope.

(** [u] is the whole number of microseconds nearest to [t] seconds (ties to even). *)
Definition rounds_to (t : Q) (u : Z) : Prop :=
  (2 * Qabs (t * 1000000 - inject_Z u) < 1)%Q \/
  ((2 * Qabs (t * 1000000 - inject_Z u) == 1)%Q /\ Z.even u = true).
(** The timestamp falls on the day starting [day] * 24 h after the origin. *)
Definition on_date (epoch_us day : Z) (t : Q) : Prop :=
  exists u, rounds_to t u /\
    (day * 86400000000 <= epoch_us + u < (day + 1) * 86400000000)%Z.

(** [idx] sorts [time]: every index once, times not decreasing. *)
Definition is_argsort (time : list Q) (idx : list nat) : Prop :=
  Permutation idx (seq 0 (List.length time)) /\
  StronglySorted (fun i j => forall a b, nth_error time i = Some a -> nth_error time j = Some b -> (a <= b)%Q) idx.

(** [out] consists of the rows [idx] of [l], in that order. *)
Definition rows_of {A} (idx : list nat) (l out : list A) : Prop :=
  List.length out = List.length idx /\
  forall i k, nth_error idx i = Some k -> exists x, nth_error l k = Some x /\ nth_error out i = Some x.

Definition strictly_increasing (l : list Q) : Prop := StronglySorted (fun a b => a < b)%Q l.

(** The first occurrence of its value. *)
Definition first_occurrence (l : list Q) (i : nat) : Prop :=
  exists x, nth_error l i = Some x /\ forall j y, j < i -> nth_error l j = Some y -> ~ (x == y)%Q.

(** What happens to one variable: arrays along time follow the rows [idx]; every
    other value is unchanged. *)
Definition value_follows {P} (maxdim n : nat) (idx : list nat) (v v' : value P) : Prop :=
  match v with
  | VArr d rows =>
      if Nat.eqb (List.length rows) n && (Nat.leb 1 d && Nat.leb d maxdim)
      then exists rows', v' = VArr d rows' /\ rows_of idx rows rows'
      else v' = v
  | _ => v' = v
  end.
Definition dict_follows {P} (maxdim n : nat) (idx : list nat) (d d' : dict P) : Prop :=
  Forall2 (fun kv kv' => fst kv = fst kv' /\ value_follows maxdim n idx (snd kv) (snd kv')) d d'.
