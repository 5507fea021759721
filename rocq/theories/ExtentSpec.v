(** Specification: dimensions of level 1b files and the curve of the wind direction. *)
From Verif Require Import Base.
From Coq Require Import String Qabs.
Open Scope string_scope.
Open Scope nat_scope.
Open Scope list_scope.
Local Notation length := List.length (only parsing).

(** [x] is the angle [a] up to full turns, from 0 to below 360. *)
Definition direction_of (a x : Q) : Prop := (0 <= x < 360)%Q /\ exists k : Z, (a == x + 360 * inject_Z k)%Q.
(** The curve jumps behind its point [i]. *)
Definition jumps (l : list Q) (i : nat) : Prop :=
  exists x y, nth_error l i = Some x /\ nth_error l (S i) = Some y /\ (300 < Qabs (y - x))%Q.
