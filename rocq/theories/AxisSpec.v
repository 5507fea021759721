(** Specification: axes of level 3 figures. *)
From Verif Require Import Base.
Open Scope nat_scope.
Open Scope list_scope.
Local Notation length := List.length (only parsing).

(** All rows have the same number of values. *)
Definition rectangular {A : Type} (n w : nat) (m : image A) : Prop := length m = n /\ forall row, In row m -> length row = w.
(** Some value, all values of a row are masked. *)
Definition some_masked (m : image (masked Q)) : Prop := exists i j, pixel m i j = Some None.
Definition all_masked (row : list (masked Q)) : Prop := forall v, ~ In (Some v) row.
(** The first row that is not masked completely. *)
Definition first_valid (m : image (masked Q)) (row : list (masked Q)) : Prop :=
  exists before after, m = before ++ row :: after /\ ~ all_masked row /\ forall r, In r before -> all_masked r.
(** Metres in kilometres. *)
Definition km (metres kilometres : masked Q) : Prop :=
  (metres = None /\ kilometres = None) \/ exists v, metres = Some v /\ kilometres = Some (v / 1000)%Q.
