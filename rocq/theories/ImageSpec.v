(** Connectivity of pixels, independent of any labelling. *)
From Verif Require Import Base.
Open Scope nat_scope.

(** A pixel of a mask that is set. *)
Definition set_in (m : image bool) (p : nat * nat) : Prop := pixel m (fst p) (snd p) = Some true.

(** Sharing an edge: next gate of the same profile or next profile at the same
    gate. *)
Definition edge_next (p q : nat * nat) : Prop :=
  (fst p = fst q /\ (snd p = S (snd q) \/ snd q = S (snd p))) \/
  (snd p = snd q /\ (fst p = S (fst q) \/ fst q = S (fst p))).

(** The eight surrounding pixels. *)
Definition around (p q : nat * nat) : Prop :=
  p <> q /\ fst p <= S (fst q) /\ fst q <= S (fst p) /\ snd p <= S (snd q) /\ snd q <= S (snd p).

(** Previous or next profile at the same gate. *)
Definition beside (p q : nat * nat) : Prop :=
  snd p = snd q /\ (fst p = S (fst q) \/ fst q = S (fst p)).

(** A walk inside the mask. *)
Inductive walk (next : nat * nat -> nat * nat -> Prop) (m : image bool) : nat * nat -> nat * nat -> Prop :=
| walk_here : forall p, set_in m p -> walk next m p p
| walk_step : forall p q r, walk next m p q -> next q r -> set_in m r -> walk next m p r.

(** The connected cloud of [p] has more than [n] pixels. *)
Definition cloud_larger (m : image bool) (n : Z) (p : nat * nat) : Prop :=
  exists l : list (nat * nat), NoDup l /\ (forall q, In q l -> walk edge_next m p q) /\
    (n < Z.of_nat (length l))%Z.
