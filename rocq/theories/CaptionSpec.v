(** Specification: titles of level 3 figures. *)
From Verif Require Import Base TelegramSpec.
From Coq Require Import String Ascii.
Open Scope string_scope.
Open Scope list_scope.

(** The field belongs to the product: its name is that of the product, or begins with it and
    an underscore. *)
Definition belongs (field product : string) : Prop :=
  field = product \/ exists rest, field = (product ++ "_" ++ rest)%string.
(** What is said of an observed cloud fraction. *)
Definition of_kind (field area volume kind : string) : Prop :=
  (occurs "V" field /\ kind = volume) \/ (~ occurs "V" field /\ kind = area).
