(** Specification: the raw files of a folder. *)
From Verif Require Import Base HatproSpec.
From Coq Require Import String Ascii Sorting.Sorted.
Open Scope string_scope.
Open Scope nat_scope.
Open Scope list_scope.

(** The same text up to capital letters: letters A-Z and a-z differ by 32. *)
Inductive same_letter : ascii -> ascii -> Prop :=
| Same_equal : forall c, same_letter c c
| Same_capital : forall c d, 65 <= nat_of_ascii c <= 90 -> nat_of_ascii d = nat_of_ascii c + 32 -> same_letter c d
| Same_small : forall c d, 65 <= nat_of_ascii d <= 90 -> nat_of_ascii c = nat_of_ascii d + 32 -> same_letter c d.
Inductive same_text : string -> string -> Prop :=
| Same_empty : same_text "" ""
| Same_more : forall c d s t, same_letter c d -> same_text s t -> same_text (String c s) (String d t).
(** The name ends with the extension, in capital letters or not. *)
Definition has_extension (extension name : string) : Prop :=
  exists stem e, name = (stem ++ e)%string /\ same_text e extension.

(** In the order of names. *)
Definition by_name (l : list string) : Prop := StronglySorted before l.
