(** Specification: entries of a header text, titles. *)
From Verif Require Import Base SiteSpec OutputSpec.
From Coq Require Import String Ascii.
Open Scope string_scope.
Open Scope nat_scope.
Open Scope list_scope.

(** The line [key:value]; white space around the value does not count. *)
Definition entry (line key value : string) : Prop :=
  exists rest, line = (key ++ ":" ++ rest)%string /\ without ":" key /\ stripped rest value.
(** The last line with this key says [value]. *)
Definition says (text key value : string) : Prop :=
  exists l1 line l2, separated (ascii_of_nat 10) text (l1 ++ line :: l2) /\
  entry line key value /\ forall other v, In other l2 -> ~ entry other key v.

(** A capital or a small letter of the same kind, everything else itself. *)
Definition capital_of (c d : ascii) : Prop :=
  (97 <= nat_of_ascii c <= 122 /\ nat_of_ascii c = nat_of_ascii d + 32) \/ (~ 97 <= nat_of_ascii c <= 122 /\ d = c).
Definition small_of (c d : ascii) : Prop :=
  (65 <= nat_of_ascii c <= 90 /\ nat_of_ascii d = nat_of_ascii c + 32) \/ (~ 65 <= nat_of_ascii c <= 90 /\ d = c).
Inductive small_text : string -> string -> Prop :=
| Small_empty : small_text "" ""
| Small_more : forall c d s t, small_of c d -> small_text s t -> small_text (String c s) (String d t).
Inductive capitalized : string -> string -> Prop :=
| Capitalized_empty : capitalized "" ""
| Capitalized_more : forall c d s t, capital_of c d -> small_text s t -> capitalized (String c s) (String d t).
