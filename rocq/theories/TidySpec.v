(** Specification: attributes of variables and small helpers. *)
From Verif Require Import Base.
From Coq Require Import String Ascii.
Open Scope string_scope.
Open Scope list_scope.

(** Correct attributes: what was called unit is called units. *)
Definition units_named (before after : string -> option string) : Prop :=
  after "unit" = None /\
  (forall u, before "unit" = Some u -> after "units" = Some u) /\
  (before "unit" = None -> after "units" = before "units") /\
  forall k, k <> "unit" -> k <> "units" -> after k = before k.
(** A text of decimal digits. *)
Definition digits (n : nat) (t : string) : Prop :=
  String.length t = n /\ forall i c, String.get i t = Some c -> In c ["0"; "1"; "2"; "3"; "4"; "5"; "6"; "7"; "8"; "9"]%char.
