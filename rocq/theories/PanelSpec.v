(** Specification: time axis, sources and hatched area of figures. *)
From Verif Require Import Base.
From Coq Require Import String Ascii.
Open Scope string_scope.
Open Scope list_scope.

(** Figures that show the times of the satellite. *)
Definition satellite_times (file_type : string) (names : list string) : Prop :=
  (file_type = "cpr-validation" /\ (In "echo_cpr" names \/ In "v_cpr" names)) \/
  (file_type = "cpr-tc-validation" /\ In "target_classification_cpr" names).
Definition digit_chars : list ascii := ["0"; "1"; "2"; "3"; "4"; "5"; "6"; "7"; "8"; "9"]%char.
(** The hour [h] as a time of day. *)
Definition clock (h : nat) (t : string) : Prop :=
  exists a b x y, t = String x (String y ":00") /\ nth_error digit_chars a = Some x /\ nth_error digit_chars b = Some y /\ h = (10 * a + b)%nat.
Definition has_line_break (s : string) : Prop := exists a b, s = (a ++ String (ascii_of_nat 10) b)%string.
