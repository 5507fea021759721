(** Specification of the day statistics of the model evaluation. *)
From Coq Require Import List Bool Arith ZArith QArith Qabs String.
From Verif Require Import Base TelegramSpec StatModel.
Import ListNotations.
Open Scope string_scope. Open Scope nat_scope. Open Scope list_scope.
Local Notation length := List.length (only parsing).

(** ** Numbers *)

Definition number_at (l : list cell) (i : nat) (q : Q) : Prop := nth_error l i = Some (Some (Num q)).
Definition has_number (l : list cell) (q : Q) : Prop := In (Some (Num q)) l.

(** [v] is [x] rounded to a multiple of 1/[s], to an even multiple in the middle. *)
Definition rounded (s : Z) (x v : Q) : Prop :=
  exists u : Z, (v == inject_Z u / inject_Z s)%Q /\
    ((2 * Qabs (x * inject_Z s - inject_Z u) < 1)%Q \/
     ((2 * Qabs (x * inject_Z s - inject_Z u) == 1)%Q /\ Z.even u = true)).
Definition hundredths : Q -> Q -> Prop := rounded 100.

(** [out] has the elements of [l] with the property, in the same order. *)
Inductive pick {A} (P : A -> Prop) : list A -> list A -> Prop :=
| PickNil : pick P [] []
| PickTake x l out : P x -> pick P l out -> pick P (x :: l) (x :: out)
| PickSkip x l out : ~ P x -> pick P l out -> pick P (x :: l) out.

(** [out] has the visible elements of [l]. *)
Inductive visible : list cell -> list num -> Prop :=
| VisNil : visible [] []
| VisTake x l out : visible l out -> visible (Some x :: l) (x :: out)
| VisSkip l out : visible l out -> visible (None :: l) out.

Definition total (l : list Q) : Q := fold_right Qplus 0%Q l.
(** [v] is the mean of the numbers of [l], at least one. *)
Definition mean_of (l : list num) (v : Q) : Prop :=
  exists qs, pick (fun x => x <> NaN) l (map Num qs) /\ qs <> [] /\
    (v * inject_Z (Z.of_nat (length qs)) == total qs)%Q.

(** ** Errors *)

(** The value of the model is not below all observations. *)
Definition large_enough (obs : list cell) (m : Q) : Prop := exists o, has_number obs o /\ (o <= m)%Q.
(** Model and observation can be compared in pixel [i]. *)
Definition comparable (model obs : list cell) (i : nat) (m o : Q) : Prop :=
  number_at model i m /\ number_at obs i o /\ large_enough obs m.

(** ** Areas *)

Definition has_model (model obs : list cell) (i : nat) : Prop :=
  exists m, number_at model i m /\
    (large_enough obs m \/ (forall o, ~ has_number obs o) /\ (0 <= m)%Q).
Definition has_obs (obs : list cell) (i : nat) : Prop := exists o, number_at obs i o.

(** ** Histograms *)

(** The largest value shown in a histogram of these observations. *)
Definition highest (obs : list Q) (e : Q) : Prop :=
  (obs = [] /\ (e == 1)%Q) \/
  (exists q, In q obs /\ (forall x, In x obs -> (x == q)%Q) /\ (e == q + (1 # 2))%Q) \/
  (In e obs /\ (forall x, In x obs -> (x <= e)%Q) /\ exists x, In x obs /\ (x < e)%Q).

(** ** Small values *)

(** The smallest value shown of a variable, if it has a limit. *)
Definition shown_value (name : string) (q : Q) : Prop :=
  (0 < q)%Q /\ (occurs "lwc" name -> ((1 # 100000) <= q)%Q) /\ (occurs "iwc" name -> ((1 # 10000000) <= q)%Q).

(** ** Several observations *)

(** Pixel [i] of the model has a value that can be compared with all of these. *)
Definition comparable_all (model : list cell) (obss : list (list cell)) (i : nat) (m : Q) : Prop :=
  number_at model i m /\ Forall (fun obs => has_obs obs i /\ large_enough obs m) obss.
