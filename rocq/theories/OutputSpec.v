(** Vocabulary for the output properties, independent of the model's helpers. *)
From Verif Require Import Base OutputModel.
Local Open Scope string_scope.

(** A string without line breaks. *)
Definition one_line (s : string) : Prop := ~ exists a b, s = a ++ nl ++ b.
(** Text consisting of the given lines. *)
Fixpoint unlines (l : list string) : string :=
  match l with
  | [] => ""
  | [x] => x
  | x :: l' => x ++ nl ++ unlines l'
  end.
(** [l] are the lines of the text [h]. *)
Definition lines_of (h : string) (l : list string) : Prop :=
  l <> [] /\ Forall one_line l /\ h = unlines l.
(** The history lines one input contributes: all of them, for a model file only
    the last one. *)
Definition source_lines (s : history_source) (l : list string) : Prop :=
  match hs_history s with
  | None => l = []
  | Some h =>
      if hs_model s then
        exists earlier line, l = [line] /\ lines_of h (earlier ++ [line])%list
      else lines_of h l
  end.

(** Order of code points: [s] sorts strictly before [t]. *)
Definition str_lt (s t : string) : Prop :=
  exists p s' t', s = p ++ s' /\ t = p ++ t' /\
    ((s' = "" /\ t' <> "") \/
     exists a b s'' t'', s' = String a s'' /\ t' = String b t'' /\
       (nat_of_ascii a < nat_of_ascii b)%nat).

(** [a] occurs in [l] somewhere before [b]. *)
Definition before {A} (l : list A) (a b : A) : Prop :=
  exists l1 l2 l3, l = (l1 ++ a :: l2 ++ b :: l3)%list.
(** [a] occurs in [l], and no [b] comes before its first occurrence. *)
Definition first_before {A} (l : list A) (a b : A) : Prop :=
  exists l1 l2, l = (l1 ++ a :: l2)%list /\ ~ In b l1.

(** The text before the first " - " of a line, or the whole line. *)
Definition no_dash (s : string) : Prop := ~ exists a b, s = a ++ " - " ++ b.
Definition head_of (line p : string) : Prop :=
  (exists rest, line = p ++ " - " ++ rest /\ no_dash (p ++ " -")) \/
  (line = p /\ no_dash line).
(** [ts] is [p] without white space at its ends. *)
Definition blank (s : string) : Prop := forall a c b, s = a ++ String c b -> is_space c = true.
Definition stripped (p ts : string) : Prop :=
  exists l r, p = l ++ ts ++ r /\ blank l /\ blank r /\
    (forall c s, ts = String c s -> is_space c = false) /\
    (forall c s, ts = s ++ String c "" -> is_space c = false).
(** [t] is the time stamp of the line, read by [strptime]. *)
Definition stamped (strptime : string -> option Z) (line : string) (t : Z) : Prop :=
  exists p ts, head_of line p /\ stripped p ts /\ strptime ts = Some t.

(** The copy [v] of a variable [w]: same dimensions, data and attribute values. *)
Definition same_variable {V D} (v w : ncvar V D) : Prop :=
  nv_dims v = nv_dims w /\ nv_data v = nv_data w /\
  forall a, lookup a (nv_attrs v) = lookup a (nv_attrs w).
