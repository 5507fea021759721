(** Properties C190 and C191: header texts of MIRA files, titles of level 1b files. *)
From Verif Require Import Base OutputModel OutputSpec OutputProofs HeadModel HeadSpec HeadProofs.
From Coq Require Import String Ascii.
Open Scope string_scope.
Open Scope nat_scope.
Open Scope list_scope.

(** ** C190: header text *)

(** An entry of the header is what the last line with its name says. *)
Theorem C190_entries : forall text key value, read_hrd text key = Some value <-> says text key value.
Proof. exact hrd_iff. Qed.
Print Assumptions C190_entries.

Theorem C190_missing : forall text key, read_hrd text key = None <-> ~ exists value, says text key value.
Proof.
  intros text key. destruct (read_hrd text key) as [v|] eqn:E.
  - split; [discriminate|]. intros N. exfalso. apply N. exists v. apply hrd_iff, E.
  - split; [|reflexivity]. intros _ [v S]. apply hrd_iff in S. congruence.
Qed.
Print Assumptions C190_missing.

(** The frequency is that of the entry XMT, in GHz instead of Hz. *)
Theorem C190_frequency : forall to_float text x, radar_frequency to_float text = Ok x <->
  exists t hz, says text "XMT" t /\ to_float t = Some hz /\ x = (hz * (1 # 1000000000))%Q.
Proof.
  intros tf text x. unfold radar_frequency. destruct (read_hrd text "XMT") as [t|] eqn:E.
  - apply hrd_iff in E. destruct (tf t) as [hz|] eqn:F.
    + split.
      * intros H. exists t, hz. split; [exact E|]. split; [exact F|congruence].
      * intros (t' & hz' & S & F' & ->). apply hrd_iff in E. apply hrd_iff in S. congruence.
    + split; [discriminate|]. intros (t' & hz' & S & F' & _). apply hrd_iff in E. apply hrd_iff in S. congruence.
  - split; [discriminate|]. intros (t & hz & S & _). apply hrd_iff in S. congruence.
Qed.
Print Assumptions C190_frequency.

Theorem C190_no_frequency : forall to_float text e, radar_frequency to_float text = Raise e <->
  (e = KeyError /\ ~ exists t, says text "XMT" t) \/
  (e = ValueError /\ exists t, says text "XMT" t /\ to_float t = None).
Proof.
  intros tf text e. unfold radar_frequency. destruct (read_hrd text "XMT") as [t|] eqn:E.
  - assert (S : says text "XMT" t) by apply hrd_iff, E. destruct (tf t) as [hz|] eqn:F.
    + split; [discriminate|]. intros [[_ N]|[_ (t' & S' & F')]]; [exfalso; apply N; eauto|]. apply hrd_iff in S'. congruence.
    + split; [intros H; right; split; [congruence|eauto]|]. intros [[_ N]|[-> _]]; [exfalso; apply N; eauto|reflexivity].
  - apply C190_missing in E. split; [intros H; left; split; [congruence|exact E]|]. intros [[-> _]|[_ (t & S & _)]]; [reflexivity|exfalso; apply E; eauto].
Qed.
Print Assumptions C190_no_frequency.

(** White space around the name counts, in contrast to that around the value. *)
Theorem C190_white_space_refuted : exists text, read_hrd text "XMT" = None /\ read_hrd text "XMT " = Some "35.1e9".
Proof. exists "XMT : 35.1e9". split; reflexivity. Qed.
Print Assumptions C190_white_space_refuted.

Example C190_nonvacuous :
  let text := ("SN:  fzk" ++ String newline ("no entry" ++ String newline ("POL: 0:1 " ++ String newline "SN:b")))%string in
  read_hrd text "SN" = Some "b" /\ read_hrd text "POL" = Some "0:1" /\ read_hrd text "no entry" = None /\
  radar_frequency (fun t => if String.eqb t "35.1e9" then Some (35100000000 # 1)%Q else None) "XMT:35.1e9 " = Ok ((35100000000 # 1) * (1 # 1000000000))%Q.
Proof. cbv zeta. repeat split; reflexivity. Qed.

(** ** C191: titles *)

Theorem C191_model : forall model category location, model <> "" ->
  get_l1b_title (Some model) category location = (model ++ " " ++ category ++ " from " ++ location)%string.
Proof.
  intros m c l N. unfold get_l1b_title. destruct (String.eqb_spec m ""); [contradiction|].
  assert (A : forall a b d : string, ((a ++ b) ++ d = a ++ b ++ d)%string) by (induction a as [|x a IH]; intros b d; [reflexivity|cbn; rewrite IH; reflexivity]).
  rewrite !A. reflexivity.
Qed.
Print Assumptions C191_model.

(** Without a model: the category with a capital letter in front and small ones behind. *)
Theorem C191_category : forall model category location t, model = None \/ model = Some "" ->
  (get_l1b_title model category location = t <-> exists c, capitalized category c /\ t = (c ++ " from " ++ location)%string).
Proof.
  intros m c l t M. assert (E : get_l1b_title m c l = (capitalize c ++ " from " ++ l)%string) by (destruct M as [-> | ->]; reflexivity).
  rewrite E. split.
  - intros <-. exists (capitalize c). split; [apply capitalized_iff; reflexivity|reflexivity].
  - intros (d & C & ->). apply capitalized_iff in C. rewrite C. reflexivity.
Qed.
Print Assumptions C191_category.

Example C191_nonvacuous : get_l1b_title (Some "RPG-FMCW-94") "cloud radar" "Mace Head" = "RPG-FMCW-94 cloud radar from Mace Head" /\
  get_l1b_title None "weather station" "Granada" = "Weather station from Granada".
Proof. split; reflexivity. Qed.
