(** Property C195: titles and file names of level 3 figures. *)
From Verif Require Import Base SiteModel SiteSpec TelegramModel TelegramSpec TelegramProofs CaptionModel CaptionSpec.
From Coq Require Import String Ascii.
Open Scope string_scope.
Open Scope list_scope.

Lemma append_nil : forall s, (s ++ "")%string = s.
Proof. induction s as [|c s IH]; [reflexivity|]. cbn. rewrite IH. reflexivity. Qed.
(** A product without an underscore is the first part of exactly the fields that belong to it. *)
Lemma first_part : forall field product, without "_" product -> (String.eqb (hd "" (split_on "_" field)) product = true <-> belongs field product).
Proof.
  intros field product W. rewrite String.eqb_eq. pose proof (split_on_iff "_" field (split_on "_" field)) as [S _]. specialize (S eq_refl).
  split.
  - destruct S as (N & _ & E). destruct (split_on "_" field) as [|a l]; [contradiction|]. cbn [hd]. intros ->. unfold belongs. destruct l as [|b l].
    + left. exact E.
    + right. exists (String.concat (String "_" "") (b :: l)). exact E.
  - intros [->|[rest ->]].
    + assert (E : split_on "_" product = [product]); [|rewrite E; reflexivity]. apply split_on_iff. split; [discriminate|]. split; [constructor; [exact W|constructor]|reflexivity].
    + pose proof (split_on_iff "_" rest (split_on "_" rest)) as [R _]. specialize (R eq_refl). destruct R as (N & F & E).
      assert (X : split_on "_" (product ++ "_" ++ rest)%string = product :: split_on "_" rest); [|rewrite X; reflexivity].
      apply split_on_iff. split; [discriminate|]. split; [constructor; [exact W|exact F]|]. rewrite E at 1. destruct (split_on "_" rest); [contradiction|reflexivity].
Qed.

(** ** C195 *)

(** The observed fields: the name of the product, for cloud fractions with their kind. *)
Theorem C195_observed : forall field product name model_name, without "_" product -> belongs field product ->
  (product <> "cf" -> c_title (set_title field product name model_name) = name) /\
  (product = "cf" -> exists kind, of_kind field ", Area" ", Volume" kind /\ c_title (set_title field product name model_name) = (name ++ kind)%string) /\
  (c_advection (set_title field product name model_name) = true <-> occurs "adv" field).
Proof.
  intros field product name mn W B. unfold set_title. apply (first_part _ _ W) in B. rewrite B. cbn [c_title c_advection]. split; [|split].
  - intros N. apply String.eqb_neq in N. rewrite N. reflexivity.
  - intros ->. cbn [String.eqb]. unfold cf_title, of_kind. destruct (contains "V" field) eqn:E.
    + exists ", Volume". split; [left; split; [apply contains_iff, E|reflexivity]|reflexivity].
    + exists ", Area". split; [right; split; [rewrite <- contains_iff; congruence|reflexivity]|reflexivity].
  - apply contains_iff.
Qed.
Print Assumptions C195_observed.

(** Other fields are those of the model. *)
Theorem C195_simulated : forall field product name model_name, without "_" product -> ~ belongs field product ->
  c_advection (set_title field product name model_name) = false /\
  c_title (set_title field product name model_name) =
    (if (String.length model_name <=? 1)%nat then "Simulated " ++ name else name ++ ", " ++ model_name)%string.
Proof.
  intros field product name mn W B. unfold set_title. destruct (String.eqb (hd "" (split_on "_" field)) product) eqn:E; [exfalso; apply B, (first_part _ _ W), E|].
  cbn [c_advection c_title]. split; [reflexivity|]. destruct (Nat.ltb_spec 1 (String.length mn)), (Nat.leb_spec (String.length mn) 1); try lia; reflexivity.
Qed.
Print Assumptions C195_simulated.

(** A figure of fields: one title per panel, that of the model first. *)
Theorem C195_group : forall first rest product name model model_name, without "_" product -> ~ belongs model product -> 1 < String.length model_name ->
  exists c, group_captions (first :: rest) product name model model_name = c :: map (fun f => set_title f product name "") rest /\
  c_title c = (name ++ ", " ++ model_name)%string /\ (c_advection c = true <-> belongs first product /\ occurs "adv" first).
Proof.
  intros first rest product name model mn W B L. eexists. split; [reflexivity|]. cbn [c_title c_advection].
  destruct (C195_simulated model product name mn W B) as [-> ->]. split.
  - destruct (Nat.leb_spec (String.length mn) 1); [lia|reflexivity].
  - rewrite Bool.orb_false_r. unfold set_title. destruct (String.eqb (hd "" (split_on "_" first)) product) eqn:E; cbn [c_advection].
    + apply (first_part _ _ W) in E. rewrite contains_iff. split; [auto|intros [_ H]; exact H].
    + split; [discriminate|]. intros [H _]. apply (first_part _ _ W) in H. congruence.
Qed.
Print Assumptions C195_group.

(** The title of an observation in a figure of statistics. *)
Theorem C195_statistic : forall field product name, exists kind advection, stat_title field product name = (name ++ kind ++ advection)%string /\
  (product <> "cf" -> kind = "") /\ (product = "cf" -> of_kind field " area" " volume" kind) /\
  ((occurs "adv" field /\ advection = " (Advection time)") \/ (~ occurs "adv" field /\ advection = "")).
Proof.
  intros field product name. unfold stat_title, of_kind.
  assert (A : forall a b c : string, ((a ++ b) ++ c = a ++ b ++ c)%string) by (induction a as [|x a IH]; intros; cbn; [reflexivity|rewrite IH; reflexivity]).
  destruct (String.eqb_spec product "cf") as [P|P].
  - exists (if contains "V" field then " volume" else " area"), (if contains "adv" field then " (Advection time)" else ""). split; [|split; [intros N; contradiction|split]].
    + destruct (contains "V" field), (contains "adv" field); rewrite ?A, ?append_nil; reflexivity.
    + intros _. destruct (contains "V" field) eqn:E; [left|right]; (split; [|reflexivity]); rewrite <- contains_iff; congruence.
    + destruct (contains "adv" field) eqn:E; [left|right]; (split; [|reflexivity]); rewrite <- contains_iff; congruence.
  - exists "", (if contains "adv" field then " (Advection time)" else ""). split; [|split; [reflexivity|split; [intros N; contradiction|]]].
    + destruct (contains "adv" field); cbn [append]; rewrite ?append_nil; reflexivity.
    + destruct (contains "adv" field) eqn:E; [left|right]; (split; [|reflexivity]); rewrite <- contains_iff; congruence.
Qed.
Print Assumptions C195_statistic.

(** But figures of statistics do not use it: all observations have the same title. *)
Theorem C195_same_titles : forall model rest product name model_name,
  List.length (statistic_titles (model :: rest) product name model_name) = List.length rest /\
  forall t, In t (statistic_titles (model :: rest) product name model_name) ->
    t = (name ++ (if String.eqb product "cf" then " area" else "") ++ " vs " ++ model_name)%string.
Proof.
  intros model rest product name mn. unfold statistic_titles. cbn [tl]. split; [apply map_length|].
  intros t I. apply in_map_iff in I as (f & <- & _). unfold day_stat_title, stat_title.
  change (contains "adv" "") with false. change (contains "V" "") with false. cbv iota.
  destruct (String.eqb product "cf"); [|reflexivity]. induction name as [|x a IH]; [reflexivity|]. cbn in *. f_equal. exact IH.
Qed.
Print Assumptions C195_same_titles.
Theorem C195_volume_refuted : exists names name model_name field t, nth_error names 1 = Some field /\ occurs "V" field /\
  nth_error (statistic_titles names "cf" name model_name) 0 = Some t /\ ~ occurs "volume" t /\ occurs "area" t.
Proof.
  exists ["ecmwf_cf"; "cf_V_ecmwf"], "Cloud fraction", "ECMWF", "cf_V_ecmwf", "Cloud fraction area vs ECMWF".
  split; [reflexivity|]. split; [apply contains_iff; reflexivity|]. split; [reflexivity|]. split; [|apply contains_iff; reflexivity].
  rewrite <- contains_iff. discriminate.
Qed.
Print Assumptions C195_volume_refuted.

(** Names of files: path, date, the fields with underscores between them, and the ending. *)
Theorem C195_name : forall path date fields ending, fields <> [] -> Forall (without "_") fields -> exists middle, separated "_" middle fields /\
  save_name path date fields ending = (path ++ date ++ "_" ++ middle ++ ending ++ ".png")%string.
Proof. intros path date l e N F. exists (String.concat "_" l). split; [split; [exact N|split; [exact F|reflexivity]]|reflexivity]. Qed.
Print Assumptions C195_name.
(** So fields without an underscore can be read from the name. *)
Theorem C195_names : forall path date fields fields' ending, fields <> [] -> fields' <> [] ->
  Forall (without "_") fields -> Forall (without "_") fields' ->
  save_name path date fields ending = save_name path date fields' ending -> fields = fields'.
Proof.
  intros path date l l' ending N N' F F' H. unfold save_name in H.
  assert (Inj : forall a b c : string, (a ++ b = a ++ c)%string -> b = c).
  { induction a as [|x a IH]; intros b c E; [exact E|]. cbn in E. apply IH. congruence. }
  assert (App : forall a b : string, String.length (a ++ b)%string = (String.length a + String.length b)%nat).
  { induction a as [|x a IH]; intros b; [reflexivity|]. cbn. rewrite IH. reflexivity. }
  assert (InjR : forall a b c : string, (a ++ c = b ++ c)%string -> a = b).
  { induction a as [|x a IH]; intros b c E; destruct b as [|y b]; [reflexivity| | |].
    - exfalso. apply (f_equal String.length) in E. cbn in E. rewrite App in E. lia.
    - exfalso. apply (f_equal String.length) in E. cbn in E. rewrite App in E. lia.
    - cbn in E. assert (x = y) by congruence. subst. f_equal. apply (IH b c). congruence. }
  apply Inj, Inj, Inj in H. cbn [append] in H. apply InjR in H.
  transitivity (split_on "_" (String.concat "_" l)).
  - symmetry. apply split_on_iff. split; [exact N|]. split; [exact F|reflexivity].
  - rewrite H. apply split_on_iff. split; [exact N'|]. split; [exact F'|reflexivity].
Qed.
Print Assumptions C195_names.
Theorem C195_names_refuted : exists path date fields fields', fields <> fields' /\ save_name path date fields "" = save_name path date fields' "".
Proof. exists "/tmp/", "20200101", ["cf_V"; "ecmwf"; "group"], ["cf"; "V_ecmwf"; "group"]. split; [discriminate|reflexivity]. Qed.
Print Assumptions C195_names_refuted.

Example C195_nonvacuous :
  map c_title (group_captions ["ecmwf_cf"; "cf_A_ecmwf"; "cf_V_adv_ecmwf"] "cf" "Cloud fraction" "ecmwf" "ECMWF") =
    ["Cloud fraction, ECMWF"; "Cloud fraction, Area"; "Cloud fraction, Volume"] /\
  map c_advection (group_captions ["ecmwf_cf"; "cf_A_ecmwf"; "cf_V_adv_ecmwf"] "cf" "Cloud fraction" "ecmwf" "ECMWF") = [false; false; true] /\
  without "_" "cf" /\ belongs "cf_A_ecmwf" "cf" /\ ~ belongs "ecmwf" "cf" /\
  stat_title "cf_V_adv_ecmwf" "cf" "Cloud fraction" = "Cloud fraction volume (Advection time)" /\
  save_name "/tmp/" "20200101" ["cf"; "ecmwf"] "" = "/tmp/20200101_cf_ecmwf.png".
Proof.
  split; [reflexivity|]. split; [reflexivity|]. split; [|split; [right; exists "A_ecmwf"; reflexivity|split; [|split; reflexivity]]].
  - intros (a & b & E). destruct a as [|x [|y [|z a]]]; discriminate.
  - intros [E|[r E]]; discriminate.
Qed.
