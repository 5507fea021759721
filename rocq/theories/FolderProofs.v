(** Lemmas about the raw files of a folder. *)
From Verif Require Import Base MeltModel HatproSpec HatproProofs NcRadarModel PollyModel PollyProofs FolderModel FolderSpec.
From Coq Require Import String Ascii Sorting.Sorted Permutation.
Open Scope string_scope.
Open Scope nat_scope.
Open Scope list_scope.
Local Notation length := List.length (only parsing).

(** ** Extensions *)

Lemma code_bound : forall c, nat_of_ascii c < 256.
Proof. apply nat_ascii_bounded. Qed.
Lemma lower_code : forall c, nat_of_ascii (lower_ascii c) =
  if (65 <=? nat_of_ascii c) && (nat_of_ascii c <=? 90) then nat_of_ascii c + 32 else nat_of_ascii c.
Proof.
  intros c. unfold lower_ascii. pose proof (code_bound c). destruct ((65 <=? nat_of_ascii c) && (nat_of_ascii c <=? 90)) eqn:E; [|reflexivity].
  apply andb_true_iff in E as [_ E]. apply Nat.leb_le in E. apply nat_ascii_embedding. lia.
Qed.
Lemma code_inj : forall c d, nat_of_ascii c = nat_of_ascii d -> c = d.
Proof. intros c d H. rewrite <- (ascii_nat_embedding c), <- (ascii_nat_embedding d), H. reflexivity. Qed.

Lemma letter_iff : forall c d, lower_ascii c = lower_ascii d <-> same_letter c d.
Proof.
  intros c d. pose proof (lower_code c) as C. pose proof (lower_code d) as D. split.
  - intros H. rewrite <- H, C in D.
    destruct (Nat.leb_spec 65 (nat_of_ascii c)), (Nat.leb_spec (nat_of_ascii c) 90), (Nat.leb_spec 65 (nat_of_ascii d)), (Nat.leb_spec (nat_of_ascii d) 90); cbn [andb] in D;
    first [ assert (E : c = d) by (apply code_inj; lia); subst; apply Same_equal
          | apply Same_capital; lia | apply Same_small; lia | lia ].
  - intros H. apply code_inj. rewrite C, D. destruct H as [c|c d A B|c d A B]; [reflexivity| |];
    destruct (Nat.leb_spec 65 (nat_of_ascii c)), (Nat.leb_spec (nat_of_ascii c) 90), (Nat.leb_spec 65 (nat_of_ascii d)), (Nat.leb_spec (nat_of_ascii d) 90); cbn [andb]; lia.
Qed.
Lemma text_iff : forall s t, lower s = lower t <-> same_text s t.
Proof.
  induction s as [|c s IH]; intros [|d t]; cbn [lower]; split; intros H; try discriminate; try (inversion H; fail); try reflexivity.
  - constructor.
  - assert (A : lower_ascii c = lower_ascii d) by congruence. assert (B : lower s = lower t) by congruence.
    constructor; [apply letter_iff, A|apply IH, B].
  - inversion H as [|? ? ? ? L T]; subst. apply letter_iff in L. apply IH in T. congruence.
Qed.
Lemma lower_app : forall a b, lower (a ++ b) = (lower a ++ lower b)%string.
Proof. induction a as [|c a IH]; intros b; [reflexivity|]. cbn. rewrite IH. reflexivity. Qed.
Lemma lower_split : forall name b x, lower name = (b ++ x)%string -> exists stem e, name = (stem ++ e)%string /\ lower e = x.
Proof.
  intros name b. revert name. induction b as [|c b IH]; intros name x H.
  - exists "", name. split; [reflexivity|exact H].
  - destruct name as [|d name]; [discriminate|]. cbn in H. assert (E : lower name = (b ++ x)%string) by congruence.
    destruct (IH _ _ E) as (stem & e & -> & L). exists (String d stem), e. split; [reflexivity|exact L].
Qed.
Lemma extension_iff : forall extension name, ends_with (lower extension) (lower name) = true <-> has_extension extension name.
Proof.
  intros x name. rewrite ends_with_iff. split.
  - intros [b H]. destruct (lower_split _ _ _ H) as (stem & e & -> & L). exists stem, e. split; [reflexivity|apply text_iff, L].
  - intros (stem & e & -> & L). apply text_iff in L. exists (lower stem). rewrite lower_app, L. reflexivity.
Qed.

(** ** Sorting *)

Lemma not_before : forall a b, ~ before a b -> ~ before b a -> a = b.
Proof.
  intros a b A B. unfold before in *. rewrite String.compare_antisym in B. destruct (a ?= b)%string eqn:E.
  - apply String.compare_eq_iff, E.
  - contradiction.
  - exfalso. apply B. reflexivity.
Qed.
Lemma sorted_unique : forall l l' : list string,
  StronglySorted (fun a b => ~ before b a) l -> StronglySorted (fun a b => ~ before b a) l' ->
  Permutation l l' -> l = l'.
Proof.
  intros l. induction l as [|a l IH]; intros l' S S' P.
  - apply Permutation_nil in P. congruence.
  - destruct l' as [|b l']; [apply Permutation_sym, Permutation_nil in P; discriminate|].
    inversion S as [|? ? S1 F1]; subst. inversion S' as [|? ? S2 F2]; subst. rewrite Forall_forall in F1, F2.
    assert (E : a = b).
    { assert (Ia : In a (b :: l')) by (apply (Permutation_in _ P); left; reflexivity).
      assert (Ib : In b (a :: l)) by (apply (Permutation_in _ (Permutation_sym P)); left; reflexivity).
      destruct Ia as [Ia|Ia]; [congruence|]. destruct Ib as [Ib|Ib]; [congruence|]. apply not_before; [apply F2, Ia|apply F1, Ib]. }
    subst. f_equal. apply IH; [exact S1|exact S2|]. apply Permutation_cons_inv in P. exact P.
Qed.
Lemma sort_perm : forall l, Permutation (sort_names l) l.
Proof. intros l. apply (Permutation_count_occ string_dec). apply sort_names_spec. Qed.
Lemma sorted_strict : forall l, StronglySorted (fun a b => ~ before b a) l -> NoDup l -> by_name l.
Proof.
  unfold by_name. intros l S N. induction S as [|a l S IH F]; [constructor|]. inversion N as [|? ? Na N']; subst. constructor; [apply IH, N'|].
  rewrite Forall_forall in *. intros x I. specialize (F x I). unfold before in *. rewrite String.compare_antisym in F.
  destruct (a ?= x)%string eqn:E; [|reflexivity|exfalso; apply F; reflexivity]. apply String.compare_eq_iff in E. subst. contradiction.
Qed.
Lemma strict_sorted : forall l, by_name l -> StronglySorted (fun a b => ~ before b a) l /\ NoDup l.
Proof.
  unfold by_name. intros l S. induction S as [|a l S [IH N] F]; [split; constructor|]. rewrite Forall_forall in F. split; constructor; try assumption.
  - apply Forall_forall. intros x I. apply before_asym, F, I.
  - intros I. apply F in I. exact (before_asym _ _ I I).
Qed.
Lemma by_name_unique : forall l l', by_name l -> by_name l' -> (forall f, In f l <-> In f l') -> l = l'.
Proof.
  intros l l' A B E. apply strict_sorted in A as [A Na]. apply strict_sorted in B as [B Nb].
  apply sorted_unique; [exact A|exact B|apply NoDup_Permutation; assumption].
Qed.

Definition candidates (folder : string) (listing : list string) (extension f : string) : Prop :=
  exists name, In name listing /\ has_extension extension name /\ f = (folder ++ "/" ++ name)%string.

Lemma append_inj : forall a b c : string, (a ++ b = a ++ c)%string -> b = c.
Proof. induction a as [|x a IH]; intros b c H; [exact H|]. cbn in H. apply IH. congruence. Qed.

Lemma sorted_in : forall folder listing x f, In f (get_sorted_filenames folder listing x) <-> candidates folder listing x f.
Proof.
  intros d l x f. unfold get_sorted_filenames, candidates. split.
  - intros I. apply (Permutation_in _ (sort_perm _)), in_map_iff in I as (n & <- & I). apply filter_In in I as [I E]. apply extension_iff in E. exists n. auto.
  - intros (n & I & E & ->). apply (Permutation_in _ (Permutation_sym (sort_perm _))). apply in_map_iff. exists n. split; [reflexivity|].
    apply filter_In. split; [exact I|]. apply extension_iff, E.
Qed.
Lemma sorted_by_name : forall folder listing x, NoDup listing -> by_name (get_sorted_filenames folder listing x).
Proof.
  intros d l x N. unfold get_sorted_filenames. apply sorted_strict; [apply sort_names_spec|].
  apply (Permutation_NoDup (Permutation_sym (sort_perm _))). apply FinFun.Injective_map_NoDup.
  - intros a b H. apply append_inj in H. cbn in H. congruence.
  - apply NoDup_filter, N.
Qed.
Lemma map_perm_filter : forall (A B : Type) (f : A -> B) p l l', Permutation l l' -> Permutation (map f (filter p l)) (map f (filter p l')).
Proof.
  intros A B f p l l' P. apply Permutation_map. induction P as [|x l l' P IH|x y l|l l1 l2 P1 I1 P2 I2]; cbn.
  - constructor.
  - destruct (p x); [constructor; exact IH|exact IH].
  - destruct (p x), (p y); try apply Permutation_refl. constructor.
  - eapply Permutation_trans; eassumption.
Qed.

(** ** Variables *)

Lemma all_there_iff : forall vs there, all_there vs there = true <-> forall v, In v vs -> In v there.
Proof.
  intros vs there. induction vs as [|v r IH]; cbn.
  - split; [intros _ x []|reflexivity].
  - destruct (existsb (String.eqb v) there) eqn:E.
    + apply existsb_exists in E as (y & I & Y). apply String.eqb_eq in Y. subst y. rewrite IH. split.
      * intros H x [<-|J]; auto.
      * intros H x J. auto.
    + split; [discriminate|]. intros H. assert (existsb (String.eqb v) there = true); [|congruence].
      apply existsb_exists. exists v. split; [apply H; left; reflexivity|apply String.eqb_refl].
Qed.
Lemma with_variables_ok : forall fs vs names l, get_files_with_variables fs names vs = Ok l ->
  (forall f, In f names -> fs f <> None) /\
  l = filter (fun f => match fs f with Some there => all_there vs there | None => false end) names.
Proof.
  intros fs vs names. induction names as [|f r IH]; intros l H; cbn in H.
  - assert (l = []) by congruence. subst. split; [intros f []|reflexivity].
  - destruct (fs f) as [there|] eqn:E; [|discriminate]. destruct (get_files_with_variables fs r vs) as [l0|e]; [|discriminate].
    destruct (IH _ eq_refl) as [R ->]. split; [intros x [<-|I]; [congruence|apply R, I]|]. cbn. rewrite E. congruence.
Qed.
Lemma with_variables_error : forall fs vs names e, get_files_with_variables fs names vs = Raise e <->
  e = OSError /\ exists f, In f names /\ fs f = None.
Proof.
  intros fs vs names. induction names as [|f r IH]; intros e; cbn.
  - split; [discriminate|]. intros [_ (f & [] & _)].
  - destruct (fs f) as [there|] eqn:E.
    + destruct (get_files_with_variables fs r vs) as [l0|e0].
      * split; [discriminate|]. intros [_ (x & [<-|I] & N)]; [congruence|]. assert (X : Ok l0 = Raise OSError) by (apply IH; eauto). discriminate.
      * split.
        { intros H. assert (e0 = e) by congruence. subst e0. destruct (proj1 (IH e) eq_refl) as [-> (x & I & N)]. split; [reflexivity|exists x; auto]. }
        { intros [-> _]. destruct (proj1 (IH e0) eq_refl) as [-> _]. reflexivity. }
    + split; [intros H; assert (e = OSError) by congruence; subst; split; [reflexivity|exists f; auto]|]. intros [-> _]. reflexivity.
Qed.
Lemma filter_by_name : forall p l, by_name l -> by_name (filter p l).
Proof.
  unfold by_name. intros p l S. induction S as [|a l S IH F]; [constructor|]. cbn. destruct (p a); [|exact IH]. constructor; [exact IH|].
  rewrite Forall_forall in *. intros x I. apply filter_In in I as [I _]. apply F, I.
Qed.
