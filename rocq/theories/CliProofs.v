(** Proofs about the command line interface. *)
From Coq Require Import List Bool Arith ZArith String Ascii Sorted Permutation Lia.
From Verif Require Import Base OutputModel SiteModel StationModel TelegramModel MeltModel PollyModel.
From Verif Require Import OutputSpec SiteSpec MeltSpec TelegramSpec.
From Verif Require Import OutputProofs SiteProofs StationProofs TelegramProofs TelegramDayProofs MeltImageProofs PollyProofs.
From Verif Require Import CliModel CliSpec.
Import ListNotations.
Open Scope string_scope. Open Scope nat_scope. Open Scope list_scope.
Local Notation length := List.length (only parsing).

(** ** Lists *)

Lemma kept_filter {A} (P : A -> Prop) (f : A -> bool) l : (forall x, f x = true <-> P x) -> kept P l (filter f l).
Proof.
  intros H. induction l as [|x l IH]; cbn; [constructor|]. destruct (f x) eqn:E.
  - constructor; [apply H; exact E|exact IH].
  - constructor; [|exact IH]. intros K. apply H in K. congruence.
Qed.
Lemma kept_unique {A} (P : A -> Prop) l a : kept P l a -> forall b, kept P l b -> a = b.
Proof.
  induction 1 as [|x l out Hx H IH|x l out Hx H IH]; intros b K; inversion K; subst; try contradiction; auto.
  f_equal. auto.
Qed.
Lemma kept_in {A} (P : A -> Prop) l out : kept P l out -> forall x, In x out <-> In x l /\ P x.
Proof.
  induction 1 as [|y l out Hy H IH|y l out Hy H IH]; intros x; cbn.
  - tauto.
  - rewrite IH. split; [intros [<-|[H1 H2]]; auto|intros [[<-|H1] H2]; auto].
  - rewrite IH. split; [intros [H1 H2]; auto|intros [[<-|H1] H2]; [destruct (Hy H2)|auto]].
Qed.
Lemma find_first {A} (P : A -> Prop) (f : A -> bool) l : (forall x, f x = true <-> P x) ->
  forall x, find f l = Some x <-> first_with P l x.
Proof.
  intros H x. unfold first_with. split.
  - induction l as [|y l IH]; cbn; [discriminate|]. destruct (f y) eqn:E.
    + intros K. injection K as <-. exists [], l. split; [reflexivity|]. split; [apply H; exact E|constructor].
    + intros K. destruct (IH K) as (pre & post & -> & Hx & F). exists (y :: pre), post. split; [reflexivity|].
      split; [exact Hx|]. constructor; [|exact F]. intros K'. apply H in K'. congruence.
  - intros (pre & post & -> & Hx & F). induction pre as [|y pre IH]; cbn.
    + apply H in Hx. rewrite Hx. reflexivity.
    + inversion F as [|? ? Hy F']; subst. destruct (f y) eqn:E; [destruct Hy; apply H; exact E|]. apply IH. exact F'.
Qed.
Lemma find_none' {A} (P : A -> Prop) (f : A -> bool) l : (forall x, f x = true <-> P x) ->
  find f l = None <-> Forall (fun x => ~ P x) l.
Proof.
  intros H. induction l as [|y l IH]; cbn; [split; [constructor|reflexivity]|]. destruct (f y) eqn:E.
  - split; [discriminate|]. intros F. inversion F as [|? ? Hy]; subst. destruct Hy. apply H. exact E.
  - rewrite IH. split.
    + intros F. constructor; [|exact F]. intros K. apply H in K. congruence.
    + intros F. inversion F; assumption.
Qed.
Lemma first_with_unique {A} (P : A -> Prop) l x y : first_with P l x -> first_with P l y -> x = y.
Proof.
  intros (p1 & q1 & E1 & H1 & F1) (p2 & q2 & E2 & H2 & F2). subst l. revert p2 E2 F2.
  induction p1 as [|a p1 IH]; intros [|b p2] E F2; cbn in E.
  - injection E as E _. exact E.
  - injection E as <- _. inversion F2; contradiction.
  - injection E as -> _. inversion F1; contradiction.
  - injection E as <- E. inversion F1; inversion F2; subst. eauto.
Qed.

(** ** Arguments *)

Lemma is_pid_iff v : is_pid v = true <-> pid v.
Proof. unfold is_pid, pid. apply prefix_iff. Qed.
Lemma matches_iff i v : instrument_matches i v = true <-> meant i v.
Proof.
  unfold instrument_matches, meant. destruct (is_pid v) eqn:E.
  - apply is_pid_iff in E. rewrite String.eqb_eq. split; [intros H; left; split; assumption|].
    intros [[_ H]|[N _]]; [exact H|destruct (N E)].
  - assert (N : ~ pid v) by (intros K; apply is_pid_iff in K; congruence). rewrite String.eqb_eq.
    split; [intros H; right; split; assumption|]. intros [[K _]|[_ H]]; [destruct (N K)|exact H].
Qed.
Lemma has_char_without c s : has_char c s = false <-> without c s.
Proof.
  unfold without. rewrite <- has_char_iff. destruct (has_char c s); split; congruence.
Qed.
Lemma without_cons c d s : without c (String d s) <-> d <> c /\ without c s.
Proof.
  rewrite <- !has_char_without. cbn [has_char]. rewrite orb_false_iff, Ascii.eqb_neq. reflexivity.
Qed.
Lemma split_first_iff c : forall s a b, split_first c s = Some (a, b) <-> without c a /\ s = (a ++ String c b)%string.
Proof.
  induction s as [|d s IH]; intros a b; cbn [split_first].
  - split; [discriminate|]. intros [_ E]. destruct a; discriminate.
  - destruct (Ascii.eqb_spec d c) as [->|N].
    + split.
      * intros H. injection H as <- <-. split; [apply has_char_without; reflexivity|reflexivity].
      * intros [W E]. destruct a as [|x a]; cbn in E; [congruence|]. injection E as <- _. apply without_cons in W.
        destruct W as [W _]. destruct (W eq_refl).
    + destruct (split_first c s) as [[x y]|] eqn:E.
      * destruct (IH x y) as [H1 _]. destruct (H1 eq_refl) as [W1 E1]. split.
        -- intros H. injection H as <- <-. split; [apply without_cons; split; assumption|]. cbn. rewrite <- E1. reflexivity.
        -- intros [W E2]. destruct a as [|z a]; cbn in E2; [injection E2 as -> _; destruct (N eq_refl)|].
           injection E2 as <- E2. apply without_cons in W. destruct W as [_ W].
           assert (K := proj2 (IH a b) (conj W E2)). injection K as -> ->. reflexivity.
      * split; [discriminate|]. intros [W E2]. destruct a as [|z a]; cbn in E2; [injection E2 as -> _; destruct (N eq_refl)|].
        injection E2 as <- E2. apply without_cons in W. destruct W as [_ W].
        assert (K := proj2 (IH a b) (conj W E2)). discriminate.
Qed.
Lemma split_first_none c s : split_first c s = None <-> without c s.
Proof.
  induction s as [|d s IH]; cbn [split_first]; [split; [intros _; apply has_char_without; reflexivity|reflexivity]|].
  rewrite without_cons. destruct (Ascii.eqb_spec d c) as [->|N].
  - split; [discriminate|]. intros [H _]. destruct (H eq_refl).
  - destruct (split_first c s) as [[x y]|] eqn:E.
    + split; [discriminate|]. intros [_ W]. apply IH in W. discriminate.
    + split; [|reflexivity]. intros _. split; [exact N|apply IH; reflexivity].
Qed.

Lemma append_assoc' : forall a b c : string, ((a ++ b) ++ c = a ++ b ++ c)%string.
Proof. induction a as [|x a IH]; intros b c; cbn; [reflexivity|]. rewrite IH. reflexivity. Qed.
Lemma length_append' : forall a b : string, String.length (a ++ b) = String.length a + String.length b.
Proof. induction a as [|x a IH]; intros b; cbn; [reflexivity|]. rewrite IH. reflexivity. Qed.
Lemma substring_all : forall a b : string, substring 0 (String.length a) (a ++ b) = a.
Proof. induction a as [|x a IH]; intros b; [destruct b; reflexivity|]. cbn. rewrite IH. reflexivity. Qed.
Lemma append_inj_tail : forall a b : string, forall t, (a ++ t = b ++ t)%string -> a = b.
Proof.
  intros a b t. revert b. induction a as [|x a IH]; intros b H.
  - destruct b as [|y b]; [reflexivity|]. exfalso. assert (L := f_equal String.length H). cbn in L. rewrite length_append' in L. lia.
  - destruct b as [|y b]; [exfalso; assert (L := f_equal String.length H); cbn in L; rewrite length_append' in L; lia|].
    cbn in H. injection H as -> H. f_equal. apply IH. exact H.
Qed.
(** The last character of [a ++ "[" ++ r] is the last one of [r], if there is one. *)
Lemma ends_bracket a r : (exists b, (a ++ String "[" r)%string = (b ++ "]")%string) <-> exists v, r = (v ++ "]")%string.
Proof.
  split.
  - intros (b & E). destruct (string_last r) as [->|(t & c & ->)].
    + exfalso. assert (K : (a ++ "[" = b ++ "]")%string) by exact E.
      assert (L : a = b).
      { clear E. revert b K. induction a as [|x a IH]; intros b K.
        - destruct b as [|y b]; [discriminate K|]. exfalso. assert (L := f_equal String.length K). cbn in L.
          rewrite length_append' in L. cbn in L. lia.
        - destruct b as [|y b]; [exfalso; assert (L := f_equal String.length K); cbn in L; rewrite length_append' in L; cbn in L; lia|].
          cbn in K. injection K as -> K. f_equal. apply IH. exact K. }
      subst b. clear E. induction a as [|x a IH]; [discriminate K|]. cbn in K. injection K as K. exact (IH K).
    + exists t. f_equal. f_equal.
      assert (K : ((a ++ String "[" t) ++ String c "" = b ++ "]")%string) by (rewrite append_assoc'; exact E).
      clear E. set (u := (a ++ String "[" t)%string) in *. clearbody u. revert b K.
      induction u as [|x u IH]; intros b K.
      * destruct b as [|y b]; [cbn in K; congruence|]. exfalso. assert (L := f_equal String.length K). cbn in L.
        rewrite length_append' in L. cbn in L. lia.
      * destruct b as [|y b]; [exfalso; assert (L := f_equal String.length K); cbn in L; rewrite length_append' in L; cbn in L; lia|].
        cbn in K. injection K as _ K. exact (IH b K).
  - intros (v & ->). exists (a ++ String "[" v)%string. rewrite append_assoc'. reflexivity.
Qed.

Lemma parse_bracketed s name value : parse_instrument s = (name, Some value) <-> bracketed s name value.
Proof.
  unfold parse_instrument, bracketed. destruct (split_first "[" s) as [[a r]|] eqn:E.
  - apply split_first_iff in E. destruct E as [W ->].
    destruct (ends_with "]" (a ++ String "[" r)) eqn:Ee.
    + apply ends_with_iff in Ee. apply (proj1 (ends_bracket a r)) in Ee. destruct Ee as (v & ->).
      replace (String.length (v ++ "]") - 1) with (String.length v) by (rewrite length_append'; cbn; lia).
      rewrite substring_all. split.
      * intros H. injection H as <- <-. split; [exact W|reflexivity].
      * intros [W' H]. assert (K1 := proj2 (split_first_iff "[" _ a (v ++ "]")%string) (conj W eq_refl)).
        assert (K2 := proj2 (split_first_iff "[" _ name (value ++ "]")%string) (conj W' H)). rewrite K1 in K2.
        injection K2 as -> K2. apply append_inj_tail in K2. rewrite K2. reflexivity.
    + split; [discriminate|]. intros [W' H]. exfalso.
      assert (K : ends_with "]" (a ++ String "[" r) = true); [|congruence].
      apply ends_with_iff. exists (name ++ "[" ++ value)%string. rewrite H, !append_assoc'. reflexivity.
  - apply split_first_none in E. split; [discriminate|]. intros [_ H]. exfalso. apply E.
    exists name, (value ++ "]")%string. exact H.
Qed.
Lemma parse_plain s : (forall n v, ~ bracketed s n v) -> parse_instrument s = (s, None).
Proof.
  intros H. destruct (parse_instrument s) as [name [value|]] eqn:E.
  - apply parse_bracketed in E. destruct (H name value E).
  - unfold parse_instrument in E. destruct (split_first "[" s) as [[a r]|]; [|congruence].
    destruct (ends_with "]" s); congruence.
Qed.
Lemma parse_product s : product_of s (fst (parse_instrument s)).
Proof.
  destruct (parse_instrument s) as [name [value|]] eqn:E; cbn [fst].
  - left. exists value. apply parse_bracketed. exact E.
  - right. split.
    + unfold parse_instrument in E. destruct (split_first "[" s) as [[a r]|]; [|congruence]. destruct (ends_with "]" s); congruence.
    + intros n v K. apply parse_bracketed in K. congruence.
Qed.
Lemma product_of_iff s n : product_of s n <-> fst (parse_instrument s) = n.
Proof.
  split; [|intros <-; apply parse_product]. intros [(v & H)|[-> H]].
  - apply parse_bracketed in H. rewrite H. reflexivity.
  - rewrite (parse_plain n H). reflexivity.
Qed.

Lemma strip_list parts : Forall2 stripped parts (map strip parts).
Proof. induction parts as [|p parts IH]; constructor; [apply strip_stripped|exact IH]. Qed.
Lemma strip_list_unique parts texts : Forall2 stripped parts texts -> map strip parts = texts.
Proof. induction 1 as [|p t parts texts H F IH]; [reflexivity|]. cbn. rewrite (stripped_unique _ _ H), IH. reflexivity. Qed.
Lemma nonempty_iff v : negb (String.eqb v "") = true <-> v <> "".
Proof. rewrite negb_true_iff, String.eqb_neq. reflexivity. Qed.

Definition split_values (value : string) : list string :=
  filter (fun v => negb (String.eqb v "")) (map strip (split_on ","%char value)).
Lemma states_iff arg product values : states arg product values <->
  exists value, split_first ":" arg = Some (product, value) /\ values = split_values value.
Proof.
  unfold states. split.
  - intros (W & value & parts & texts & E & S & F & K). exists value. split.
    + apply split_first_iff. split; [exact W|exact E].
    + unfold split_values. apply (proj2 (split_on_iff _ _ _)) in S. rewrite S, (strip_list_unique _ _ F).
      apply (kept_unique _ _ _ K). apply kept_filter. intros v. apply nonempty_iff.
  - intros (value & E & ->). apply split_first_iff in E. destruct E as [W E]. split; [exact W|].
    exists value, (split_on ","%char value), (map strip (split_on ","%char value)). split; [exact E|].
    split; [apply split_on_spec|]. split; [apply strip_list|]. apply kept_filter. intros v. apply nonempty_iff.
Qed.
Lemma malformed_iff v : has_char ":" v && negb (is_pid v) = true <-> malformed_value v.
Proof.
  unfold malformed_value. rewrite andb_true_iff, negb_true_iff. rewrite <- has_char_without, <- is_pid_iff.
  destruct (has_char ":" v), (is_pid v); split; intros [H1 H2]; split; congruence.
Qed.
Lemma values_iff arg product values : preference_values arg = Some (product, values) <->
  states arg product values /\ Forall (fun v => ~ malformed_value v) values.
Proof.
  rewrite states_iff. unfold preference_values. destruct (split_first ":" arg) as [[p value]|].
  - fold (split_values value).
    destruct (existsb (fun v => has_char ":" v && negb (is_pid v)) (split_values value)) eqn:E.
    + split; [discriminate|]. intros [(v & H & ->) F]. exfalso. assert (v = value) as -> by congruence.
      apply existsb_exists in E. destruct E as (x & I & M). apply malformed_iff in M.
      exact (proj1 (Forall_forall _ _) F x I M).
    + split.
      * intros H. injection H as <- <-. split; [exists value; split; reflexivity|]. apply Forall_forall. intros x I M.
        apply malformed_iff in M. assert (K : existsb (fun v => has_char ":" v && negb (is_pid v)) (split_values value) = true)
          by (apply existsb_exists; exists x; split; assumption). congruence.
      * intros [(v & H & ->) _]. congruence.
  - split; [discriminate|]. intros [(v & H & _) _]. discriminate.
Qed.

Lemma lookup_extend product values prefs x :
  prefs_of x (extend product values prefs) = if String.eqb x product then prefs_of x prefs ++ values else prefs_of x prefs.
Proof.
  unfold extend, prefs_of. destruct (lookup product prefs) as [old|] eqn:E.
  - rewrite set_key_lookup. destruct (String.eqb_spec x product) as [->|N]; [rewrite E; reflexivity|reflexivity].
  - assert (A : forall d, lookup x (d ++ [(product, values)]) = match lookup x d with Some v => Some v | None => if String.eqb x product then Some values else None end).
    { induction d as [|[k v] d IH]; cbn [app lookup]; [reflexivity|]. destruct (String.eqb x k); [reflexivity|exact IH]. }
    rewrite A. destruct (String.eqb_spec x product) as [->|N]; [rewrite E; reflexivity|]. destruct (lookup x prefs); reflexivity.
Qed.

Lemma preferences_from_spec args : forall prefs,
  (forall d, preferences_from prefs args = Some d ->
     forall product, exists out, stated product args out /\ prefs_of product d = prefs_of product prefs ++ out) /\
  (preferences_from prefs args = None <->
     exists arg, In arg args /\ forall product values, states arg product values -> Exists malformed_value values).
Proof.
  induction args as [|arg args IH]; intros prefs; cbn [preferences_from].
  - split; [|split; [discriminate|intros (a & [] & _)]].
    intros d H product. injection H as <-. exists []. split; [constructor|]. rewrite app_nil_r. reflexivity.
  - destruct (preference_values arg) as [[p values]|] eqn:E.
    + apply values_iff in E. destruct E as [S F]. destruct (IH (extend p values prefs)) as [H1 H2]. split.
      * intros d H product. destruct (H1 d H product) as (out & St & Eq). rewrite lookup_extend in Eq.
        destruct (String.eqb_spec product p) as [->|N].
        -- exists (values ++ out). split; [constructor; assumption|]. rewrite Eq, app_assoc. reflexivity.
        -- exists out. split; [eapply StOther; [exact S| |exact St]; congruence|exact Eq].
      * rewrite H2. split.
        -- intros (a & I & K). exists a. split; [right; exact I|exact K].
        -- intros (a & [<-|I] & K); [|exists a; split; assumption]. exfalso. specialize (K _ _ S).
           apply Exists_exists in K. destruct K as (x & Ix & M). exact (proj1 (Forall_forall _ _) F x Ix M).
    + split; [discriminate|]. split; [|reflexivity]. intros _. exists arg. split; [left; reflexivity|].
      intros product values S. destruct (Exists_dec malformed_value values) as [X|X].
      * intros v. destruct (has_char ":" v && negb (is_pid v)) eqn:M.
        -- left. apply malformed_iff. exact M.
        -- right. intros K. apply malformed_iff in K. congruence.
      * exact X.
      * exfalso. assert (K : preference_values arg = Some (product, values)); [|congruence].
        apply values_iff. split; [exact S|]. apply Forall_forall. intros x I M. apply X. apply Exists_exists. exists x. split; assumption.
Qed.
(** What is stated is determined by the arguments. *)
Lemma stated_unique product args a : stated product args a -> forall b, stated product args b -> a = b.
Proof.
  assert (U : forall arg p v q w, states arg p v -> states arg q w -> p = q /\ v = w).
  { intros arg p v q w H K. apply states_iff in H, K. destruct H as (x & Hx & ->). destruct K as (y & Hy & ->).
    rewrite Hx in Hy. injection Hy as <- <-. split; reflexivity. }
  induction 1 as [|arg values args out S H IH|arg p values args out S N H IH]; intros b K;
    inversion K as [|a1 v1 args1 o1 S1 R1|a1 p1 v1 args1 o1 S1 N1 R1]; subst; auto.
  - destruct (U _ _ _ _ _ S S1) as [_ <-]. f_equal. auto.
  - destruct (U _ _ _ _ _ S S1) as [<- _]. destruct (N1 eq_refl).
  - destruct (U _ _ _ _ _ S S1) as [-> _]. destruct (N eq_refl).
Qed.

(** ** Selection of the instrument *)

Lemma name_le_refl i : name_le i i.
Proof. unfold name_le. apply leb_before. intros K. exact (before_asym _ _ K K). Qed.
Lemma name_le_trans i j k : name_le i j -> name_le j k -> name_le i k.
Proof.
  unfold name_le. rewrite !leb_before. intros H1 H2. exact (not_before_trans _ _ _ H1 H2).
Qed.
Lemma name_le_total i j : String.leb (i_name i) (i_name j) = false -> name_le j i.
Proof.
  unfold name_le. intros H. apply leb_before. intros K. apply before_asym in K. apply leb_before in K. congruence.
Qed.
Lemma name_le_antisym i j : name_le i j -> name_le j i -> i_name i = i_name j.
Proof. unfold name_le. apply String.leb_antisym. Qed.

Lemma insert_perm i l : Permutation (insert_by_name i l) (i :: l).
Proof.
  induction l as [|j l IH]; cbn [insert_by_name]; [reflexivity|]. destruct (String.leb (i_name i) (i_name j)); [reflexivity|].
  rewrite IH. apply perm_swap.
Qed.
Lemma sort_perm l : Permutation (sort_by_name l) l.
Proof. induction l as [|i l IH]; cbn [sort_by_name fold_right]; [reflexivity|]. rewrite insert_perm. constructor. exact IH. Qed.
Lemma insert_sorted' i l : StronglySorted name_le l -> StronglySorted name_le (insert_by_name i l).
Proof.
  induction 1 as [|j l S IH F]; cbn [insert_by_name]; [constructor; constructor|].
  destruct (String.leb (i_name i) (i_name j)) eqn:E.
  - constructor; [constructor; assumption|]. constructor; [exact E|]. apply Forall_forall. intros k K.
    apply name_le_trans with j; [exact E|]. exact (proj1 (Forall_forall _ _) F k K).
  - constructor; [exact IH|]. apply Forall_forall. intros k K. apply (Permutation_in _ (insert_perm i l)) in K.
    destruct K as [<-|K]; [apply name_le_total; exact E|exact (proj1 (Forall_forall _ _) F k K)].
Qed.
Lemma sort_sorted l : StronglySorted name_le (sort_by_name l).
Proof. induction l as [|i l IH]; cbn [sort_by_name fold_right]; [constructor|]. apply insert_sorted'. exact IH. Qed.

Lemma sorted_unique : forall l1 l2, NoDup (map i_name l1) -> Permutation l1 l2 ->
  StronglySorted name_le l1 -> StronglySorted name_le l2 -> l1 = l2.
Proof.
  induction l1 as [|i l1 IH]; intros l2 D P S1 S2.
  - apply Permutation_nil in P. congruence.
  - destruct l2 as [|j l2]; [apply Permutation_sym, Permutation_nil in P; discriminate|].
    inversion S1 as [|? ? S1' F1]; subst. inversion S2 as [|? ? S2' F2]; subst.
    cbn [map] in D. inversion D as [|? ? N D']; subst.
    assert (Eq : i = j).
    { assert (J : In j (i :: l1)) by (apply (Permutation_in j (Permutation_sym P)); left; reflexivity).
      destruct J as [J|J]; [exact J|]. exfalso.
      assert (I : In i (j :: l2)) by (apply (Permutation_in i P); left; reflexivity).
      assert (L1 : name_le i j) by exact (proj1 (Forall_forall _ _) F1 j J).
      assert (L2 : name_le j i).
      { destruct I as [<-|I]; [apply name_le_refl|exact (proj1 (Forall_forall _ _) F2 i I)]. }
      apply N. rewrite (name_le_antisym i j L1 L2). apply in_map. exact J. }
    subst j. f_equal. apply IH; auto. exact (Permutation_cons_inv P).
Qed.
Lemma sort_order l1 l2 : NoDup (map i_name l1) -> Permutation l1 l2 -> sort_by_name l1 = sort_by_name l2.
Proof.
  intros D P. apply sorted_unique; [|rewrite !sort_perm; exact P|apply sort_sorted|apply sort_sorted].
  apply (Permutation_NoDup (l := map i_name l1)); [|exact D]. apply Permutation_map, Permutation_sym, sort_perm.
Qed.
Lemma select_order l1 l2 prefs answer : NoDup (map i_name l1) -> Permutation l1 l2 ->
  select_instrument l1 prefs answer = select_instrument l2 prefs answer.
Proof. intros D P. unfold select_instrument. rewrite (sort_order l1 l2 D P). reflexivity. Qed.

Lemma exists_match l pref : existsb (fun i => instrument_matches i pref) l = true <-> exists i, In i l /\ meant i pref.
Proof.
  rewrite existsb_exists. split; intros (i & I & M); exists i; split; try exact I; apply matches_iff; exact M.
Qed.
Lemma first_least pref l i : StronglySorted name_le l -> first_with (fun i => meant i pref) l i ->
  In i l /\ meant i pref /\ forall j, In j l -> meant j pref -> name_le i j.
Proof.
  intros S (pre & post & -> & M & F). split; [apply in_or_app; right; left; reflexivity|]. split; [exact M|].
  intros j J Mj. apply in_app_or in J. destruct J as [J|[<-|J]].
  - destruct (proj1 (Forall_forall _ _) F j J Mj).
  - apply name_le_refl.
  - clear F. induction pre as [|k pre IH]; cbn in S; inversion S as [|? ? S' F']; subst; [exact (proj1 (Forall_forall _ _) F' j J)|auto].
Qed.
Definition has_match (unique : list instrument) (pref : string) : Prop := exists i, In i unique /\ meant i pref.
Lemma has_match_perm l1 l2 pref : Permutation l1 l2 -> has_match l1 pref -> has_match l2 pref.
Proof. intros P (i & I & M). exists i. split; [exact (Permutation_in i P I)|exact M]. Qed.

Lemma select_preferred unique prefs answer pref : first_with (has_match unique) prefs pref ->
  exists i, select_instrument unique prefs answer = Some i /\ In i unique /\ meant i pref /\
    forall j, In j unique -> meant j pref -> name_le i j.
Proof.
  intros F. assert (P := sort_perm unique).
  assert (Fs : find (fun pref => existsb (fun i => instrument_matches i pref) (sort_by_name unique)) prefs = Some pref).
  { apply (find_first (has_match unique)); [|exact F]. intros x. rewrite exists_match. split; apply has_match_perm; [exact P|].
    apply Permutation_sym. exact P. }
  destruct F as (pre & post & E & (k & Ik & Mk) & F). unfold select_instrument. rewrite Fs.
  destruct (sort_by_name unique) as [|f l] eqn:Es; [apply Permutation_nil in P; subst unique; destruct Ik|]. rewrite <- Es in *.
  destruct (find (fun i => instrument_matches i pref) (sort_by_name unique)) as [i|] eqn:Ef.
  - exists i. split; [reflexivity|]. apply (find_first (fun i => meant i pref)) in Ef; [|intros x; apply matches_iff].
    apply first_least in Ef; [|apply sort_sorted]. destruct Ef as (I & M & L). split; [exact (Permutation_in i P I)|].
    split; [exact M|]. intros j J. apply L. exact (Permutation_in j (Permutation_sym P) J).
  - exfalso. apply (find_none' (fun i => meant i pref)) in Ef; [|intros x; apply matches_iff].
    exact (proj1 (Forall_forall _ _) Ef k (Permutation_in k (Permutation_sym P) Ik) Mk).
Qed.

Lemma sorted_split : forall a i b, StronglySorted name_le (a ++ i :: b) ->
  (forall j, In j a -> name_le j i) /\ (forall j, In j b -> name_le i j).
Proof.
  induction a as [|k a IH]; intros i b S; cbn in S; inversion S as [|? ? S' F]; subst.
  - split; [intros j []|]. intros j J. exact (proj1 (Forall_forall _ _) F j J).
  - destruct (IH i b S') as [H1 H2]. split; [|exact H2]. intros j [<-|J]; [|auto].
    apply (proj1 (Forall_forall _ _) F). apply in_or_app. right. left. reflexivity.
Qed.
Lemma nth_ranked unique n i : nth_error (sort_by_name unique) n = Some i -> ranked unique n i.
Proof.
  intros H. apply nth_error_split in H. destruct H as (a & b & E & L). exists a, b.
  assert (S := sort_sorted unique). rewrite E in S. destruct (sorted_split a i b S) as [H1 H2].
  split; [rewrite <- E; apply Permutation_sym, sort_perm|]. split; [exact L|]. split; assumption.
Qed.
Lemma select_other unique prefs answer : Forall (fun p => ~ has_match unique p) prefs ->
  (unique = [] -> select_instrument unique prefs answer = None) /\
  (forall i, unique = [i] -> select_instrument unique prefs answer = Some i) /\
  (1 < length unique -> 
     (forall n, answer = Some (Z.of_nat n + 1)%Z -> n < length unique ->
        exists i, ranked unique n i /\ select_instrument unique prefs answer = Some i) /\
     ((forall n, n < length unique -> answer <> Some (Z.of_nat n + 1)%Z) ->
        select_instrument unique prefs answer = None)).
Proof.
  intros F. assert (P := sort_perm unique). assert (Ln := Permutation_length P).
  assert (Fs : find (fun pref => existsb (fun i => instrument_matches i pref) (sort_by_name unique)) prefs = None).
  { apply (find_none' (has_match unique)); [|exact F]. intros x. rewrite exists_match. split; apply has_match_perm; [exact P|].
    apply Permutation_sym. exact P. }
  unfold select_instrument. rewrite Fs. split; [|split].
  - intros ->. reflexivity.
  - intros i ->. reflexivity.
  - intros L. destruct (sort_by_name unique) as [|f l] eqn:Es; [cbn in Ln; lia|]. rewrite <- Es in *. rewrite Ln.
    replace (1 <? length unique) with true by (symmetry; apply Nat.ltb_lt; exact L). split.
    + intros n -> Hn. replace (Z.of_nat n + 1 - 1)%Z with (Z.of_nat n) by lia.
      replace ((0 <=? Z.of_nat n) && (Z.of_nat n <? Z.of_nat (length unique)))%Z with true
        by (symmetry; apply andb_true_iff; rewrite Z.leb_le, Z.ltb_lt; lia).
      rewrite Nat2Z.id. destruct (nth_error (sort_by_name unique) n) as [i|] eqn:E; [|apply nth_error_None in E; lia].
      exists i. split; [apply nth_ranked; exact E|reflexivity].
    + intros H. destruct answer as [n|]; [|reflexivity].
      destruct ((0 <=? n - 1) && (n - 1 <? Z.of_nat (length unique)))%Z eqn:E; [|reflexivity]. exfalso.
      apply andb_true_iff in E. rewrite Z.leb_le, Z.ltb_lt in E. apply (H (Z.to_nat (n - 1))); [lia|]. f_equal. lia.
Qed.
Lemma select_in unique prefs answer i : select_instrument unique prefs answer = Some i -> In i unique.
Proof.
  unfold select_instrument. assert (P := sort_perm unique). destruct (sort_by_name unique) as [|f l] eqn:Es; [discriminate|].
  rewrite <- Es in *. intros H. apply (Permutation_in i P).
  destruct (find _ prefs) as [pref|]; [exact (proj1 (find_some _ _ H))|].
  destruct (1 <? length (sort_by_name unique)).
  - destruct answer as [n|]; [|discriminate]. destruct (_ && _); [|discriminate]. exact (nth_error_In _ _ H).
  - injection H as <-. rewrite Es. left. reflexivity.
Qed.

(** ** Instruments and raw files *)

Lemma named_iff prefs arg : named_ids (fun p => prefs_of p prefs) arg (source_models prefs arg).
Proof.
  unfold named_ids, source_models. destruct (parse_instrument arg) as [name [id|]] eqn:E; cbn [fst snd].
  - left. exists name, id. split; [apply parse_bracketed; exact E|reflexivity].
  - right. assert (N : forall p i, ~ bracketed arg p i) by (intros p i K; apply parse_bracketed in K; congruence).
    split; [exact N|]. assert (K := parse_plain arg N). rewrite K in E. injection E as <-.
    apply kept_filter. intros v. rewrite negb_true_iff. rewrite <- is_pid_iff. destruct (is_pid v); split; congruence.
Qed.
Lemma named_unique prefs arg a b : named_ids prefs arg a -> named_ids prefs arg b -> a = b.
Proof.
  intros [(p & i & B & ->)|[N K]] [(q & j & B' & ->)|[N' K']].
  - apply parse_bracketed in B, B'. congruence.
  - destruct (N' _ _ B).
  - destruct (N _ _ B').
  - exact (kept_unique _ _ _ K _ K').
Qed.
Lemma source_ids_iff possible prefs arg product ids : product_of arg product ->
  source_ids possible prefs arg = ids <-> searched_ids possible (fun p => prefs_of p prefs) arg product ids.
Proof.
  intros Pr. apply product_of_iff in Pr. unfold source_ids, searched_ids. rewrite Pr.
  assert (K : kept (fun v => In v (possible product)) (source_models prefs arg)
                   (filter (fun m => mem_str m (possible product)) (source_models prefs arg)))
    by (apply kept_filter; intros v; apply mem_str_iff).
  set (known := filter (fun m => mem_str m (possible product)) (source_models prefs arg)) in *. clearbody known. split.
  - intros <-. exists (source_models prefs arg), known. split; [apply named_iff|]. split; [exact K|].
    destruct known; [right; split; reflexivity|left; split; [discriminate|reflexivity]].
  - intros (n & k & N & K' & H). assert (n = source_models prefs arg) as -> by exact (named_unique _ _ _ _ N (named_iff _ _)).
    assert (k = known) as -> by exact (kept_unique _ _ _ K' _ K).
    destruct H as [[H ->]|[-> ->]]; [destruct known; [destruct (H eq_refl)|reflexivity]|reflexivity].
Qed.

Lemma source_instruments_lookup possible prefs : forall products d product,
  lookup product (fold_left (fun d p => set_key (fst (parse_instrument p)) (source_ids possible prefs p) d) products d) =
  match find (fun p => String.eqb (fst (parse_instrument p)) product) (rev products) with
  | Some p => Some (source_ids possible prefs p)
  | None => lookup product d
  end.
Proof.
  induction products as [|p products IH] using rev_ind; intros d product; [reflexivity|].
  rewrite fold_left_app, rev_app_distr. cbn [fold_left rev app find]. rewrite set_key_lookup, IH.
  rewrite (String.eqb_sym product). destruct (String.eqb (fst (parse_instrument p)) product); reflexivity.
Qed.

(** The last element with a property. *)
Lemma source_instruments_iff possible prefs products product ids :
  lookup product (get_source_instruments possible products prefs) = Some ids <->
  exists pre arg post, products = pre ++ arg :: post /\ product_of arg product /\
    Forall (fun q => ~ product_of q product) post /\ searched_ids possible (fun p => prefs_of p prefs) arg product ids.
Proof.
  unfold get_source_instruments. rewrite source_instruments_lookup. cbn [lookup].
  assert (D : forall x, String.eqb (fst (parse_instrument x)) product = true <-> product_of x product)
    by (intros x; rewrite String.eqb_eq, product_of_iff; reflexivity).
  destruct (find (fun p => String.eqb (fst (parse_instrument p)) product) (rev products)) as [p|] eqn:E.
  - apply (find_first (fun x => product_of x product) _ _ D) in E. destruct E as (pre & post & E & Pp & F).
    assert (E' : products = rev post ++ p :: rev pre).
    { rewrite <- (rev_involutive products), E, rev_app_distr. cbn [rev]. rewrite <- app_assoc. reflexivity. }
    split.
    + intros H. injection H as <-. exists (rev post), p, (rev pre). split; [exact E'|]. split; [exact Pp|].
      split; [apply Forall_rev; exact F|]. apply source_ids_iff; [exact Pp|reflexivity].
    + intros (pre' & arg & post' & E2 & Pa & F2 & S). apply source_ids_iff in S; [|exact Pa]. subst ids. f_equal. f_equal.
      apply (first_with_unique (fun x => product_of x product) (rev products)).
      * exists pre, post. split; [exact E|]. split; assumption.
      * exists (rev post'), (rev pre'). rewrite E2, rev_app_distr. cbn [rev]. rewrite <- app_assoc.
        split; [reflexivity|]. split; [exact Pa|apply Forall_rev; exact F2].
  - split; [discriminate|]. intros (pre & arg & post & -> & Pa & _ & _). exfalso.
    apply (find_none' (fun x => product_of x product) _ _ D) in E.
    apply (proj1 (Forall_forall _ _) E arg); [|exact Pa]. rewrite <- in_rev. apply in_or_app. right. left. reflexivity.
Qed.

Lemma lower_ends e s : all_lower e -> ends_with e (lower s) = true <-> ends_in e s.
Proof.
  intros A. rewrite ends_with_iff. unfold ends_in. split.
  - intros (b & H). destruct (lower_split _ _ _ H) as (u & v & -> & _ & Hv). exists u, v. split; [reflexivity|].
    apply lower_same; assumption.
  - intros (u & v & -> & Hs). exists (lower u). rewrite lower_append. f_equal. apply lower_same; assumption.
Qed.
Lemma filter_filter {A} (f g : A -> bool) l : filter f (filter g l) = filter (fun x => g x && f x) l.
Proof. induction l as [|x l IH]; cbn; [reflexivity|]. destruct (g x) eqn:E; cbn; [|exact IH]. destruct (f x); rewrite IH; reflexivity. Qed.
Lemma filter_all {A} (l : list A) : filter (fun _ => true) l = l.
Proof. induction l as [|x l IH]; cbn; [reflexivity|]. rewrite IH. reflexivity. Qed.
Definition suffix_ok (product : string) (m : raw_file) : bool :=
  if String.eqb product "radar" then negb (ends_with ".lv0" (lower (r_name m)))
  else if String.eqb product "mwr" then contains ".lwp" (lower (r_name m)) || contains ".iwv" (lower (r_name m))
  else if String.eqb product "mwr-l1c" then negb (ends_with ".nc" (lower (r_name m)))
  else true.
Lemma filter_by_suffix_eq meta product : filter_by_suffix meta product = filter (suffix_ok product) meta.
Proof.
  unfold filter_by_suffix, suffix_ok. destruct (String.eqb product "radar"); [reflexivity|].
  destruct (String.eqb product "mwr"); [reflexivity|]. destruct (String.eqb product "mwr-l1c"); [reflexivity|].
  symmetry. apply filter_all.
Qed.
Lemma suffix_usable product m : suffix_ok product m = true <-> usable product m.
Proof.
  unfold suffix_ok, usable. destruct (String.eqb_spec product "radar") as [->|N1].
  - rewrite negb_true_iff. rewrite <- (lower_ends ".lv0") by (repeat split; intros H; vm_compute in H; lia). split.
    + intros H. split; [intros _; congruence|]. split; discriminate.
    + intros [H _]. specialize (H eq_refl). destruct (ends_with ".lv0" (lower (r_name m))); congruence.
  - destruct (String.eqb_spec product "mwr") as [->|N2].
    + rewrite orb_true_iff, !contains_lower by (repeat split; intros H; vm_compute in H; lia). split.
      * intros H. split; [congruence|]. split; [intros _; exact H|discriminate].
      * intros (_ & H & _). exact (H eq_refl).
    + destruct (String.eqb_spec product "mwr-l1c") as [->|N3].
      * rewrite negb_true_iff. rewrite <- (lower_ends ".nc") by (repeat split; intros H; vm_compute in H; lia). split.
        -- intros H. split; [congruence|]. split; [congruence|]. intros _. congruence.
        -- intros (_ & _ & H). specialize (H eq_refl). destruct (ends_with ".nc" (lower (r_name m))); congruence.
      * split; [|reflexivity]. intros _. split; [congruence|]. split; congruence.
Qed.

Lemma input_files_iff iterate raw possible product prefs answer i files :
  instrument_input iterate raw possible product prefs answer = Some (i, files) <->
  possible <> [] /\
  select_instrument (iterate (filter (fun m => mem_str (i_id (r_instrument m)) possible) raw)) prefs answer = Some i /\
  kept (fun m => In (i_id (r_instrument m)) possible /\ i_pid (r_instrument m) = i_pid i /\ usable product m) raw files /\
  files <> [].
Proof.
  assert (K : forall j, kept (fun m => In (i_id (r_instrument m)) possible /\ i_pid (r_instrument m) = i_pid j /\ usable product m) raw
    (filter_by_suffix (filter_by_pid (filter (fun m => mem_str (i_id (r_instrument m)) possible) raw) j) product)).
  { intros j. rewrite filter_by_suffix_eq. unfold filter_by_pid. rewrite !filter_filter. apply kept_filter. intros m.
    rewrite !andb_true_iff, mem_str_iff, String.eqb_eq, suffix_usable. tauto. }
  unfold instrument_input. destruct possible as [|p0 possible]; [split; [discriminate|intros (H & _); destruct (H eq_refl)]|].
  set (possible' := p0 :: possible) in *. set (meta := filter _ raw) in *.
  destruct (select_instrument (iterate meta) prefs answer) as [j|].
  - specialize (K j). destruct (filter_by_suffix (filter_by_pid meta j) product) as [|f fs] eqn:E.
    + split; [discriminate|]. intros (_ & H & K' & N). injection H as <-. destruct N. exact (kept_unique _ _ _ K' _ K).
    + split.
      * intros H. injection H as <- <-. split; [discriminate|]. split; [reflexivity|]. split; [exact K|discriminate].
      * intros (_ & H & K' & N). injection H as <-. rewrite (kept_unique _ _ _ K' _ K). reflexivity.
  - split; [discriminate|]. intros (_ & H & _). discriminate.
Qed.

Lemma part_contains p s : contains p s = true <-> part_of p s.
Proof.
  rewrite contains_iff. unfold occurs, part_of. reflexivity.
Qed.
Lemma converter_iff product id n : converter product id n = Ok None <-> ~ convertible product id.
Proof.
  unfold convertible. rewrite <- !part_contains.
  destruct (in_dec string_dec product ["lidar"; "mwr"; "mwr-l1c"; "mrr"; "weather-station"]) as [I|I].
  - split; [|intros K; destruct K; right; right; exact I]. intros H. exfalso. revert H. cbn [In] in I. unfold converter.
    destruct I as [<-|[<-|[<-|[<-|[<-|[]]]]]]; cbn [String.eqb Ascii.eqb Bool.eqb andb]; try discriminate.
    destruct (contains "pollyxt" id); cbn [andb]; [discriminate|]. destruct (String.eqb id "cl61d"); discriminate.
  - cbn [In] in I. unfold converter.
    destruct (String.eqb_spec product "lidar"); [exfalso; apply I; auto|].
    destruct (String.eqb_spec product "mwr"); [exfalso; apply I; auto|].
    destruct (String.eqb_spec product "mwr-l1c"); [exfalso; apply I; auto|].
    destruct (String.eqb_spec product "mrr"); [exfalso; apply I; auto|].
    destruct (String.eqb_spec product "weather-station"); [exfalso; apply I; auto 6|].
    destruct (String.eqb_spec product "radar") as [->|N1]; [|destruct (String.eqb_spec product "disdrometer") as [->|N2]].
    + cbn [String.eqb Ascii.eqb Bool.eqb andb].
      destruct (contains "mira" id); [split; [discriminate|intros K; destruct K; left; auto]|].
      destruct (contains "rpg" id); [split; [discriminate|intros K; destruct K; left; auto]|].
      destruct (contains "basta" id); [destruct (1 <? n); (split; [discriminate|intros K; destruct K; left; auto])|].
      destruct (contains "copernicus" id); [split; [discriminate|intros K; destruct K; left; auto 6]|].
      destruct (contains "galileo" id); [split; [discriminate|intros K; destruct K; left; auto 7]|].
      split; [|reflexivity]. intros _ [[_ K]|[[K _]|K]]; [|discriminate K|exact (I K)].
      destruct K as [K|[K|[K|[K|K]]]]; discriminate K.
    + cbn [String.eqb Ascii.eqb Bool.eqb andb].
      destruct (contains "parsivel" id); [split; [discriminate|intros K; destruct K; right; left; auto]|].
      destruct (contains "thies" id); [destruct (1 <? n); (split; [discriminate|intros K; destruct K; right; left; auto])|].
      split; [|reflexivity]. intros _ [[K _]|[[_ K]|K]]; [discriminate K| |exact (I K)].
      destruct K as [K|K]; discriminate K.
    + cbn [andb]. split; [|reflexivity]. intros _ [[K _]|[[K _]|K]]; [congruence|congruence|exact (I K)].
Qed.

(** ** Files of the portal *)

Section PortalProofs.
  Variable files : string -> list product_file.
  Variable model_files : list product_file.

  Lemma first_filter {A} (P : A -> Prop) (f : A -> bool) l : (forall x, f x = true <-> P x) ->
    forall x, first_with P l x <-> exists r, filter f l = x :: r.
  Proof.
    intros D x. rewrite <- (find_first P f l D). induction l as [|y l IH]; cbn.
    - split; [discriminate|intros (r & H); discriminate].
    - destruct (f y); [|exact IH]. split; [intros H; injection H as <-; eexists; reflexivity|intros (r & H); congruence].
  Qed.
  Lemma fetch_product_iff product source path : source <> Some "" ->
    fetch_product files product source = Some path <-> portal_has files product source path.
  Proof.
    intros N. unfold fetch_product, portal_has, file_path. destruct source as [s|].
    - destruct (String.eqb_spec s "") as [->|Ns]; [destruct (N eq_refl)|].
      set (f := fun m => match f_instrument m with Some i => instrument_matches i s | None => false end).
      assert (D : forall m, f m = true <-> exists i, f_instrument m = Some i /\ meant i s).
      { intros m. unfold f. destruct (f_instrument m) as [i|].
        - rewrite matches_iff. split; [intros H; exists i; split; [reflexivity|exact H]|intros (j & H & M); congruence].
        - split; [discriminate|intros (j & H & _); discriminate]. }
      assert (F := first_filter _ f (files product) D). destruct (filter f (files product)) as [|m r] eqn:E.
      + split; [discriminate|]. intros (m & H & _). apply F in H. destruct H as (r & H). discriminate.
      + split.
        * intros H. injection H as <-. exists m. split; [apply F; exists r; reflexivity|reflexivity].
        * intros (m' & H & ->). apply F in H. destruct H as (r' & H). injection H as <- _. reflexivity.
    - destruct (files product) as [|m r].
      + split; [discriminate|]. intros (m & ([|? ?] & ? & H & _) & _); discriminate.
      + split.
        * intros H. injection H as <-. exists m. split; [|reflexivity]. exists [], r. split; [reflexivity|]. split; [exact I|constructor].
        * intros (m' & ([|y pre] & post & H & _ & F) & ->); [injection H as <- _; reflexivity|]. inversion F as [|? ? Y]; subst. destruct (Y I).
  Qed.
  Lemma fetch_product_none product source : source <> Some "" ->
    fetch_product files product source = None <-> portal_lacks files product source.
  Proof.
    intros N. unfold portal_lacks. split.
    - intros H path K. apply (fetch_product_iff _ _ _ N) in K. congruence.
    - intros H. destruct (fetch_product files product source) as [p|] eqn:E; [|reflexivity].
      apply (fetch_product_iff _ _ _ N) in E. destruct (H p E).
  Qed.

  Definition try_source (product source : string) : option string :=
    match fetch_product files product (Some source) with
    | None => if String.eqb product "lidar" then fetch_product files "doppler-lidar" (Some source) else None
    | Some f => Some f
    end.
  Lemma try_source_iff product source path : source <> "" ->
    try_source product source = Some path <-> preferred_file files product source path.
  Proof.
    intros N. assert (N' : Some source <> Some "") by congruence. unfold try_source, preferred_file.
    destruct (fetch_product files product (Some source)) as [f|] eqn:E.
    - apply (fetch_product_iff _ _ _ N') in E as E'. split.
      + intros H. injection H as <-. left. exact E'.
      + intros [H|(_ & H & _)]; [|destruct (H f E')]. apply (fetch_product_iff _ _ _ N') in H. congruence.
    - apply (fetch_product_none _ _ N') in E. destruct (String.eqb_spec product "lidar") as [->|Np].
      + rewrite (fetch_product_iff _ _ _ N'). split; [intros H; right; split; [reflexivity|split; assumption]|].
        intros [H|(_ & _ & H)]; [destruct (E _ H)|exact H].
      + split; [discriminate|]. intros [H|(H & _)]; [destruct (E _ H)|congruence].
  Qed.
  Lemma fetch_preferred_eq product prefs : fetch_preferred files product prefs =
    match prefs with [] => None | s :: r => match try_source product s with Some f => Some f | None => fetch_preferred files product r end end.
  Proof.
    destruct prefs as [|s r]; cbn [fetch_preferred]; [reflexivity|]. unfold try_source.
    destruct (fetch_product files product (Some s)); reflexivity.
  Qed.
  Lemma fetch_preferred_spec product : forall prefs, Forall (fun s => s <> "") prefs ->
    (forall path, fetch_preferred files product prefs = Some path <->
       exists source, first_with (fun s => exists p, preferred_file files product s p) prefs source /\ preferred_file files product source path) /\
    (fetch_preferred files product prefs = None <-> Forall (fun s => forall p, ~ preferred_file files product s p) prefs).
  Proof.
    induction prefs as [|s r IH]; intros F; rewrite fetch_preferred_eq.
    - split; [|split; [constructor|reflexivity]]. intros path. split; [discriminate|].
      intros (x & ([|? ?] & ? & H & _) & _); discriminate.
    - inversion F as [|? ? Ns F']; subst. destruct (IH F') as [H1 H2]. assert (T := try_source_iff product s).
      destruct (try_source product s) as [f|].
      + assert (Pf : preferred_file files product s f) by (apply T; [exact Ns|reflexivity]). split.
        * intros path. split.
          -- intros H. injection H as <-. exists s. split; [|exact Pf]. exists [], r. split; [reflexivity|]. split; [exists f; exact Pf|constructor].
          -- intros (x & ([|y pre] & post & H & (p & Hp) & Fn) & Px).
             ++ injection H as <- _. apply T in Px; [exact Px|exact Ns].
             ++ injection H as <- _. inversion Fn as [|? ? Y]; subst. destruct Y. exists f. exact Pf.
        * split; [discriminate|]. intros K. inversion K as [|? ? Y]; subst. destruct (Y f Pf).
      + assert (No : forall p, ~ preferred_file files product s p) by (intros p K; apply T in K; [discriminate|exact Ns]). split.
        * intros path. rewrite H1. split.
          -- intros (x & (pre & post & -> & Hx & Fn) & Px). exists x. split; [|exact Px]. exists (s :: pre), post.
             split; [reflexivity|]. split; [exact Hx|]. constructor; [intros (p & K); exact (No p K)|exact Fn].
          -- intros (x & ([|y pre] & post & H & Hx & Fn) & Px).
             ++ injection H as -> _. destruct (No _ Px).
             ++ injection H as <- ->. inversion Fn; subst. exists x. split; [|exact Px]. exists pre, post. split; [reflexivity|]. split; assumption.
        * rewrite H2. split; [intros K; constructor; assumption|intros K; inversion K; assumption].
  Qed.
  Lemma fetch_instrument_iff prefs product path : Forall (fun s => s <> "") (prefs_of product prefs) ->
    fetch_instrument files prefs product = Some path <-> chosen_file files (prefs_of product prefs) product path.
  Proof.
    intros F. unfold fetch_instrument, chosen_file. destruct (fetch_preferred_spec product _ F) as [H1 H2].
    destruct (fetch_preferred files product (prefs_of product prefs)) as [f|] eqn:E.
    - rewrite <- H1. split; [intros H; left; exact H|]. intros [H|[H _]]; [exact H|]. apply H2 in H. discriminate.
    - rewrite <- H1, fetch_product_iff by discriminate. split; [intros H; right; split; [apply H2; reflexivity|exact H]|].
      intros [H|[_ H]]; [discriminate|exact H].
  Qed.

  Lemma fetch_first_iff : forall sources path, Forall (fun x => snd x <> Some "") sources ->
    fetch_first files sources = Some path <->
    exists place, first_with (fun x => exists p, portal_has files (fst x) (snd x) p) sources place /\
      portal_has files (fst place) (snd place) path.
  Proof.
    induction sources as [|[product source] r IH]; intros path F; cbn [fetch_first].
    - split; [discriminate|]. intros (x & ([|? ?] & ? & H & _) & _); discriminate.
    - inversion F as [|? ? Ns F']; subst. cbn [snd] in Ns. destruct (fetch_product files product source) as [f|] eqn:E.
      + apply (fetch_product_iff _ _ _ Ns) in E as E'. split.
        * intros H. injection H as <-. exists (product, source). split; [|exact E']. exists [], r. split; [reflexivity|].
          split; [exists f; exact E'|constructor].
        * intros (x & ([|y pre] & post & H & _ & Fn) & Px).
          -- injection H as <- _. cbn [fst snd] in Px. apply (fetch_product_iff _ _ _ Ns) in Px. congruence.
          -- injection H as <- _. inversion Fn as [|? ? Y]; subst. destruct Y. exists f. exact E'.
      + apply (fetch_product_none _ _ Ns) in E. rewrite (IH path F'). split.
        * intros (x & (pre & post & -> & Hx & Fn) & Px). exists x. split; [|exact Px]. exists ((product, source) :: pre), post.
          split; [reflexivity|]. split; [exact Hx|]. constructor; [intros (p & K); exact (E p K)|exact Fn].
        * intros (x & ([|y pre] & post & H & Hx & Fn) & Px).
          -- injection H as <- _. destruct (E _ Px).
          -- injection H as <- ->. inversion Fn; subst. exists x. split; [|exact Px]. exists pre, post. split; [reflexivity|]. split; assumption.
  Qed.
  Lemma fetch_mwr_iff path : fetch_mwr files = Some path <-> mwr_file files path.
  Proof. unfold fetch_mwr, mwr_file. apply fetch_first_iff. repeat constructor; discriminate. Qed.

  Lemma collect_ok prefs mf : fetch_model model_files = Ok mf -> forall completed d,
    exists r, collect files model_files prefs completed d = Ok r /\ forall key,
      lookup key r = match (if mem_str key completed then if String.eqb key "model" then mf else fetch_instrument files prefs key else None) with
                     | Some f => Some (Some f) | None => lookup key d end.
  Proof.
    intros M. induction completed as [|c completed IH]; intros d.
    - exists d. split; [reflexivity|]. intros key. reflexivity.
    - cbn [collect]. unfold download. set (dl := if String.eqb c "model" then mf else fetch_instrument files prefs c).
      assert (E : (if String.eqb c "model" then fetch_model model_files else Ok (fetch_instrument files prefs c)) = Ok dl)
        by (unfold dl; destruct (String.eqb c "model"); [exact M|reflexivity]).
      rewrite E. cbn [bind]. destruct (IH (match dl with Some f => set_key c (Some f) d | None => d end)) as (r & Hr & L).
      exists r. split; [exact Hr|]. intros key. rewrite L.
      assert (Mm : mem_str key (c :: completed) = String.eqb key c || mem_str key completed) by reflexivity.
      rewrite Mm. clear Mm. destruct (String.eqb_spec key c) as [->|N]; cbn [orb].
      + fold dl. destruct (mem_str c completed).
        * destruct dl; reflexivity.
        * destruct dl as [f|]; [rewrite set_key_lookup, String.eqb_refl; reflexivity|reflexivity].
      + assert (Lk : lookup key (match dl with Some f => set_key c (Some f) d | None => d end) = lookup key d).
        { destruct dl; [|reflexivity]. rewrite set_key_lookup. destruct (String.eqb_spec key c); [contradiction|reflexivity]. }
        rewrite Lk. reflexivity.
  Qed.
  Lemma collect_raise prefs e : fetch_model model_files = Raise e -> forall completed d, In "model" completed ->
    collect files model_files prefs completed d = Raise e.
  Proof.
    intros M. induction completed as [|c completed IH]; intros d [].
    - subst c. cbn [collect]. unfold download. cbn [String.eqb Ascii.eqb Bool.eqb]. rewrite M. reflexivity.
    - cbn [collect]. unfold download. destruct (String.eqb c "model"); [rewrite M; reflexivity|]. cbn [bind]. apply IH. assumption.
  Qed.
  Lemma downloads_in d key : In key (downloads d) <-> key = "model" \/ In key ["radar"; "lidar"; "disdrometer"] /\ lookup key d = None.
  Proof.
    unfold downloads. cbn [In]. rewrite filter_In. split.
    - intros [<-|[I H]]; [left; reflexivity|right]. split; [exact I|]. destruct (lookup key d); [discriminate|reflexivity].
    - intros [->|[I H]]; [left; reflexivity|right]. split; [exact I|]. rewrite H. reflexivity.
  Qed.
  Lemma mem_downloads d completed key : Permutation completed (downloads d) ->
    mem_str key completed = true <-> key = "model" \/ In key ["radar"; "lidar"; "disdrometer"] /\ lookup key d = None.
  Proof.
    intros P. rewrite mem_str_iff, <- downloads_in. split; [apply Permutation_in; exact P|apply Permutation_in, Permutation_sym; exact P].
  Qed.

  (** The value of a key in the files given to categorize. *)
  Definition final (prefs : dict (list string)) (mf : option string) (d : dict (option string)) (key : string) : option (option string) :=
    match (if String.eqb key "mwr" then fetch_mwr files else None) with
    | Some f => Some (Some f)
    | None =>
        match (if mem_str key (downloads d) then if String.eqb key "model" then mf else fetch_instrument files prefs key else None) with
        | Some f => Some (Some f) | None => lookup key d end
    end.
  Lemma categorize_ok prefs completed d mf : Permutation completed (downloads d) -> lookup "model" d = None ->
    fetch_model model_files = Ok mf ->
    match mf with
    | None => categorize_input files model_files prefs completed d = Ok None
    | Some _ => exists r, categorize_input files model_files prefs completed d = Ok (Some r) /\
                  forall key, lookup key r = final prefs mf d key
    end.
  Proof.
    intros P N M. unfold categorize_input. destruct (collect_ok prefs mf M completed d) as (r & -> & L). cbn [bind].
    assert (Mm : forall key, mem_str key completed = mem_str key (downloads d)).
    { intros key. apply eq_true_iff_eq. rewrite !mem_str_iff. split; apply Permutation_in; [exact P|apply Permutation_sym; exact P]. }
    set (r' := match fetch_mwr files with Some f => set_key "mwr" (Some f) r | None => r end).
    assert (L' : forall key, lookup key r' = final prefs mf d key).
    { intros key. unfold r', final. rewrite <- Mm. destruct (fetch_mwr files) as [f|].
      - rewrite set_key_lookup. destruct (String.eqb key "mwr"); [reflexivity|apply L].
      - destruct (String.eqb key "mwr"); apply L. }
    assert (Lm : lookup "model" r' = match mf with Some f => Some (Some f) | None => None end).
    { rewrite L'. unfold final. cbn [String.eqb Ascii.eqb Bool.eqb]. unfold downloads at 1. cbn [mem_str existsb String.eqb Ascii.eqb Bool.eqb orb].
      destruct mf; [reflexivity|exact N]. }
    rewrite Lm. destruct mf as [f|]; [exists r'; split; [reflexivity|exact L']|reflexivity].
  Qed.
  Lemma categorize_raise prefs completed d e : Permutation completed (downloads d) -> fetch_model model_files = Raise e ->
    categorize_input files model_files prefs completed d = Raise e.
  Proof.
    intros P M. unfold categorize_input. rewrite (collect_raise prefs e M); [reflexivity|].
    apply (Permutation_in _ (Permutation_sym P)). left. reflexivity.
  Qed.
End PortalProofs.

(** ** Names *)

Lemma last_separated c : forall l s, separated c s l -> after_last c s (List.last l "").
Proof.
  induction l as [|x l IH]; intros s (N & F & ->); [destruct (N eq_refl)|]. inversion F as [|? ? Wx F']; subst.
  destruct l as [|y l]; [split; [exact Wx|left; reflexivity]|].
  destruct (IH (String.concat (String c "") (y :: l))) as [W H]; [split; [discriminate|split; [exact F'|reflexivity]]|].
  change (List.last (x :: y :: l) "") with (List.last (y :: l) ""). split; [exact W|]. right.
  change (String.concat (String c "") (x :: y :: l)) with (x ++ String c "" ++ String.concat (String c "") (y :: l))%string.
  destruct H as [H|(a & H)].
  - exists x. rewrite <- H. reflexivity.
  - exists (x ++ String c a)%string. rewrite append_assoc'. cbn [append]. rewrite <- H. reflexivity.
Qed.
Lemma after_last_unique c s a b : after_last c s a -> after_last c s b -> a = b.
Proof.
  assert (G : forall p q u v, without c u -> without c v -> (p ++ String c u = q ++ String c v)%string -> u = v).
  { induction p as [|x p IH]; intros q u v Wu Wv E.
    - destruct q as [|y q]; cbn in E; [congruence|]. injection E as _ E. exfalso. apply Wu. exists q, v. exact E.
    - destruct q as [|y q]; cbn in E; [|injection E as _ E; exact (IH q u v Wu Wv E)].
      injection E as _ E. exfalso. apply Wv. exists p, u. symmetry. exact E. }
  intros [Wa [<-|(p & Ha)]] [Wb [Hb|(q & Hb)]].
  - exact Hb.
  - exfalso. apply Wa. exists q, b. exact Hb.
  - exfalso. apply Wb. exists p, a. rewrite <- Hb. exact Ha.
  - apply (G p q); [exact Wa|exact Wb|congruence].
Qed.
Lemma substring_first n : forall s, first_chars n s (substring 0 n s).
Proof.
  induction n as [|n IH]; intros s.
  - exists s. split; [destruct s; reflexivity|left; destruct s; reflexivity].
  - destruct s as [|c s]; [exists ""; split; [reflexivity|right; split; [reflexivity|cbn; lia]]|].
    destruct (IH s) as (rest & E & H). exists rest. cbn [substring]. split; [cbn; f_equal; exact E|].
    cbn [String.length]. destruct H as [->|[-> H]]; [left; reflexivity|right; split; [reflexivity|lia]].
Qed.
Lemma shorten_pid_iff p out : shorten_pid p = out <-> exists part, after_last "." p part /\ first_chars 8 part out.
Proof.
  assert (L := last_separated "." _ _ (split_on_spec "." p)). unfold shorten_pid.
  set (part := List.last (split_on "." p) "") in *. clearbody part. split.
  - intros <-. exists part. split; [exact L|apply substring_first].
  - intros (q & H & (rest & E & F)). assert (q = part) as -> by exact (after_last_unique _ _ _ _ H L). subst part.
    destruct F as [<-|[-> F]]; [apply substring_all|]. rewrite append_nil_r. clear L H. revert F. generalize 8. induction out as [|c out IH]; intros n F.
    + destruct n; reflexivity.
    + destruct n as [|n]; cbn in F; [lia|]. cbn [substring]. rewrite IH by lia. reflexivity.
Qed.

Lemma prefix_part w s : prefix w s = true <-> exists b, s = (w ++ b)%string.
Proof. apply prefix_iff. Qed.
Lemma replace_skip old new : forall t s, replace_from (String.length t) old new (t ++ s) = replace_from 0 old new s.
Proof. induction t as [|c t IH]; intros s; cbn [append String.length replace_from]; [reflexivity|apply IH]. Qed.
Lemma replace_none old new : forall s, (forall a b, s <> (a ++ old ++ b)%string) -> replace old new s = s.
Proof.
  unfold replace. induction s as [|c s IH]; intros N; cbn [replace_from]; [reflexivity|].
  destruct (prefix old (String c s)) eqn:E.
  - apply prefix_part in E. destruct E as (b & E). destruct (N "" b E).
  - rewrite IH; [reflexivity|]. intros a b K. apply (N (String c a) b). cbn. f_equal. exact K.
Qed.
Lemma replace_once x old new b : forall a, occurs_once (String x old) (a ++ String x old ++ b) a ->
  replace (String x old) new (a ++ String x old ++ b) = (a ++ new ++ b)%string.
Proof.
  unfold replace. induction a as [|c a IH]; intros O.
  - assert (Px : prefix (String x old) (String x old ++ b) = true) by (apply prefix_part; exists b; reflexivity).
    cbn [append] in *. cbn [replace_from]. rewrite Px. f_equal. cbn [String.length].
    replace (S (String.length old) - 1) with (String.length old) by lia. rewrite replace_skip.
    apply replace_none. intros a' b' K. specialize (O (String x old ++ a')%string b'). 
    assert (E : String x (old ++ b) = ((String x old ++ a') ++ String x old ++ b')%string) by (rewrite append_assoc'; cbn; rewrite K; reflexivity).
    specialize (O E). discriminate O.
  - cbn [append] in *. cbn [replace_from]. destruct (prefix (String x old) (String c (a ++ String x (old ++ b)))) eqn:E.
    + apply prefix_part in E. destruct E as (r & E). specialize (O "" r E). discriminate.
    + f_equal. apply IH. intros a' b' K. specialize (O (String c a') b'). cbn in O. cbn in K. rewrite K in O. specialize (O eq_refl). congruence.
Qed.

Lemma l3_names : map fst l3_source_products = ["l3-cf"; "l3-iwc"; "l3-lwc"].
Proof. reflexivity. Qed.
Lemma parse_products_iff valid argument products : parse_products valid argument = products <->
  exists parts, separated "," argument parts /\
    kept (fun p => exists name, product_of p name /\ (In name valid \/ In name ["l3-cf"; "l3-iwc"; "l3-lwc"])) parts products.
Proof.
  unfold parse_products. rewrite l3_names.
  assert (K : forall parts, kept (fun p => exists name, product_of p name /\ (In name valid \/ In name ["l3-cf"; "l3-iwc"; "l3-lwc"])) parts
    (filter (fun p => let prod := fst (parse_instrument p) in mem_str prod valid || mem_str prod ["l3-cf"; "l3-iwc"; "l3-lwc"]) parts)).
  { intros parts. apply kept_filter. intros p. cbn zeta. rewrite orb_true_iff, !mem_str_iff. split.
    - intros H. exists (fst (parse_instrument p)). split; [apply parse_product|exact H].
    - intros (name & Pn & H). apply product_of_iff in Pn. rewrite Pn. exact H. }
  split.
  - intros <-. exists (split_on "," argument). split; [apply split_on_spec|apply K].
  - intros (parts & Sp & Kp). apply split_on_iff in Sp. rewrite Sp. exact (kept_unique _ _ _ (K parts) _ Kp).
Qed.

Lemma check_models_spec model : forall models found,
  (check_models model found models = None <-> exists id source, In (id, source) models /\ source = model /\ id <> model) /\
  (forall b, check_models model found models = Some b -> (b = true <-> found = true \/ exists source, In (model, source) models)).
Proof.
  induction models as [|[id source] models IH]; intros found; cbn [check_models].
  - split; [split; [discriminate|intros (? & ? & [] & _)]|]. intros b H. injection H as <-.
    split; [intros H; left; exact H|intros [H|(s & [])]; exact H].
  - destruct (String.eqb_spec model source) as [<-|N].
    + destruct (String.eqb_spec id model) as [->|N']; cbn [andb negb].
      * rewrite String.eqb_refl. destruct (IH true) as [H1 H2]. split.
        -- rewrite H1. split; [intros (i & s & I & R); exists i, s; split; [right; exact I|exact R]|].
           intros (i & s & [E|I] & E1 & E2); [congruence|exists i, s; split; [exact I|split; assumption]].
        -- intros b Hb. rewrite (H2 b Hb). split; [intros _; right; exists model; left; reflexivity|intros _; left; reflexivity].
      * split; [|discriminate]. split; [intros _; exists id, model; split; [left; reflexivity|split; [reflexivity|exact N']]|reflexivity].
    + cbn [andb]. destruct (IH (if String.eqb model id then true else found)) as [H1 H2]. split.
      * rewrite H1. split; [intros (i & s & I & R); exists i, s; split; [right; exact I|exact R]|].
        intros (i & s & [E|I] & E1 & E2); [congruence|exists i, s; split; [exact I|split; assumption]].
      * intros b Hb. rewrite (H2 b Hb). destruct (String.eqb_spec model id) as [<-|Ni].
        -- split; [intros _; right; exists source; left; reflexivity|intros _; left; reflexivity].
        -- split; (intros [H|(s & H)]; [left; exact H|right]).
           ++ exists s. right. exact H.
           ++ destruct H as [H|H]; [congruence|exists s; exact H].
Qed.
Lemma parse_model_iff models model m : parse_model models model = Some m <->
  m = model /\ (exists source, In (model, source) models) /\ forall id, In (id, model) models -> id = model.
Proof.
  unfold parse_model. destruct (check_models_spec model models false) as [H1 H2].
  destruct (check_models model false models) as [b|].
  - specialize (H2 b eq_refl). assert (A : forall id, In (id, model) models -> id = model).
    { intros id I. destruct (string_dec id model) as [E|N]; [exact E|]. exfalso.
      assert (K : Some b = None); [|discriminate]. apply H1. exists id, model. split; [exact I|split; [reflexivity|exact N]]. }
    destruct b.
    + destruct (proj1 H2 eq_refl) as [K|K]; [discriminate|]. split; [intros H; injection H as <-; split; [reflexivity|split; assumption]|].
      intros (-> & _). reflexivity.
    + split; [discriminate|]. intros (_ & K & _). assert (false = true) by (apply H2; right; exact K). discriminate.
  - split; [discriminate|]. intros (_ & _ & K). destruct (proj1 H1 eq_refl) as (id & s & I & -> & N). destruct (N (K id I)).
Qed.
