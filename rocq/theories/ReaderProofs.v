(** Proofs about the text readers. *)
From Verif Require Import Base OutputModel OutputSpec OutputProofs SiteModel SiteSpec SiteProofs
  ReaderModel ReaderSpec.
Local Open Scope string_scope.
Local Open Scope nat_scope.
Local Notation length := List.length (only parsing).

(** ** Lists and dictionaries *)
Lemma collects_flat_map : forall A B (R : A -> B -> Prop) (f : A -> option B) l,
  (forall a b, In a l -> f a = Some b <-> R a b) ->
  collects R l (flat_map (fun a => opt_list (f a)) l).
Proof.
  intros A B R f l. induction l as [|a l IH]; intros H; [constructor|].
  cbn [flat_map]. assert (IH' : collects R l (flat_map (fun a => opt_list (f a)) l)).
  { apply IH. intros a' b I. apply H. right. exact I. }
  destruct (f a) as [b|] eqn:E; cbn [opt_list app].
  - apply collects_take; [apply H; [left; reflexivity|exact E]|exact IH'].
  - apply collects_skip; [|exact IH']. intros b X. apply H in X; [congruence|left; reflexivity].
Qed.
Lemma collects_ext : forall A B (R S : A -> B -> Prop) l bs,
  (forall a b, In a l -> R a b <-> S a b) -> collects R l bs -> collects S l bs.
Proof.
  intros A B R S l bs H C. induction C.
  - constructor.
  - apply collects_take; [apply H; [left; reflexivity|assumption]|]. apply IHC. intros; apply H; right; assumption.
  - apply collects_skip; [intros b X; apply H in X; [eapply H0; exact X|left; reflexivity]|].
    apply IHC. intros; apply H; right; assumption.
Qed.
(** Two collections over the same elements, taking the same elements, have the
    same length. *)
Lemma collects_same_length : forall A B C (R : A -> B -> Prop) (S : A -> C -> Prop) l bs cs,
  (forall a, In a l -> (exists b, R a b) <-> (exists c, S a c)) ->
  collects R l bs -> collects S l cs -> length bs = length cs.
Proof.
  intros A B C R S l bs cs H X. revert cs H. induction X as [|a b l bs r X IH|a l bs n X IH]; intros cs H Y;
    inversion Y as [|? c ? ? r' Y'|? ? ? n' Y']; subst; try reflexivity.
  - cbn. f_equal. apply IH; [intros; apply H; right; assumption|assumption].
  - exfalso. destruct (proj1 (H a (or_introl eq_refl)) (ex_intro _ b r)) as [c Hc]. exact (n' c Hc).
  - exfalso. destruct (proj2 (H a (or_introl eq_refl)) (ex_intro _ c r')) as [b Hb]. exact (n b Hb).
  - apply IH; [intros; apply H; right; assumption|assumption].
Qed.

Section Dict.
Context {K A : Type} (eqb : K -> K -> bool).
Hypothesis eqb_spec : forall a b, eqb a b = true <-> a = b.
Lemma eqb_refl' : forall a, eqb a a = true. Proof. intros a. apply eqb_spec. reflexivity. Qed.
Lemma eqb_false : forall a b, eqb a b = false <-> a <> b.
Proof.
  intros a b. split.
  - intros H E. apply eqb_spec in E. congruence.
  - intros H. destruct (eqb a b) eqn:E; [|reflexivity]. apply eqb_spec in E. contradiction.
Qed.
Definition col (d : list (K * list A)) (k : K) : list A :=
  match column_of eqb k d with Some c => c | None => [] end.
Lemma col_push : forall k v d k', col (push eqb k v d) k' =
  (if eqb k k' then col d k ++ [v] else col d k')%list.
Proof.
  intros k v d k'. unfold col. induction d as [|[k2 c] d IH].
  - cbn. destruct (eqb k' k) eqn:E.
    + apply eqb_spec in E. subst. rewrite eqb_refl'. reflexivity.
    + assert (eqb k k' = false) as -> by (apply eqb_false; apply eqb_false in E; congruence). reflexivity.
  - cbn [push]. destruct (eqb k k2) eqn:E.
    + apply eqb_spec in E. subst k2. cbn. destruct (eqb k' k) eqn:F.
      * apply eqb_spec in F. subst k'. rewrite eqb_refl'. reflexivity.
      * assert (eqb k k' = false) as -> by (apply eqb_false; apply eqb_false in F; congruence). reflexivity.
    + cbn. rewrite E. destruct (eqb k' k2) eqn:F.
      * destruct (eqb k k') eqn:G; [|reflexivity].
        apply eqb_spec in F, G. subst. rewrite eqb_refl' in E. discriminate.
      * exact IH.
Qed.
Lemma push_keys : forall k (v : A) d k', In k' (map fst (push eqb k v d)) <-> k' = k \/ In k' (map fst d).
Proof.
  intros k v d k'. induction d as [|[k2 c] d IH]; cbn.
  - split; [intros [H|[]]; auto|intros [H|[]]; auto].
  - destruct (eqb k k2) eqn:E; cbn.
    + apply eqb_spec in E. subst. split; [intros [H|H]; auto|intros [H|[H|H]]; auto].
    + rewrite IH. split; [intros [H|[H|H]]; auto|intros [H|[H|H]]; auto].
Qed.
Lemma push_nodup : forall k (v : A) d, NoDup (map fst d) -> NoDup (map fst (push eqb k v d)).
Proof.
  intros k v d. induction d as [|[k2 c] d IH]; cbn; intros H.
  - constructor; [intros []|constructor].
  - inversion H; subst. destruct (eqb k k2) eqn:E; cbn.
    + constructor; assumption.
    + constructor; [|apply IH; assumption]. intros X. apply push_keys in X. destruct X as [X|X].
      * subst. rewrite eqb_refl' in E. discriminate.
      * contradiction.
Qed.
Lemma column_of_in : forall (d : list (K * list A)) k c, column_of eqb k d = Some c -> In (k, c) d.
Proof.
  intros d k c. induction d as [|[k2 c2] d IH]; cbn; [discriminate|].
  destruct (eqb k k2) eqn:E.
  - intros H. injection H as ->. apply eqb_spec in E. subst. left. reflexivity.
  - intros H. right. apply IH. exact H.
Qed.
Lemma column_of_none : forall (d : list (K * list A)) k, column_of eqb k d = None <-> ~ In k (map fst d).
Proof.
  intros d k. induction d as [|[k2 c2] d IH]; cbn; [split; auto|].
  destruct (eqb k k2) eqn:E.
  - apply eqb_spec in E. subst. split; [discriminate|]. intros H. exfalso. apply H. left. reflexivity.
  - rewrite IH. apply eqb_false in E. split; [intros H [X|X]; [congruence|auto]|auto].
Qed.
Lemma in_column_of : forall (d : list (K * list A)) k c, NoDup (map fst d) -> In (k, c) d -> column_of eqb k d = Some c.
Proof.
  intros d k c. induction d as [|[k2 c2] d IH]; cbn; [intros _ []|].
  intros N [H|H]; inversion N; subst.
  - injection H as -> ->. rewrite eqb_refl'. reflexivity.
  - destruct (eqb k k2) eqn:E; [|apply IH; assumption].
    apply eqb_spec in E. subst. exfalso. apply H2. apply in_map_iff. exists (k2, c). auto.
Qed.
Lemma has_column_iff : forall (d : list (K * list A)) k c, NoDup (map fst d) -> has_column d k c <-> col d k = c.
Proof.
  intros d k c N. unfold has_column, col. split.
  - intros [[H _]|[-> H]].
    + rewrite (in_column_of _ _ _ N H). reflexivity.
    + apply column_of_none in H. rewrite H. reflexivity.
  - destruct (column_of eqb k d) as [c'|] eqn:E; intros <-.
    + left. split; [apply column_of_in; exact E|exact N].
    + right. split; [reflexivity|]. apply column_of_none. exact E.
Qed.
End Dict.
Lemma nat_eqb_spec : forall a b, Nat.eqb a b = true <-> a = b. Proof. apply Nat.eqb_eq. Qed.
Lemma z_eqb_spec : forall a b, Z.eqb a b = true <-> a = b. Proof. apply Z.eqb_eq. Qed.

(** ** Strings *)
Lemma only_char_nil : forall c, only_char c "".
Proof. intros c a x b H. destruct a; discriminate. Qed.
Lemma only_char_cons : forall c x s, only_char c (String x s) <-> x = c /\ only_char c s.
Proof.
  intros c x s. split.
  - intros H. split; [exact (H "" x s eq_refl)|]. intros a y b E. subst s. exact (H (String x a) y b eq_refl).
  - intros [-> H] a y b E. destruct a as [|z a]; injection E as -> E; [reflexivity|]. exact (H a y b E).
Qed.
Lemma rstrip_char_only : forall c r, only_char c r -> rstrip_char c r = "".
Proof.
  intros c r. induction r as [|x r IH]; [reflexivity|]. intros H. apply only_char_cons in H. destruct H as [-> H].
  cbn. rewrite (IH H), Ascii.eqb_refl. reflexivity.
Qed.
Lemma rstrip_char_app : forall c s r, only_char c r -> rstrip_char c (s ++ r) = rstrip_char c s.
Proof.
  intros c s r H. induction s as [|x s IH]; cbn.
  - apply rstrip_char_only. exact H.
  - rewrite IH. reflexivity.
Qed.
Lemma rstrip_char_keep : forall c s x, x <> c -> rstrip_char c (s ++ String x "") = s ++ String x "".
Proof.
  intros c s x N. induction s as [|y s IH]; cbn.
  - apply Ascii.eqb_neq in N. rewrite N. reflexivity.
  - rewrite IH. destruct s; reflexivity.
Qed.
Lemma rstrip_char_trimmed : forall c u, trimmed c u (rstrip_char c u).
Proof.
  intros c u. induction u as [|x u (r & E & O & L)].
  - exists "". split; [reflexivity|]. split; [apply only_char_nil|left; reflexivity].
  - cbn. destruct (rstrip_char c u) as [|y s] eqn:F.
    + destruct (Ascii.eqb x c) eqn:X.
      * apply Ascii.eqb_eq in X. subst x. exists (String c r). cbn in E. subst u.
        split; [reflexivity|]. split; [apply only_char_cons; auto|left; reflexivity].
      * exists r. cbn in E. subst u. split; [reflexivity|]. split; [exact O|]. right.
        exists "", x. split; [reflexivity|]. apply Ascii.eqb_neq. exact X.
    + exists r. rewrite E. split; [reflexivity|]. split; [exact O|]. right.
      destruct L as [L|(p & z & L & N)]; [discriminate|]. exists (String x p), z. rewrite L. auto.
Qed.
Lemma trimmed_unique : forall c u t, trimmed c u t -> rstrip_char c u = t.
Proof.
  intros c u t (r & -> & O & L). rewrite (rstrip_char_app _ _ _ O).
  destruct L as [->|(p & x & -> & N)]; [reflexivity|]. apply rstrip_char_keep. exact N.
Qed.
Lemma partition_some : forall c s a b, partition c s = Some (a, b) <-> s = a ++ String c b /\ without c a.
Proof.
  intros c s. induction s as [|x s IH]; intros a b; cbn.
  - split; [discriminate|]. intros [H _]. destruct a; discriminate.
  - destruct (Ascii.eqb x c) eqn:X.
    + apply Ascii.eqb_eq in X. subst x. split.
      * intros H. injection H as <- <-. split; [reflexivity|apply without_nil].
      * intros [H W]. destruct a as [|y a]; [injection H as ->; reflexivity|]. injection H as -> H.
        apply without_cons in W. destruct W as [W _]. contradiction.
    + apply Ascii.eqb_neq in X. destruct (partition c s) as [[a' b']|] eqn:P.
      * split.
        -- intros H. injection H as <- <-. destruct (proj1 (IH a' b') eq_refl) as [-> W].
           split; [reflexivity|]. apply without_cons. auto.
        -- intros [H W]. destruct a as [|y a]; [injection H as -> _; contradiction|]. injection H as -> H.
           apply without_cons in W. destruct W as [_ W].
           pose proof (proj2 (IH a b) (conj H W)) as Q. injection Q as -> ->. reflexivity.
      * split; [discriminate|]. intros [H W]. destruct a as [|y a]; [injection H as -> _; contradiction|]. injection H as -> H.
        apply without_cons in W. destruct W as [_ W].
        pose proof (proj2 (IH a b) (conj H W)) as Q. discriminate.
Qed.
Lemma partition_none : forall c s, partition c s = None <-> without c s.
Proof.
  intros c s. split.
  - intros H (a & b & E). subst s. revert H. induction a as [|x a IH]; cbn.
    + rewrite Ascii.eqb_refl. discriminate.
    + destruct (Ascii.eqb x c); [discriminate|]. destruct (partition c (a ++ String c b)) as [[? ?]|]; [discriminate|].
      intros _. apply IH. reflexivity.
  - intros W. destruct (partition c s) as [[a b]|] eqn:P; [|reflexivity].
    apply partition_some in P. destruct P as [P _]. exfalso. apply W. exists a, b. exact P.
Qed.
Lemma mem_nat_iff : forall n l, mem_nat n l = true <-> In n l.
Proof.
  intros n l. unfold mem_nat. rewrite existsb_exists. split.
  - intros (x & I & E). apply Nat.eqb_eq in E. subst. exact I.
  - intros I. exists n. split; [exact I|apply Nat.eqb_refl].
Qed.

(** ** Thies LPM *)
Lemma lpm_fields_iff : forall line ws, telegram_fields line ws <-> lpm_fields line = ws.
Proof.
  intros line ws. unfold lpm_fields. split.
  - intros (u & t & S & T & P). apply stripped_unique in S. apply trimmed_unique in T.
    rewrite S, T. apply split_on_unique. exact P.
  - intros <-. exists (strip line), (rstrip_char ";" (strip line)).
    split; [apply strip_stripped|]. split; [apply rstrip_char_trimmed|apply split_on_spec].
Qed.
Lemma whole_iff : forall no, (mem_nat no lpm_int_keys || ((81 <=? no) && (no <=? 520)))%bool = true <-> whole_column no.
Proof.
  intros no. rewrite orb_true_iff, andb_true_iff, mem_nat_iff, !Nat.leb_le. unfold whole_column, lpm_int_keys.
  cbn [In]. lia.
Qed.
Lemma decimal_iff : forall no, mem_nat no lpm_float_keys = true <-> decimal_column no.
Proof. intros no. rewrite mem_nat_iff. unfold decimal_column, lpm_float_keys. cbn [In]. lia. Qed.

Section LpmProofs.
Context {D T : Type} (to_int : string -> option Z) (to_float : string -> option Q)
  (to_date : string -> option D) (to_time : string -> option T) (to_stamp : string -> option (D * T)).
Local Notation value := (lpm_value to_int to_float to_date to_time).
Local Notation value_at := (lpm_value_at to_int to_float to_date to_time).
Local Notation readable_to := (readable_to to_int to_float to_date to_time).
Local Notation readable := (readable to_int to_float to_date to_time).
Local Notation lcol := (col Nat.eqb).

Lemma lpm_value_iff : forall no w v, value no w = Some v <-> lpm_meaning to_int to_float to_date to_time no w v.
Proof.
  intros no w v. unfold lpm_value.
  assert (W5 : ~ whole_column 5) by (unfold whole_column; cbn [In]; lia).
  assert (W6 : ~ whole_column 6) by (unfold whole_column; cbn [In]; lia).
  assert (D5 : ~ decimal_column 5) by (unfold decimal_column; cbn [In]; lia).
  assert (D6 : ~ decimal_column 6) by (unfold decimal_column; cbn [In]; lia).
  assert (WD : whole_column no -> ~ decimal_column no) by (unfold whole_column, decimal_column; cbn [In]; lia).
  destruct (no =? 5) eqn:E5.
  { apply Nat.eqb_eq in E5. subst no. split.
    - destruct (to_date w) as [d|] eqn:X; [|discriminate]. intros H. injection H as <-. constructor. exact X.
    - intros H. inversion H; subst; try contradiction.
      match goal with X : to_date w = _ |- _ => rewrite X end. reflexivity. }
  apply Nat.eqb_neq in E5. destruct (no =? 6) eqn:E6.
  { apply Nat.eqb_eq in E6. subst no. split.
    - destruct (to_time w) as [d|] eqn:X; [|discriminate]. intros H. injection H as <-. constructor. exact X.
    - intros H. inversion H; subst; try contradiction.
      match goal with X : to_time w = _ |- _ => rewrite X end. reflexivity. }
  apply Nat.eqb_neq in E6.
  destruct (mem_nat no lpm_int_keys || ((81 <=? no) && (no <=? 520)))%bool eqn:EW.
  { apply whole_iff in EW. split.
    - destruct (to_int w) as [z|] eqn:X; [|discriminate]. intros H. injection H as <-. constructor; assumption.
    - intros H. inversion H; subst; try contradiction.
      + match goal with X : to_int w = _ |- _ => rewrite X end. reflexivity.
      + exfalso. apply (WD EW). assumption. }
  assert (NW : ~ whole_column no) by (intros X; apply whole_iff in X; congruence).
  destruct (mem_nat no lpm_float_keys) eqn:ED.
  { apply decimal_iff in ED. split.
    - destruct (to_float w) as [z|] eqn:X; [|discriminate]. intros H. injection H as <-. apply lm_float; assumption.
    - intros H. inversion H; subst; try contradiction.
      match goal with X : to_float w = _ |- _ => rewrite X end. reflexivity. }
  assert (ND : ~ decimal_column no) by (intros X; apply decimal_iff in X; congruence).
  split.
  - intros H. injection H as <-. apply lm_text; assumption.
  - intros H. inversion H; subst; try contradiction; reflexivity.
Qed.

(** What a list of values contributes to column [k]. *)
Fixpoint contribution (no : nat) (vs : list string) (k : nat) : option lpm_cell :=
  match vs with
  | [] => None
  | v :: r => match value no v with
              | Some c => if no =? k then Some c else contribution (S no) r k
              | None => None
              end
  end.
Lemma contribution_low : forall vs no k, k < no -> contribution no vs k = None.
Proof.
  induction vs as [|v r IH]; intros no k H; [reflexivity|]. cbn. destruct (value no v); [|reflexivity].
  destruct (no =? k) eqn:E; [apply Nat.eqb_eq in E; lia|]. apply IH. lia.
Qed.
Lemma lpm_values_col : forall vs no data data' ok,
  lpm_values to_int to_float to_date to_time no vs data = (data', ok) ->
  (forall k, lcol data' k = (lcol data k ++ opt_list (contribution no vs k))%list) /\
  (NoDup (map fst data) -> NoDup (map fst data')) /\
  (ok = true <-> forall i w, nth_error vs i = Some w -> value (no + i) w <> None).
Proof.
  induction vs as [|v r IH]; intros no data data' ok H; cbn in H.
  - injection H as <- <-. split; [intros k; cbn; rewrite app_nil_r; reflexivity|]. split; [auto|].
    split; [intros _ i w X; destruct i; discriminate|reflexivity].
  - destruct (value no v) as [c|] eqn:V.
    + destruct (IH _ _ _ _ H) as (C & N & O). split; [|split].
      * intros k. rewrite C. rewrite (col_push Nat.eqb nat_eqb_spec). cbn. rewrite V.
        destruct (no =? k) eqn:E.
        -- apply Nat.eqb_eq in E. subst k. rewrite contribution_low by lia. cbn. rewrite app_nil_r. reflexivity.
        -- reflexivity.
      * intros X. apply N. apply (push_nodup Nat.eqb nat_eqb_spec). exact X.
      * rewrite O. split.
        -- intros X [|i] w E; cbn in E.
           ++ injection E as <-. rewrite Nat.add_0_r. congruence.
           ++ replace (no + S i) with (S no + i) by lia. exact (X i w E).
        -- intros X i w E. replace (S no + i) with (no + S i) by lia. exact (X (S i) w E).
    + injection H as <- <-. split; [|split; [auto|]].
      * intros k. cbn. rewrite V. cbn. rewrite app_nil_r. reflexivity.
      * split; [discriminate|]. intros X. specialize (X 0 v eq_refl). rewrite Nat.add_0_r in X. contradiction.
Qed.
Lemma contribution_some : forall vs no k c,
  contribution no vs k = Some c <->
  no <= k < no + length vs /\ (exists w, nth_error vs (k - no) = Some w /\ value k w = Some c) /\
  (forall i w, i <= k - no -> nth_error vs i = Some w -> value (no + i) w <> None).
Proof.
  induction vs as [|v r IH]; intros no k c.
  - cbn. split; [discriminate|]. intros ((? & ?) & _). lia.
  - cbn [contribution]. destruct (value no v) as [c0|] eqn:V.
    + destruct (no =? k) eqn:E.
      * apply Nat.eqb_eq in E. subst k. rewrite Nat.sub_diag. split.
        -- intros H. injection H as <-. split; [cbn; lia|]. split; [exists v; auto|].
           intros i w L X. assert (i = 0) by lia. subst i. injection X as <-. rewrite Nat.add_0_r. congruence.
        -- intros (_ & (w & X & Y) & _). injection X as <-. congruence.
      * apply Nat.eqb_neq in E. rewrite IH. cbn [length]. split.
        -- intros ((H1 & H2) & (w & X & Y) & Z). split; [lia|]. replace (k - no) with (S (k - S no)) by lia.
           split; [exists w; auto|]. intros [|i] w' L X'.
           ++ injection X' as <-. rewrite Nat.add_0_r. congruence.
           ++ replace (no + S i) with (S no + i) by lia. apply Z; [lia|exact X'].
        -- intros ((H1 & H2) & (w & X & Y) & Z). split; [lia|].
           replace (k - no) with (S (k - S no)) in X, Z by lia.
           split; [exists w; auto|]. intros i w' L X'. replace (S no + i) with (no + S i) by lia.
           apply (Z (S i) w'); [lia|exact X'].
    + split; [discriminate|]. intros (_ & _ & Z). specialize (Z 0 v (Nat.le_0_l _) eq_refl).
      rewrite Nat.add_0_r in Z. contradiction.
Qed.
Lemma nth_removelast : forall A (l : list A) i, i < length l - 1 -> nth_error (removelast l) i = nth_error l i.
Proof.
  intros A l. induction l as [|a l IH]; intros i H; [reflexivity|].
  destruct l as [|b l]; [cbn in H; lia|]. change (removelast (a :: b :: l)) with (a :: removelast (b :: l)).
  destruct i as [|i]; [reflexivity|]. cbn [nth_error]. apply IH. cbn in H |- *. lia.
Qed.
Lemma removelast_length : forall A (l : list A), length (removelast l) = length l - 1.
Proof.
  intros A l. induction l as [|a l IH]; [reflexivity|]. destruct l as [|b l]; [reflexivity|].
  change (removelast (a :: b :: l)) with (a :: removelast (b :: l)). cbn [length]. rewrite IH. cbn. lia.
Qed.
(** What one line contributes to column [k]. *)
Definition line_value (line : string) (k : nat) : option lpm_cell :=
  let ws := lpm_fields line in
  if (length ws =? 520) || (length ws =? 524) then contribution 2 (removelast ws) k else None.
Lemma telegram_iff : forall line ws, telegram line ws <->
  lpm_fields line = ws /\ ((length ws =? 520) || (length ws =? 524))%bool = true.
Proof.
  intros line ws. unfold telegram. rewrite lpm_fields_iff, orb_true_iff, !Nat.eqb_eq. reflexivity.
Qed.
Lemma removelast_bound : forall (ws : list string) k w,
  nth_error (removelast ws) k = Some w <-> k + 2 <= length ws /\ nth_error ws k = Some w.
Proof.
  intros ws k w. split.
  - intros H. pose proof (nth_error_Some_lt _ _ _ H) as L. rewrite removelast_length in L.
    rewrite nth_removelast in H by lia. split; [|exact H]. lia.
  - intros [L H]. rewrite nth_removelast by lia. exact H.
Qed.
Lemma line_value_iff : forall line k c, 2 <= k -> line_value line k = Some c <->
  readable_to line k /\ value_at line k c.
Proof.
  intros line k c K2. unfold line_value.
  destruct ((length (lpm_fields line) =? 520) || (length (lpm_fields line) =? 524))%bool eqn:L.
  - assert (TG : telegram line (lpm_fields line)) by (apply telegram_iff; auto).
    rewrite contribution_some. split.
    + intros ((H1 & H2) & (w & X & Y) & Z). rewrite removelast_length in H2.
      apply removelast_bound in X. destruct X as [_ X]. apply lpm_value_iff in Y.
      split.
      * intros j J. destruct (nth_error_lt_Some (removelast (lpm_fields line)) (j - 2)) as [w' E].
        { rewrite removelast_length. lia. }
        pose proof (Z (j - 2) w' ltac:(lia) E) as V. replace (2 + (j - 2)) with j in V by lia.
        destruct (value j w') as [v|] eqn:VV; [|contradiction]. apply removelast_bound in E. destruct E as [_ E].
        exists v, (lpm_fields line), w'. split; [exact TG|]. split; [lia|]. split; [exact E|].
        apply lpm_value_iff. exact VV.
      * exists (lpm_fields line), w. split; [exact TG|]. split; [lia|]. auto.
    + intros (R & ws & w & TG' & B & X & Y). apply telegram_iff in TG'. destruct TG' as [<- _].
      apply lpm_value_iff in Y. rewrite removelast_length. split; [lia|]. split.
      * exists w. split; [|exact Y]. apply removelast_bound. split; [lia|exact X].
      * intros i w' Li E. apply removelast_bound in E. destruct E as [B' E].
        destruct (R (2 + i) ltac:(lia)) as (v & ws' & w2 & TG2 & _ & X2 & Y2).
        apply telegram_iff in TG2. destruct TG2 as [<- _]. replace (2 + i - 2) with i in X2 by lia.
        assert (w2 = w') by congruence. subst w2. apply lpm_value_iff in Y2. congruence.
  - split; [discriminate|]. intros (_ & ws & w & TG & _). apply telegram_iff in TG. destruct TG as [<- X]. congruence.
Qed.
Lemma value_at_unique : forall line k c c', value_at line k c -> value_at line k c' -> c = c'.
Proof.
  intros line k c c' (ws & w & A & _ & B & C) (ws' & w' & A' & _ & B' & C').
  apply telegram_iff in A, A'. destruct A as [<- _], A' as [<- _]. rewrite B in B'. injection B' as <-.
  apply lpm_value_iff in C, C'. congruence.
Qed.
Lemma read_telegram_spec : forall line data data' ok,
  read_telegram to_int to_float to_date to_time line data = (data', ok) ->
  (forall k, lcol data' k = (lcol data k ++ opt_list (line_value line k))%list) /\
  (NoDup (map fst data) -> NoDup (map fst data')) /\
  (ok = true <-> readable line).
Proof.
  intros line data data' ok H. unfold read_telegram in H. unfold line_value.
  destruct ((length (lpm_fields line) =? 520) || (length (lpm_fields line) =? 524))%bool eqn:L.
  - destruct (lpm_values_col _ _ _ _ _ H) as (C & N & O). split; [exact C|]. split; [exact N|].
    assert (TG : telegram line (lpm_fields line)) by (apply telegram_iff; auto).
    rewrite O. split.
    + intros X. exists (lpm_fields line). split; [exact TG|]. intros k K.
      destruct (nth_error_lt_Some (removelast (lpm_fields line)) (k - 2)) as [w E].
      { rewrite removelast_length. lia. }
      pose proof (X _ _ E) as V. replace (2 + (k - 2)) with k in V by lia.
      destruct (value k w) as [v|] eqn:VV; [|contradiction]. exists v, (lpm_fields line), w.
      apply removelast_bound in E. destruct E as [_ E]. split; [exact TG|]. split; [lia|]. split; [exact E|].
      apply lpm_value_iff. exact VV.
    + intros (ws & TG' & R) i w E. apply telegram_iff in TG'. destruct TG' as [<- _].
      apply removelast_bound in E. destruct E as [B E].
      destruct (R (2 + i) ltac:(lia)) as (v & ws' & w' & TG' & _ & E' & V).
      apply telegram_iff in TG'. destruct TG' as [<- _]. replace (2 + i - 2) with i in E' by lia.
      assert (w' = w) by congruence. subst w'. apply lpm_value_iff in V. congruence.
  - injection H as <- <-. split; [intros k; cbn; rewrite app_nil_r; reflexivity|]. split; [auto|].
    split; [discriminate|]. intros (ws & TG & _). apply telegram_iff in TG. destruct TG as [<- X]. congruence.
Qed.
Lemma value_5 : forall w c, value 5 w = Some c -> exists d, c = LDate d.
Proof. intros w c H. unfold lpm_value in H. cbn in H. destruct (to_date w); [|discriminate]. injection H as <-. eauto. Qed.
Lemma value_6 : forall w c, value 6 w = Some c -> exists d, c = LTime d.
Proof. intros w c H. unfold lpm_value in H. cbn in H. destruct (to_time w); [|discriminate]. injection H as <-. eauto. Qed.
Lemma readable_value : forall line k, readable line -> 2 <= k <= 520 ->
  exists c, line_value line k = Some c /\ value_at line k c.
Proof.
  intros line k (ws & TG & R) K. assert (L : 520 <= length ws) by (destruct TG as [_ [X|X]]; lia).
  destruct (R k ltac:(lia)) as [c V]. exists c. split; [|exact V]. apply line_value_iff; [lia|].
  split; [|exact V]. intros j J. apply R. lia.
Qed.
(** The time stamp a line contributes in a raw file. *)
Definition line_stamp (line : string) : option (D * T) :=
  if snd (read_telegram to_int to_float to_date to_time line []) then
    match line_value line 5, line_value line 6 with
    | Some (LDate d), Some (LTime t) => Some (d, t)
    | _, _ => None
    end
  else None.
Definition lpm_ok (line : string) : bool := snd (read_telegram to_int to_float to_date to_time line []).
Lemma lpm_ok_iff : forall line, lpm_ok line = true <-> readable line.
Proof.
  intros line. unfold lpm_ok. destruct (read_telegram _ _ _ _ line []) as [d ok] eqn:E.
  destruct (read_telegram_spec _ _ _ _ E) as (_ & _ & O). exact O.
Qed.
Lemma ok_eq : forall line data data' ok,
  read_telegram to_int to_float to_date to_time line data = (data', ok) -> ok = lpm_ok line.
Proof.
  intros line data data' ok H. destruct (read_telegram_spec _ _ _ _ H) as (_ & _ & O).
  pose proof (lpm_ok_iff line) as P. destruct ok, (lpm_ok line); try reflexivity.
  - symmetry. apply P, O. reflexivity.
  - apply O, P. reflexivity.
Qed.
Lemma line_stamp_iff : forall line s, line_stamp line = Some s <->
  readable line /\ value_at line 5 (LDate (fst s)) /\ value_at line 6 (LTime (snd s)).
Proof.
  intros line [d t]. unfold line_stamp. fold (lpm_ok line). cbn [fst snd]. split.
  - destruct (lpm_ok line) eqn:O; [|discriminate]. apply lpm_ok_iff in O.
    destruct (readable_value line 5 O ltac:(lia)) as (c5 & E5 & V5).
    destruct (readable_value line 6 O ltac:(lia)) as (c6 & E6 & V6). rewrite E5, E6.
    destruct c5; try discriminate. destruct c6; try discriminate. intros H. injection H as -> ->. auto.
  - intros (R & V5 & V6). rewrite (proj2 (lpm_ok_iff line) R).
    destruct (readable_value line 5 R ltac:(lia)) as (c5 & E5 & V5').
    destruct (readable_value line 6 R ltac:(lia)) as (c6 & E6 & V6').
    rewrite E5, E6, (value_at_unique _ _ _ _ V5' V5), (value_at_unique _ _ _ _ V6' V6). reflexivity.
Qed.
Lemma last_col : forall k (data : @lpm_table D T) c x, lcol data k = (c ++ [x])%list -> last_cell k data = Some x.
Proof.
  intros k data c x H. unfold last_cell. unfold col in H. destruct (column_of Nat.eqb k data) as [l|].
  - subst l. rewrite app_length. cbn. replace (length c + 1 - 1) with (length c) by lia.
    rewrite nth_error_app2 by lia. rewrite Nat.sub_diag. reflexivity.
  - destruct c; discriminate.
Qed.
Lemma raw_line_spec : forall time data line time' data',
  raw_line to_int to_float to_date to_time (time, data) line = (time', data') ->
  (forall k, lcol data' k = (lcol data k ++ opt_list (line_value line k))%list) /\
  (NoDup (map fst data) -> NoDup (map fst data')) /\
  time' = (time ++ opt_list (line_stamp line))%list.
Proof.
  intros time data line time' data' H. unfold raw_line in H.
  destruct (read_telegram to_int to_float to_date to_time line data) as [d ok] eqn:E.
  pose proof (ok_eq _ _ _ _ E) as OK. destruct (read_telegram_spec _ _ _ _ E) as (C & N & O).
  unfold line_stamp. fold (lpm_ok line). rewrite <- OK. destruct ok.
  - assert (R : readable line) by (apply O; reflexivity).
    destruct (readable_value line 5 R ltac:(lia)) as (c5 & E5 & V5).
    destruct (readable_value line 6 R ltac:(lia)) as (c6 & E6 & V6).
    pose proof (C 5) as C5. pose proof (C 6) as C6. rewrite E5 in C5. rewrite E6 in C6.
    apply last_col in C5, C6. rewrite C5, C6 in H. rewrite E5, E6.
    destruct V5 as (ws & w & _ & _ & _ & V5). apply lpm_value_iff, value_5 in V5. destruct V5 as [dd ->].
    destruct V6 as (ws' & w' & _ & _ & _ & V6). apply lpm_value_iff, value_6 in V6. destruct V6 as [tt ->].
    injection H as <- <-. auto.
  - injection H as <- <-. split; [exact C|]. split; [exact N|]. cbn. rewrite app_nil_r. reflexivity.
Qed.
Lemma read_raw_spec : forall lines time data time' data',
  fold_left (raw_line to_int to_float to_date to_time) lines (time, data) = (time', data') ->
  (forall k, lcol data' k = (lcol data k ++ flat_map (fun l => opt_list (line_value l k)) lines)%list) /\
  (NoDup (map fst data) -> NoDup (map fst data')) /\
  time' = (time ++ flat_map (fun l => opt_list (line_stamp l)) lines)%list.
Proof.
  induction lines as [|line lines IH]; intros time data time' data' H; cbn [fold_left] in H.
  - injection H as <- <-. cbn. split; [intros k; rewrite app_nil_r; reflexivity|]. split; [auto|].
    rewrite app_nil_r. reflexivity.
  - destruct (raw_line to_int to_float to_date to_time (time, data) line) as [t1 d1] eqn:E.
    apply raw_line_spec in E. destruct E as (C & N & ->). apply IH in H. destruct H as (C' & N' & ->).
    split; [|split].
    + intros k. rewrite C', C, <- app_assoc. reflexivity.
    + auto.
    + rewrite <- app_assoc. reflexivity.
Qed.
Lemma raw_columns : forall lines time data, read_raw to_int to_float to_date to_time lines = (time, data) ->
  (forall k c, 2 <= k -> has_column data k c ->
     collects (fun line v => readable_to line k /\ value_at line k v) lines c) /\
  collects (fun line s => readable line /\ value_at line 5 (LDate (fst s)) /\
                          value_at line 6 (LTime (snd s))) lines time /\
  NoDup (map fst data).
Proof.
  intros lines time data H. unfold read_raw in H. apply read_raw_spec in H. destruct H as (C & N & ->).
  assert (ND : NoDup (map fst data)) by (apply N; constructor). split; [|split; [|exact ND]].
  - intros k c K HC. apply (has_column_iff Nat.eqb nat_eqb_spec _ _ _ ND) in HC. rewrite <- HC, C.
    change (lcol [] k) with (@nil (@lpm_cell D T)). cbn [app]. apply collects_flat_map.
    intros line v _. apply line_value_iff. exact K.
  - cbn [app]. apply collects_flat_map. intros line s _. apply line_stamp_iff.
Qed.

(** pyAtmosLogger files: time stamp, semicolon, telegram. *)
Definition py_stamp (line : string) : option (D * T) :=
  match partition ";" line with
  | Some (ts, tg) => if lpm_ok tg then to_stamp ts else None
  | None => None
  end.
Definition py_value (line : string) (k : nat) : option lpm_cell :=
  match partition ";" line with
  | Some (ts, tg) => line_value tg k
  | None => None
  end.
Lemma pyatmos_spec : forall lines time data r,
  pyatmos_lines to_int to_float to_date to_time to_stamp (time, data) lines = r ->
  (r = Raise ValueError /\ exists line, In line lines /\ without ";" line) \/
  ((forall line, In line lines -> ~ without ";" line) /\
   exists time' data', r = Ok (time', data') /\
   (forall k, lcol data' k = (lcol data k ++ flat_map (fun l => opt_list (py_value l k)) lines)%list) /\
   (NoDup (map fst data) -> NoDup (map fst data')) /\
   time' = (time ++ flat_map (fun l => opt_list (py_stamp l)) lines)%list).
Proof.
  induction lines as [|line lines IH]; intros time data r H; cbn [pyatmos_lines] in H.
  - right. split; [intros ? []|]. exists time, data. split; [symmetry; exact H|]. cbn. rewrite app_nil_r.
    split; [intros k; rewrite app_nil_r; reflexivity|auto].
  - destruct (partition ";" line) as [[ts tg]|] eqn:P.
    + destruct (read_telegram to_int to_float to_date to_time tg data) as [d ok] eqn:E.
      pose proof (ok_eq _ _ _ _ E) as OK. destruct (read_telegram_spec _ _ _ _ E) as (C & N & _).
      apply IH in H. destruct H as [[-> (l & I & W)]|(NW & time' & data' & -> & C' & N' & ->)].
      * left. split; [reflexivity|]. exists l. split; [right; exact I|exact W].
      * right. split.
        { intros l [<-|I]; [|apply NW; exact I]. intros W. apply partition_none in W. congruence. }
        eexists _, data'. split; [reflexivity|]. split; [|split; [auto|]].
        -- intros k. rewrite C', C. cbn [flat_map]. unfold py_value at 2. rewrite P, <- app_assoc. reflexivity.
        -- cbn [flat_map]. unfold py_stamp at 2. rewrite P, <- OK. destruct ok.
           ++ destruct (to_stamp ts); cbn; [rewrite <- app_assoc|]; reflexivity.
           ++ reflexivity.
    + left. split; [congruence|]. exists line. split; [left; reflexivity|]. apply partition_none. exact P.
Qed.
End LpmProofs.

(** ** More on collections *)
Lemma collects_length_le : forall A B C (R : A -> B -> Prop) (S : A -> C -> Prop) l bs cs,
  (forall a c, In a l -> S a c -> exists b, R a b) ->
  collects R l bs -> collects S l cs ->
  length cs <= length bs /\
  (length cs = length bs <-> forall a b, In a l -> R a b -> exists c, S a c).
Proof.
  intros A B C R S l bs cs H X. revert cs H. induction X as [|a b l bs r X IH|a l bs n X IH]; intros cs H Y;
    inversion Y as [|? c ? cs0 r' Y'|? ? ? n' Y']; subst.
  - cbn. split; [lia|]. split; [intros _ a b []|reflexivity].
  - destruct (IH cs0) as [L E]; [intros; eapply H; [right|]; eassumption|assumption|].
    cbn. split; [lia|]. rewrite Nat.succ_inj_wd. rewrite E. split.
    + intros Q a' b' [<-|I] Rb; [eauto|]. eapply Q; eassumption.
    + intros Q a' b' I Rb. eapply Q; [right|]; eassumption.
  - destruct (IH cs) as [L E]; [intros; eapply H; [right|]; eassumption|assumption|].
    cbn. split; [lia|]. split; [lia|]. intros Q.
    destruct (Q a b (or_introl eq_refl) r) as [c Hc]. destruct (n' c Hc).
  - exfalso. destruct (H a c (or_introl eq_refl) r') as [b Hb]. exact (n b Hb).
  - destruct (IH cs) as [L E]; [intros; eapply H; [right|]; eassumption|assumption|].
    split; [exact L|]. rewrite E. split.
    + intros Q a' b' [<-|I] Rb; [destruct (n b' Rb)|]. eapply Q; eassumption.
    + intros Q a' b' I Rb. eapply Q; [right|]; eassumption.
Qed.
(** Side by side, the collections keep what belongs together together. *)
Lemma collects_combine : forall A B C (R : A -> B -> Prop) (S : A -> C -> Prop) l bs cs,
  (forall a, In a l -> (exists b, R a b) <-> (exists c, S a c)) ->
  collects R l bs -> collects S l cs ->
  collects (fun a p => R a (fst p) /\ S a (snd p)) l (combine bs cs).
Proof.
  intros A B C R S l bs cs H X. revert cs H. induction X as [|a b l bs r X IH|a l bs n X IH]; intros cs H Y;
    inversion Y as [|? c ? ? r' Y'|? ? ? n' Y']; subst.
  - constructor.
  - cbn. apply collects_take; [auto|]. apply IH; [intros; apply H; right; assumption|assumption].
  - exfalso. destruct (proj1 (H a (or_introl eq_refl)) (ex_intro _ b r)) as [c Hc]. exact (n' c Hc).
  - exfalso. destruct (proj2 (H a (or_introl eq_refl)) (ex_intro _ c r')) as [b Hb]. exact (n b Hb).
  - apply collects_skip.
    + intros p [P _]. exact (n _ P).
    + apply IH; [intros; apply H; right; assumption|assumption].
Qed.

(** ** Parsivel text files *)
Lemma get_put : forall K A (eqb : K -> K -> bool), (forall a b, eqb a b = true <-> a = b) ->
  forall k (v : A) d k', get eqb k' (put eqb k v d) = if eqb k' k then Some v else get eqb k' d.
Proof.
  intros K A eqb S k v d k'. induction d as [|[k2 w] d IH]; cbn.
  - reflexivity.
  - destruct (eqb k k2) eqn:E; cbn.
    + apply S in E. subst k2. destruct (eqb k' k); reflexivity.
    + rewrite IH. destruct (eqb k' k2) eqn:F; [|reflexivity].
      destruct (eqb k' k) eqn:G; [|reflexivity]. apply S in F, G. subst.
      rewrite (proj2 (S k2 k2) eq_refl) in E. discriminate.
Qed.
Lemma put_keys : forall K A (eqb : K -> K -> bool), (forall a b, eqb a b = true <-> a = b) ->
  forall k (v : A) d k', In k' (map fst (put eqb k v d)) <-> k' = k \/ In k' (map fst d).
Proof.
  intros K A eqb S k v d k'. induction d as [|[k2 c] d IH]; cbn.
  - split; [intros [H|[]]; auto|intros [H|[]]; auto].
  - destruct (eqb k k2) eqn:E; cbn.
    + apply S in E. subst. split; [intros [H|H]; auto|intros [H|[H|H]]; auto].
    + rewrite IH. split; [intros [H|[H|H]]; auto|intros [H|[H|H]]; auto].
Qed.
Lemma put_nodup : forall K A (eqb : K -> K -> bool), (forall a b, eqb a b = true <-> a = b) ->
  forall k (v : A) d, NoDup (map fst d) -> NoDup (map fst (put eqb k v d)).
Proof.
  intros K A eqb S k v d. induction d as [|[k2 c] d IH]; cbn; intros H.
  - constructor; [intros []|constructor].
  - inversion H; subst. destruct (eqb k k2) eqn:E; cbn.
    + constructor; assumption.
    + constructor; [|apply IH; assumption]. intros X. apply (put_keys _ _ _ S) in X. destruct X as [X|X].
      * subst. rewrite (proj2 (S k k) eq_refl) in E. discriminate.
      * contradiction.
Qed.
Lemma get_none : forall K A (eqb : K -> K -> bool), (forall a b, eqb a b = true <-> a = b) ->
  forall k (d : list (K * A)), get eqb k d = None <-> ~ In k (map fst d).
Proof.
  intros K A eqb S k d. induction d as [|[k2 c2] d IH]; cbn; [split; auto|].
  destruct (eqb k k2) eqn:E.
  - apply S in E. subst. split; [discriminate|]. intros H. exfalso. apply H. left. reflexivity.
  - rewrite IH. split; [intros H [X|X]; [|auto]|auto].
    subst. rewrite (proj2 (S k k) eq_refl) in E. discriminate.
Qed.
Lemma push_all : forall K A (eqb : K -> K -> bool), (forall a b, eqb a b = true <-> a = b) ->
  forall (row : list (K * A)) d k, NoDup (map fst row) ->
  col eqb (fold_left (fun d kv => push eqb (fst kv) (snd kv) d) row d) k =
  (col eqb d k ++ opt_list (get eqb k row))%list.
Proof.
  intros K A eqb S row. induction row as [|[k2 v] row IH]; intros d k N; cbn [fold_left get fst snd].
  - cbn. rewrite app_nil_r. reflexivity.
  - inversion N; subst. rewrite IH by assumption. rewrite (col_push eqb S).
    destruct (eqb k k2) eqn:E.
    + apply S in E. subst k2. rewrite (proj2 (S k k) eq_refl).
      rewrite (proj2 (get_none _ _ _ S k row)) by assumption. cbn. rewrite app_nil_r. reflexivity.
    + destruct (eqb k2 k) eqn:F; [|reflexivity].
      apply S in F. subst. rewrite (proj2 (S k k) eq_refl) in E. discriminate.
Qed.
Lemma push_all_nodup : forall K A (eqb : K -> K -> bool), (forall a b, eqb a b = true <-> a = b) ->
  forall (row : list (K * A)) d, NoDup (map fst d) ->
  NoDup (map fst (fold_left (fun d kv => push eqb (fst kv) (snd kv) d) row d)).
Proof.
  intros K A eqb S row. induction row as [|[k2 v] row IH]; intros d N; cbn [fold_left]; [exact N|].
  apply IH. apply (push_nodup eqb S). exact N.
Qed.
Lemma all_read_iff : forall A B (f : A -> option B) l l',
  all_read f l = Some l' <-> Forall2 (fun a b => f a = Some b) l l'.
Proof.
  intros A B f l. induction l as [|a l IH]; intros l'; cbn.
  - split; [intros H; injection H as <-; constructor|]. intros H. inversion H. reflexivity.
  - split.
    + destruct (f a) as [b|] eqn:E; [|discriminate]. destruct (all_read f l) as [bs|]; [|discriminate].
      intros H. injection H as <-. constructor; [exact E|]. apply IH. reflexivity.
    + intros H. inversion H; subst. rewrite H2. apply IH in H4. rewrite H4. reflexivity.
Qed.
Lemma chunks_concat : forall A n m (l : list A), length l = n * m -> List.concat (chunks n m l) = l.
Proof.
  intros A n m. induction n as [|n IH]; intros l H; cbn.
  - destruct l; [reflexivity|discriminate].
  - rewrite IH; [apply firstn_skipn|]. rewrite skipn_length. lia.
Qed.
Lemma chunks_length : forall A n m (l : list A), length (chunks n m l) = n.
Proof. intros A n m. induction n as [|n IH]; intros l; cbn; [reflexivity|]. rewrite IH. reflexivity. Qed.
Lemma chunks_rows : forall A n m (l : list A), length l = n * m -> Forall (fun r => length r = m) (chunks n m l).
Proof.
  intros A n m. induction n as [|n IH]; intros l H; cbn; constructor.
  - rewrite firstn_length. lia.
  - apply IH. rewrite skipn_length. lia.
Qed.
Lemma concat_chunks : forall A m (rows : list (list A)),
  Forall (fun r => length r = m) rows -> chunks (length rows) m (List.concat rows) = rows.
Proof.
  intros A m rows F. induction F as [|r rows H F IH]; cbn; [reflexivity|].
  subst m. rewrite firstn_app, Nat.sub_diag, firstn_all, firstn_O, app_nil_r.
  rewrite skipn_app, Nat.sub_diag, skipn_all, skipn_O. cbn. rewrite IH. reflexivity.
Qed.
Lemma concat_rows_length : forall A m (rows : list (list A)),
  Forall (fun r => length r = m) rows -> length (List.concat rows) = length rows * m.
Proof.
  intros A m rows F. induction F as [|r rows H F IH]; cbn; [reflexivity|]. rewrite app_length, IH. lia.
Qed.
Lemma reshape_iff : forall A n m (l : list A) rows,
  reshape n m l = Some rows <-> length rows = n /\ Forall (fun r => length r = m) rows /\ List.concat rows = l.
Proof.
  intros A n m l rows. unfold reshape. destruct (length l =? n * m) eqn:E.
  - apply Nat.eqb_eq in E. split.
    + intros H. injection H as <-. split; [apply chunks_length|]. split; [apply chunks_rows; exact E|].
      apply chunks_concat. exact E.
    + intros (H1 & H2 & H3). subst n l. rewrite concat_chunks by exact H2. reflexivity.
  - apply Nat.eqb_neq in E. split; [discriminate|]. intros (H1 & H2 & H3). subst n l. exfalso. apply E.
    apply concat_rows_length. exact H2.
Qed.
Lemma pv_decimal_iff : forall n, mem_nat n pv_float_keys = true <-> pv_decimal n.
Proof. intros n. rewrite mem_nat_iff. unfold pv_decimal, pv_float_keys. reflexivity. Qed.
Lemma pv_whole_iff : forall n, mem_nat n pv_int_keys = true <-> pv_whole n.
Proof. intros n. rewrite mem_nat_iff. unfold pv_whole, pv_int_keys. cbn [In]. lia. Qed.
Lemma forall2_len : forall A B (R : A -> B -> Prop) l m, Forall2 R l m -> length l = length m.
Proof. intros A B R l m F. induction F; cbn; congruence. Qed.

Section PvProofs.
Context {D T : Type} (to_int : string -> option Z) (to_float : string -> option Q).
Local Notation item := (@item D T).
Inductive ival := VDate (d : D) | VTime (t : T) | VStamp (s : D * T) | VNum (n : nat) (c : pcell) | VSkip.
Definition num_val (dec : ascii) (n : nat) (fs : list string) : option pcell :=
  if mem_nat n pv_float_keys then
    match fs with [v] => option_map PFloat (to_float (replace_char dec "." v)) | _ => None end
  else if mem_nat n pv_int_keys then
    match fs with [v] => option_map PInt (to_int v) | _ => None end
  else if (n =? 90) || (n =? 91) then option_map PVec (all_read to_float fs)
  else if n =? 93 then
    match all_read to_float fs with Some l => option_map PSpec (reshape 32 32 l) | None => None end
  else match fs with [v] => Some (PText v) | _ => None end.
Definition item_val (dec : ascii) (it : item) (fs : list string) : option ival :=
  match it with
  | ItNum n => option_map (VNum n) (num_val dec n fs)
  | ItDate p => match fs with [w] => option_map VDate (p w) | _ => None end
  | ItTime p => match fs with [w] => option_map VTime (p w) | _ => None end
  | ItStamp p => match fs with [w] => option_map VStamp (p w) | _ => None end
  | ItSkip => match fs with [w] => Some VSkip | _ => None end
  end.
Definition apply_val (r : pv_row) (v : ival) : pv_row :=
  match v with
  | VDate d => {| r_time := r_time r; r_date := Some d; r_stamp := r_stamp r; r_data := r_data r |}
  | VTime d => {| r_time := Some d; r_date := r_date r; r_stamp := r_stamp r; r_data := r_data r |}
  | VStamp d => {| r_time := r_time r; r_date := r_date r; r_stamp := Some d; r_data := r_data r |}
  | VNum n c => set_num n c r
  | VSkip => r
  end.
Lemma num_val_iff : forall dec n fs c, num_val dec n fs = Some c <-> num_reading to_int to_float dec n fs c.
Proof.
  intros dec n fs c. unfold num_val.
  assert (ID : pv_decimal n -> ~ pv_whole n /\ n <> 90 /\ n <> 91 /\ n <> 93)
    by (unfold pv_decimal, pv_whole; cbn [In]; lia).
  assert (IW : pv_whole n -> n <> 90 /\ n <> 91 /\ n <> 93) by (unfold pv_whole; cbn [In]; lia).
  destruct (mem_nat n pv_float_keys) eqn:ED.
  { apply pv_decimal_iff in ED. destruct (ID ED) as (NW & N0 & N1 & N3). split.
    - destruct fs as [|w [|]]; try discriminate. destruct (to_float (replace_char dec "." w)) as [q|] eqn:E; [|discriminate].
      intros H. injection H as <-. apply nr_float; assumption.
    - intros H. destruct H; try contradiction; try lia.
      match goal with X : to_float _ = _ |- _ => rewrite X end. reflexivity. }
  assert (ND : ~ pv_decimal n) by (intros X; apply pv_decimal_iff in X; congruence).
  destruct (mem_nat n pv_int_keys) eqn:EW.
  { apply pv_whole_iff in EW. destruct (IW EW) as (N0 & N1 & N3). split.
    - destruct fs as [|w [|]]; try discriminate. destruct (to_int w) as [q|] eqn:E; [|discriminate].
      intros H. injection H as <-. apply nr_int; assumption.
    - intros H. destruct H; try contradiction; try lia.
      match goal with X : to_int _ = _ |- _ => rewrite X end. reflexivity. }
  assert (NW : ~ pv_whole n) by (intros X; apply pv_whole_iff in X; congruence).
  destruct ((n =? 90) || (n =? 91))%bool eqn:EV.
  { apply orb_true_iff in EV. rewrite !Nat.eqb_eq in EV. split.
    - destruct (all_read to_float fs) as [l|] eqn:E; [|discriminate]. apply all_read_iff in E.
      intros H. injection H as <-. apply nr_vec; assumption.
    - intros H. destruct H as [| |fs l _ F| |]; try contradiction; try lia. apply all_read_iff in F. rewrite F. reflexivity. }
  assert (NV : n <> 90 /\ n <> 91).
  { apply orb_false_iff in EV. rewrite !Nat.eqb_neq in EV. exact EV. }
  destruct (n =? 93) eqn:ES.
  { apply Nat.eqb_eq in ES. split.
    - destruct (all_read to_float fs) as [l|] eqn:E; [|discriminate]. apply all_read_iff in E.
      destruct (reshape 32 32 l) as [m|] eqn:R; [|discriminate]. apply reshape_iff in R. destruct R as (R1 & R2 & R3).
      intros H. injection H as <-. apply (nr_spec to_int to_float dec n fs l m); assumption.
    - intros H. destruct H as [| | |fs l m _ F R1 R2 R3|]; try contradiction; try lia.
      apply all_read_iff in F. rewrite F. assert (R : reshape 32 32 l = Some m) by (apply reshape_iff; auto).
      rewrite R. reflexivity. }
  apply Nat.eqb_neq in ES. split.
  - destruct fs as [|w [|]]; try discriminate. intros H. injection H as <-. apply nr_text; tauto.
  - intros H. destruct H; try contradiction; try lia. reflexivity.
Qed.
Lemma width_spans : forall (it : item) n, spans it n <-> n = item_width it.
Proof.
  intros it n. unfold spans.
  destruct it as [p|p|p|k|]; try (cbn; split; [intros [[[H|H] _]|[[H _]|(_ & _ & _ & H)]]; [discriminate|discriminate|discriminate|exact H]|
    intros ->; right; right; repeat split; discriminate]).
  destruct (Nat.eq_dec k 90) as [->|N0].
  { cbn. split; [intros [[_ H]|[[H _]|(H & _)]]; [exact H|discriminate|congruence]|intros ->; left; auto]. }
  destruct (Nat.eq_dec k 91) as [->|N1].
  { cbn. split; [intros [[_ H]|[[H _]|(_ & H & _)]]; [exact H|discriminate|congruence]|intros ->; left; auto]. }
  destruct (Nat.eq_dec k 93) as [->|N3].
  { cbn. split; [intros [[[H|H] _]|[[_ H]|(_ & _ & H & _)]]; [discriminate|discriminate|exact H|congruence]|intros ->; right; left; auto]. }
  assert (W : item_width (@ItNum D T k) = 1).
  { unfold item_width. do 94 (destruct k as [|k]; [try reflexivity; exfalso; congruence|]). reflexivity. }
  rewrite W. split.
  - intros [[[H|H] _]|[[H _]|(_ & _ & _ & H)]]; try (injection H as ->; contradiction). exact H.
  - intros ->. right. right. repeat split; congruence.
Qed.
Lemma item_width_num : forall k, item_width (@ItNum D T k) =
  if (k =? 90) || (k =? 91) then 32 else if k =? 93 then 1024 else 1.
Proof.
  intros k. symmetry. apply (width_spans (ItNum k)). unfold spans.
  destruct ((k =? 90) || (k =? 91))%bool eqn:E.
  - apply orb_true_iff in E. rewrite !Nat.eqb_eq in E. left. destruct E as [->| ->]; auto.
  - apply orb_false_iff in E. rewrite !Nat.eqb_neq in E. destruct (k =? 93) eqn:F.
    + apply Nat.eqb_eq in F. subst. right. left. auto.
    + apply Nat.eqb_neq in F. right. right. repeat split; intros H; injection H as ->; tauto.
Qed.
Lemma one_field_eq : forall A (vs : list string) (f : string -> option A) (k : A -> list string -> option (@pv_row D T)), 1 <= length vs ->
  one_field vs f k =
  match firstn 1 vs with [v] => match f v with Some a => k a (skipn 1 vs) | None => None end | _ => None end.
Proof. intros A vs f k H. destruct vs as [|v vs]; [cbn in H; lia|]. reflexivity. Qed.
Lemma parse_items_cons : forall dec it ts vs r, item_width it <= length vs ->
  parse_items to_int to_float dec (it :: ts) vs r =
  match item_val dec it (firstn (item_width it) vs) with
  | Some v => parse_items to_int to_float dec ts (skipn (item_width it) vs) (apply_val r v)
  | None => None
  end.
Proof.
  intros dec it ts vs r W. destruct it as [p|p|p|n|]; cbn [parse_items item_val].
  - cbn [item_width] in *. rewrite one_field_eq by exact W. destruct vs as [|v vs]; [cbn in W; lia|]. cbn [firstn skipn].
    destruct (p v); reflexivity.
  - cbn [item_width] in *. rewrite one_field_eq by exact W. destruct vs as [|v vs]; [cbn in W; lia|]. cbn [firstn skipn].
    destruct (p v); reflexivity.
  - cbn [item_width] in *. rewrite one_field_eq by exact W. destruct vs as [|v vs]; [cbn in W; lia|]. cbn [firstn skipn].
    destruct (p v); reflexivity.
  - rewrite item_width_num in *. unfold num_val.
    assert (DD : mem_nat n pv_float_keys = true \/ mem_nat n pv_int_keys = true ->
                 ((n =? 90) || (n =? 91) = false /\ (n =? 93) = false)%bool).
    { rewrite pv_decimal_iff, pv_whole_iff, orb_false_iff, !Nat.eqb_neq. unfold pv_decimal, pv_whole. cbn [In]. lia. }
    destruct (mem_nat n pv_float_keys).
    { destruct (DD (or_introl eq_refl)) as [E1 E2]. rewrite E1, E2 in *. rewrite one_field_eq by exact W.
      destruct vs as [|v vs]; [cbn in W; lia|]. cbn [firstn skipn].
      destruct (to_float (replace_char dec "." v)); reflexivity. }
    destruct (mem_nat n pv_int_keys).
    { destruct (DD (or_intror eq_refl)) as [E1 E2]. rewrite E1, E2 in *. rewrite one_field_eq by exact W.
      destruct vs as [|v vs]; [cbn in W; lia|]. cbn [firstn skipn]. destruct (to_int v); reflexivity. }
    destruct ((n =? 90) || (n =? 91))%bool.
    { destruct (all_read to_float (firstn 32 vs)); reflexivity. }
    destruct (n =? 93).
    { destruct (all_read to_float (firstn 1024 vs)) as [l|]; [|reflexivity]. destruct (reshape 32 32 l); reflexivity. }
    rewrite one_field_eq by exact W. destruct vs as [|v vs]; [cbn in W; lia|]. reflexivity.
  - cbn [item_width] in *. rewrite one_field_eq by exact W. destruct vs as [|v vs]; [cbn in W; lia|]. reflexivity.
Qed.
Fixpoint pieces (telegram : list item) (vs : list string) : list (list string) :=
  match telegram with
  | [] => []
  | it :: ts => firstn (item_width it) vs :: pieces ts (skipn (item_width it) vs)
  end.
Fixpoint total (telegram : list item) : nat :=
  match telegram with [] => 0 | it :: ts => item_width it + total ts end.
Lemma expected_total : forall telegram, expected_len telegram = total telegram.
Proof.
  unfold expected_len. assert (G : forall telegram n, fold_left (fun n (t : item) => n + item_width t) telegram n = n + total telegram).
  { induction telegram as [|it ts IH]; intros n; cbn; [lia|]. rewrite IH. lia. }
  intros telegram. rewrite G. reflexivity.
Qed.
Lemma cut_iff : forall telegram vs fss, cut telegram vs fss <-> length vs = total telegram /\ fss = pieces telegram vs.
Proof.
  induction telegram as [|it ts IH]; intros vs fss; unfold cut.
  - cbn. split.
    + intros [F E]. inversion F; subst. cbn. auto.
    + intros [L ->]. destruct vs; [|discriminate]. split; [constructor|reflexivity].
  - cbn [total pieces]. split.
    + intros [F E]. inversion F as [|? fs ? fss' S F']; subst. apply width_spans in S.
      destruct (proj1 (IH (List.concat fss') fss') (conj F' eq_refl)) as [L P]. cbn [List.concat].
      rewrite app_length, L, S. split; [lia|]. rewrite <- S.
      rewrite firstn_app, Nat.sub_diag, firstn_all, firstn_O, app_nil_r.
      rewrite skipn_app, Nat.sub_diag, skipn_all, skipn_O. cbn. rewrite <- P. reflexivity.
    + intros [L ->]. assert (LS : length (skipn (item_width it) vs) = total ts) by (rewrite skipn_length; lia).
      destruct (proj2 (IH (skipn (item_width it) vs) _) (conj LS eq_refl)) as [F E]. split.
      * constructor; [|exact F]. apply width_spans. rewrite firstn_length. lia.
      * cbn [List.concat]. rewrite E. apply firstn_skipn.
Qed.
Lemma parse_items_all : forall dec telegram vs r, length vs = total telegram ->
  parse_items to_int to_float dec telegram vs r =
  option_map (fun l => fold_left apply_val l r)
    (all_read (fun p => item_val dec (fst p) (snd p)) (combine telegram (pieces telegram vs))).
Proof.
  intros dec telegram. induction telegram as [|it ts IH]; intros vs r L; [reflexivity|].
  cbn [total] in L. rewrite parse_items_cons by lia. cbn [pieces combine all_read fst snd].
  destruct (item_val dec it (firstn (item_width it) vs)) as [v|]; [|reflexivity].
  rewrite IH by (rewrite skipn_length; lia). destruct (all_read _ _) as [l|]; reflexivity.
Qed.
Lemma item_val_readable : forall dec it fs, (exists v, item_val dec it fs = Some v) <-> item_readable to_int to_float dec it fs.
Proof.
  intros dec it fs. split.
  - intros [v H]. destruct it as [p|p|p|n|]; cbn in H.
    + destruct fs as [|w [|]]; try discriminate. destruct (p w) eqn:E; [|discriminate]. eapply ir_date; eassumption.
    + destruct fs as [|w [|]]; try discriminate. destruct (p w) eqn:E; [|discriminate]. eapply ir_time; eassumption.
    + destruct fs as [|w [|]]; try discriminate. destruct (p w) eqn:E; [|discriminate]. eapply ir_stamp; eassumption.
    + destruct (num_val dec n fs) as [c|] eqn:E; [|discriminate]. apply num_val_iff in E. eapply ir_num; eassumption.
    + destruct fs as [|w [|]]; try discriminate. constructor.
  - intros H. destruct H as [n fs c H|p w d H|p w d H|p w d H|w]; cbn.
    + apply num_val_iff in H. rewrite H. eexists. reflexivity.
    + rewrite H. eexists. reflexivity.
    + rewrite H. eexists. reflexivity.
    + rewrite H. eexists. reflexivity.
    + eexists. reflexivity.
Qed.
(** The values of a line. *)
Definition line_vals (sep dec : ascii) (telegram : list item) (line : string) : option (list ival) :=
  let values := split_on sep (rstrip_char sep line) in
  if length values =? total telegram
  then all_read (fun p => item_val dec (fst p) (snd p)) (combine telegram (pieces telegram values))
  else None.
Lemma parse_line_vals : forall sep dec telegram line,
  parse_line to_int to_float sep dec telegram line =
  option_map (fun l => fold_left apply_val l no_row) (line_vals sep dec telegram line).
Proof.
  intros. unfold parse_line, line_vals. rewrite expected_total.
  destruct (length (split_on sep (rstrip_char sep line)) =? total telegram) eqn:E; [|reflexivity].
  apply Nat.eqb_eq in E. apply parse_items_all. exact E.
Qed.
Lemma line_fields_iff : forall sep line ws, line_fields sep line ws <-> ws = split_on sep (rstrip_char sep line).
Proof.
  intros sep line ws. unfold line_fields. split.
  - intros (t & T1 & S). apply trimmed_unique in T1. subst t. symmetry. apply split_on_unique. exact S.
  - intros ->. exists (rstrip_char sep line). split; [apply rstrip_char_trimmed|apply split_on_spec].
Qed.
Lemma pieces_length : forall telegram vs, length (pieces telegram vs) = length telegram.
Proof. induction telegram as [|it ts IH]; intros vs; cbn; [reflexivity|]. rewrite IH. reflexivity. Qed.
Lemma forall2_combine : forall A B C (R : A * B -> C -> Prop) l m v, length l = length m ->
  Forall2 R (combine l m) v <->
  (length v = length l /\ forall i a b, nth_error l i = Some a -> nth_error m i = Some b ->
     exists c, nth_error v i = Some c /\ R (a, b) c).
Proof.
  intros A B C R l. induction l as [|a l IH]; intros [|b m] v L; try discriminate; cbn [combine].
  - split.
    + intros F. inversion F. split; [reflexivity|]. intros [|i] ? ? H; discriminate.
    + intros [H _]. destruct v; [constructor|discriminate].
  - split.
    + intros F. inversion F as [|? c ? v' Rc F']; subst. apply IH in F'; [|cbn in L; lia]. destruct F' as [Lv P].
      split; [cbn; lia|]. intros [|i] a' b' Ha Hb; cbn in Ha, Hb.
      * injection Ha as <-. injection Hb as <-. exists c. auto.
      * exact (P i a' b' Ha Hb).
    + intros [Lv P]. destruct v as [|c v]; [discriminate|]. constructor.
      * destruct (P 0 a b eq_refl eq_refl) as (c' & E & Rc). injection E as <-. exact Rc.
      * apply IH; [cbn in L; lia|]. split; [cbn in Lv; lia|]. intros i a' b' Ha Hb. exact (P (S i) a' b' Ha Hb).
Qed.
(** A line gives values exactly if it can be read, and then item by item. *)
Lemma line_vals_iff : forall sep dec (telegram : list item) line vs,
  line_vals sep dec telegram line = Some vs <->
  exists fss, good_line to_int to_float sep dec telegram line fss /\ length vs = length telegram /\
    forall i it fs, nth_error telegram i = Some it -> nth_error fss i = Some fs ->
      exists v, nth_error vs i = Some v /\ item_val dec it fs = Some v.
Proof.
  intros sep dec telegram line vs. unfold line_vals, good_line. set (ws := split_on sep (rstrip_char sep line)). split.
  - destruct (length ws =? total telegram) eqn:E; [|discriminate]. apply Nat.eqb_eq in E.
    intros H. apply all_read_iff in H. apply forall2_combine in H; [|symmetry; apply pieces_length].
    destruct H as [L P]. exists (pieces telegram ws).
    assert (C : cut telegram ws (pieces telegram ws)) by (apply cut_iff; auto). split; [|split; [exact L|exact P]].
    exists ws. split; [apply line_fields_iff; reflexivity|]. split; [exact C|].
    destruct C as [C _]. revert P. clear L E. clearbody ws. revert vs C. generalize (pieces telegram ws).
    induction telegram as [|it ts IH]; intros fss vs C P; inversion C as [|? fs ? fss' SS C']; subst; constructor.
    + apply item_val_readable. destruct (P 0 it fs eq_refl eq_refl) as (v & _ & V). exists v. exact V.
    + apply (IH fss' (tl vs) C'). intros i it' fs' Hi Hf. destruct (P (S i) it' fs' Hi Hf) as (v & N & V).
      exists v. split; [|exact V]. destruct vs as [|v0 vs]; [discriminate|]. exact N.
  - intros (fss & (ws' & LF & C & R) & L & P). apply line_fields_iff in LF. fold ws in LF. subst ws'.
    apply cut_iff in C. destruct C as [E ->]. rewrite (proj2 (Nat.eqb_eq _ _) E).
    apply all_read_iff. apply forall2_combine; [symmetry; apply pieces_length|]. split; [exact L|exact P].
Qed.
Lemma good_line_vals : forall sep dec (telegram : list item) line fss,
  good_line to_int to_float sep dec telegram line fss -> exists vs, line_vals sep dec telegram line = Some vs.
Proof.
  intros sep dec telegram line fss (ws & LF & C & R). apply line_fields_iff in LF. apply cut_iff in C.
  destruct C as [E ->]. unfold line_vals. rewrite <- LF. rewrite (proj2 (Nat.eqb_eq _ _) E).
  clear LF E. revert R. generalize (pieces telegram ws). clear ws.
  induction telegram as [|it ts IH]; intros fss R; inversion R as [|? fs ? fss' R1 R']; subst; cbn.
  - eexists. reflexivity.
  - apply item_val_readable in R1. destruct R1 as [v V]. cbn in V. rewrite V.
    destruct (IH _ R') as [vs E]. rewrite E. eexists. reflexivity.
Qed.
Lemma good_line_unique : forall sep dec (telegram : list item) line fss fss',
  good_line to_int to_float sep dec telegram line fss -> good_line to_int to_float sep dec telegram line fss' -> fss = fss'.
Proof.
  intros sep dec telegram line fss fss' (ws & LF & C & _) (ws' & LF' & C' & _).
  apply line_fields_iff in LF, LF'. apply cut_iff in C, C'. destruct C as [_ ->], C' as [_ ->]. congruence.
Qed.
(** The last value of a kind. *)
Definition last_sel {A B} (sel : A -> option B) (l : list A) (o : option B) : option B :=
  fold_left (fun o v => match sel v with Some x => Some x | None => o end) l o.
Lemma last_sel_none : forall A B (sel : A -> option B) l o,
  (forall v, In v l -> sel v = None) -> last_sel sel l o = o.
Proof.
  intros A B sel l. unfold last_sel. induction l as [|v l IH]; intros o H; [reflexivity|]. cbn.
  rewrite (H v (or_introl eq_refl)). apply IH. intros w I. apply H. right. exact I.
Qed.
Lemma last_sel_iff : forall A B (sel : A -> option B) l x,
  last_sel sel l None = Some x <->
  exists i v, nth_error l i = Some v /\ sel v = Some x /\
    forall j w, i < j -> nth_error l j = Some w -> sel w = None.
Proof.
  intros A B sel l. unfold last_sel.
  assert (G : forall l o x, fold_left (fun o v => match sel v with Some x => Some x | None => o end) l o = Some x <->
    (exists i v, nth_error l i = Some v /\ sel v = Some x /\
      forall j w, i < j -> nth_error l j = Some w -> sel w = None) \/
    (o = Some x /\ forall v, In v l -> sel v = None)).
  { clear l. induction l as [|a l IH]; intros o x; cbn.
    - split; [intros H; right; split; [exact H|intros ? []]|].
      intros [(i & v & H & _)|[H _]]; [destruct i; discriminate|exact H].
    - rewrite IH. split.
      + intros [(i & v & H1 & H2 & H3)|[H1 H2]].
        * left. exists (S i), v. split; [exact H1|]. split; [exact H2|]. intros [|j] w J E; [lia|].
          apply (H3 j); [lia|exact E].
        * destruct (sel a) as [y|] eqn:E.
          -- injection H1 as ->. left. exists 0, a. split; [reflexivity|]. split; [exact E|].
             intros [|j] w J X; [lia|]. apply H2. eapply nth_error_In. exact X.
          -- right. split; [exact H1|]. intros v [<-|I]; [exact E|apply H2; exact I].
      + intros [(i & v & H1 & H2 & H3)|[H1 H2]].
        * destruct i as [|i].
          -- injection H1 as ->. right. rewrite H2. split; [reflexivity|]. intros w I.
             apply In_nth_error in I. destruct I as [j I]. apply (H3 (S j)); [lia|exact I].
          -- left. exists i, v. split; [exact H1|]. split; [exact H2|]. intros j w J E. apply (H3 (S j)); [lia|exact E].
        * right. rewrite (H2 a (or_introl eq_refl)). split; [exact H1|]. intros w I. apply H2. right. exact I. }
  intros x. rewrite G. split; [intros [H|[H _]]; [exact H|discriminate]|auto].
Qed.
Lemma last_sel_some : forall A B (sel : A -> option B) l o, (exists v, In v l /\ sel v <> None) ->
  exists x, last_sel sel l o = Some x.
Proof.
  intros A B sel l. unfold last_sel. induction l as [|a l IH]; intros o (v & I & H); [destruct I|]. cbn.
  assert (K : forall l y, exists x, fold_left (fun o v => match sel v with Some x => Some x | None => o end) l (Some y) = Some x).
  { clear. induction l as [|a l IH]; intros y; cbn; [eauto|]. destruct (sel a); apply IH. }
  destruct I as [->|I].
  - destruct (sel v) as [y|]; [|contradiction]. apply K.
  - apply IH. exists v. auto.
Qed.
Definition s_date (v : ival) := match v with VDate d => Some d | _ => None end.
Definition s_time (v : ival) := match v with VTime d => Some d | _ => None end.
Definition s_stamp (v : ival) := match v with VStamp d => Some d | _ => None end.
Definition s_num (n : nat) (v : ival) := match v with VNum m c => if n =? m then Some c else None | _ => None end.
Lemma fold_apply : forall vs r,
  r_date (fold_left apply_val vs r) = last_sel s_date vs (r_date r) /\
  r_time (fold_left apply_val vs r) = last_sel s_time vs (r_time r) /\
  r_stamp (fold_left apply_val vs r) = last_sel s_stamp vs (r_stamp r) /\
  (forall n, get Nat.eqb n (r_data (fold_left apply_val vs r)) = last_sel (s_num n) vs (get Nat.eqb n (r_data r))) /\
  (NoDup (map fst (r_data r)) -> NoDup (map fst (r_data (fold_left apply_val vs r)))).
Proof.
  unfold last_sel. induction vs as [|v vs IH]; intros r; cbn [fold_left].
  - repeat split; auto.
  - destruct (IH (apply_val r v)) as (H1 & H2 & H3 & H4 & H5). rewrite H1, H2, H3.
    split; [destruct v; reflexivity|]. split; [destruct v; reflexivity|]. split; [destruct v; reflexivity|]. split.
    + intros n. rewrite H4. destruct v as [| | |m c|]; try reflexivity. cbn [s_num apply_val set_num r_data].
      rewrite (get_put _ _ _ nat_eqb_spec). destruct (n =? m); reflexivity.
    + intros N. apply H5. destruct v as [| | |m c|]; try exact N. cbn [apply_val set_num r_data].
      apply (put_nodup _ _ _ nat_eqb_spec). exact N.
Qed.
(** What a line contributes. *)
Definition from_line {B} (sep dec : ascii) (telegram : list item) (sel : ival -> option B) (line : string) : option B :=
  match line_vals sep dec telegram line with Some vs => last_sel sel vs None | None => None end.
Lemma step_line_spec : forall sep dec (telegram : list item) line st st',
  step_line to_int to_float sep dec telegram st line = st' ->
  p_dates st' = (p_dates st ++ opt_list (from_line sep dec telegram s_date line))%list /\
  p_times st' = (p_times st ++ opt_list (from_line sep dec telegram s_time line))%list /\
  p_stamps st' = (p_stamps st ++ opt_list (from_line sep dec telegram s_stamp line))%list /\
  (forall n, col Nat.eqb (p_data st') n =
     (col Nat.eqb (p_data st) n ++ opt_list (from_line sep dec telegram (s_num n) line))%list) /\
  (NoDup (map fst (p_data st)) -> NoDup (map fst (p_data st'))).
Proof.
  intros sep dec telegram line st st' <-. unfold step_line, from_line. rewrite parse_line_vals.
  destruct (line_vals sep dec telegram line) as [vs|]; cbn [option_map].
  - destruct (fold_apply vs no_row) as (H1 & H2 & H3 & H4 & H5). cbn [store_row p_dates p_times p_stamps p_data].
    rewrite H1, H2, H3. split; [reflexivity|]. split; [reflexivity|]. split; [reflexivity|]. split.
    + intros n. rewrite (push_all _ _ _ nat_eqb_spec) by (apply H5; constructor). rewrite H4. reflexivity.
    + intros N. apply (push_all_nodup _ _ _ nat_eqb_spec). exact N.
  - cbn. rewrite !app_nil_r. repeat split; auto. intros n. rewrite app_nil_r. reflexivity.
Qed.
Lemma lines_spec : forall sep dec (telegram : list item) lines st st',
  fold_left (step_line to_int to_float sep dec telegram) lines st = st' ->
  p_dates st' = (p_dates st ++ flat_map (fun l => opt_list (from_line sep dec telegram s_date l)) lines)%list /\
  p_times st' = (p_times st ++ flat_map (fun l => opt_list (from_line sep dec telegram s_time l)) lines)%list /\
  p_stamps st' = (p_stamps st ++ flat_map (fun l => opt_list (from_line sep dec telegram s_stamp l)) lines)%list /\
  (forall n, col Nat.eqb (p_data st') n =
     (col Nat.eqb (p_data st) n ++ flat_map (fun l => opt_list (from_line sep dec telegram (s_num n) l)) lines)%list) /\
  (NoDup (map fst (p_data st)) -> NoDup (map fst (p_data st'))).
Proof.
  intros sep dec telegram lines. induction lines as [|line lines IH]; intros st st' H; cbn [fold_left] in H.
  - subst st'. cbn. rewrite !app_nil_r. repeat split; auto. intros n. rewrite app_nil_r. reflexivity.
  - destruct (step_line_spec sep dec telegram line st _ eq_refl) as (H1 & H2 & H3 & H4 & H5).
    destruct (IH _ _ H) as (K1 & K2 & K3 & K4 & K5). rewrite K1, K2, K3, H1, H2, H3, <- !app_assoc.
    repeat split; auto. intros n. rewrite K4, H4, <- app_assoc. reflexivity.
Qed.
Lemma empty_columns_spec : forall telegram, (forall n, col Nat.eqb (@empty_columns D T telegram) n = []) /\
  NoDup (map fst (@empty_columns D T telegram)) /\
  (forall n, In n (map fst (@empty_columns D T telegram)) <-> In (ItNum n) telegram).
Proof.
  intros telegram. unfold empty_columns.
  assert (PC : forall k (d : list (nat * list pcell)), (forall n, col Nat.eqb d n = []) ->
               forall n, col Nat.eqb (put Nat.eqb k [] d) n = []).
  { intros k d H n. specialize (H n). unfold col in *. revert H. induction d as [|[k2 c] d IH]; cbn.
    - destruct (n =? k); reflexivity.
    - destruct (k =? k2) eqn:E; cbn.
      + destruct (n =? k2); auto.
      + destruct (n =? k2); auto. }
  assert (G : forall telegram (d : list (nat * list pcell)), (forall n, col Nat.eqb d n = []) -> NoDup (map fst d) ->
    let d' := fold_left (fun d (t : item) => match t with ItNum n => put Nat.eqb n [] d | _ => d end) telegram d in
    (forall n, col Nat.eqb d' n = []) /\ NoDup (map fst d') /\
    (forall n, In n (map fst d') <-> In n (map fst d) \/ In (ItNum n) telegram)).
  { clear telegram. induction telegram as [|it ts IH]; intros d H N; cbn zeta; cbn [fold_left].
    - split; [exact H|]. split; [exact N|]. intros n. cbn. tauto.
    - destruct it as [p|p|p|k|].
      1,2,3,5: destruct (IH d H N) as (A & B & C); split; [exact A|]; split; [exact B|]; intros n; rewrite C; cbn;
        (split; [intros [X|X]; auto|intros [X|[X|X]]; [auto|discriminate|auto]]).
      destruct (IH (put Nat.eqb k [] d)) as (A & B & C); [apply PC; exact H|apply (put_nodup _ _ _ nat_eqb_spec); exact N|].
      split; [exact A|]. split; [exact B|]. intros n. rewrite C. rewrite (put_keys _ _ _ nat_eqb_spec). cbn.
      split.
      + intros [[X|X]|X]; subst; auto.
      + intros [X|[X|X]]; auto. injection X as ->. auto. }
  destruct (G telegram []) as (A & B & C); [reflexivity|constructor|]. split; [exact A|]. split; [exact B|].
  intros n. rewrite C. cbn. tauto.
Qed.

(** Selected values and the last items. *)
Lemma from_line_iff : forall B sep dec (telegram : list item) (sel : ival -> option B) (p : item -> Prop) line x,
  (forall it fs v, item_val dec it fs = Some v -> (sel v <> None <-> p it)) ->
  from_line sep dec telegram sel line = Some x <->
  exists fss it fs v, good_line to_int to_float sep dec telegram line fss /\
    last_item p telegram fss it fs /\ item_val dec it fs = Some v /\ sel v = Some x.
Proof.
  intros B sep dec telegram sel p line x SP. unfold from_line. split.
  - destruct (line_vals sep dec telegram line) as [vs|] eqn:E; [|discriminate].
    apply line_vals_iff in E. destruct E as (fss & G & L & P). intros H. apply last_sel_iff in H.
    destruct H as (i & v & Hv & Hx & Hl).
    assert (LF : length fss = length telegram).
    { destruct G as (ws & _ & (F & _) & _). symmetry. eapply forall2_len. exact F. }
    pose proof (nth_error_Some_lt _ _ _ Hv) as Li. rewrite L in Li.
    destruct (nth_error_lt_Some telegram i) as [it Hit]; [exact Li|].
    destruct (nth_error_lt_Some fss i) as [fs Hfs]; [lia|].
    destruct (P i it fs Hit Hfs) as (v' & Hv' & V). assert (v' = v) by congruence. subst v'.
    exists fss, it, fs, v. split; [exact G|]. split; [|auto]. exists i. split; [exact Hit|].
    split; [apply (SP it fs v V); congruence|]. split; [exact Hfs|]. intros j it' J Hj Pj.
    destruct (nth_error_lt_Some fss j) as [fs' Hfs']; [rewrite LF; eapply nth_error_Some_lt; exact Hj|].
    destruct (P j it' fs' Hj Hfs') as (w & Hw & W). apply (SP it' fs' w W) in Pj. apply Pj. exact (Hl j w J Hw).
  - intros (fss & it & fs & v & G & (i & Hit & Pi & Hfs & Hl) & V & X).
    destruct (good_line_vals _ _ _ _ _ G) as [vs E]. rewrite E. apply line_vals_iff in E.
    destruct E as (fss' & G' & L & P). assert (fss' = fss) by (eapply good_line_unique; eassumption). subst fss'.
    apply last_sel_iff. destruct (P i it fs Hit Hfs) as (v' & Hv' & V'). assert (v' = v) by congruence. subst v'.
    exists i, v. split; [exact Hv'|]. split; [exact X|]. intros j w J Hj.
    assert (LF : length fss = length telegram).
    { destruct G as (ws & _ & (F & _) & _). symmetry. eapply forall2_len. exact F. }
    pose proof (nth_error_Some_lt _ _ _ Hj) as Lj. rewrite L in Lj.
    destruct (nth_error_lt_Some telegram j) as [it' Hj']; [exact Lj|].
    destruct (nth_error_lt_Some fss j) as [fs' Hf']; [lia|].
    destruct (P j it' fs' Hj' Hf') as (w' & Hw' & W). assert (w' = w) by congruence. subst w'.
    destruct (sel w) as [y|] eqn:SW; [|reflexivity]. exfalso. apply (Hl j it' J Hj').
    apply (SP it' fs' w W). congruence.
Qed.
Lemma item_val_inv : forall dec it fs v, item_val dec it fs = Some v ->
  match it with
  | ItNum n => exists c, v = VNum n c /\ num_reading to_int to_float dec n fs c
  | ItDate p => exists w d, fs = [w] /\ p w = Some d /\ v = VDate d
  | ItTime p => exists w d, fs = [w] /\ p w = Some d /\ v = VTime d
  | ItStamp p => exists w d, fs = [w] /\ p w = Some d /\ v = VStamp d
  | ItSkip => v = VSkip
  end.
Proof.
  intros dec it fs v H. destruct it as [p|p|p|n|]; cbn in H.
  - destruct fs as [|w [|]]; try discriminate. destruct (p w) eqn:E; [|discriminate]. injection H as <-. eauto.
  - destruct fs as [|w [|]]; try discriminate. destruct (p w) eqn:E; [|discriminate]. injection H as <-. eauto.
  - destruct fs as [|w [|]]; try discriminate. destruct (p w) eqn:E; [|discriminate]. injection H as <-. eauto.
  - destruct (num_val dec n fs) as [c|] eqn:E; [|discriminate]. apply num_val_iff in E. injection H as <-. eauto.
  - destruct fs as [|w [|]]; try discriminate. injection H as <-. reflexivity.
Qed.
Ltac kind := intros it fs v H; apply item_val_inv in H; destruct it;
  repeat match goal with X : exists _, _ |- _ => destruct X | X : _ /\ _ |- _ => destruct X end; subst.
Lemma num_from_line : forall sep dec (telegram : list item) n line c,
  from_line sep dec telegram (s_num n) line = Some c <-> value_in_line to_int to_float sep dec telegram n line c.
Proof.
  intros sep dec telegram n line c. rewrite (from_line_iff _ sep dec telegram (s_num n) (fun it => it = ItNum n)).
  - unfold value_in_line. split.
    + intros (fss & it & fs & v & G & L & V & X). destruct L as (i & Hi & Hit & Hr). subst it. apply item_val_inv in V.
      destruct V as (c' & -> & NR). cbn in X. rewrite Nat.eqb_refl in X. injection X as ->.
      exists fss, fs. split; [exact G|]. split; [|exact NR]. exists i. auto.
    + intros (fss & fs & G & L & NR). exists fss, (ItNum n), fs, (VNum n c). split; [exact G|]. split; [exact L|].
      split; [cbn; apply num_val_iff in NR; rewrite NR; reflexivity|]. cbn. rewrite Nat.eqb_refl. reflexivity.
  - kind; cbn; try (split; [congruence|discriminate]).
    destruct (n =? n0) eqn:E; split; intros X; try congruence.
    + apply Nat.eqb_eq in E. congruence.
    + injection X as ->. rewrite Nat.eqb_refl in E. discriminate.
Qed.
Lemma date_from_line : forall sep dec (telegram : list item) line x,
  from_line sep dec telegram s_date line = Some x <->
  exists fss p w, good_line to_int to_float sep dec telegram line fss /\
    last_item is_date telegram fss (ItDate p) [w] /\ p w = Some x.
Proof.
  intros sep dec telegram line x. rewrite (from_line_iff _ sep dec telegram s_date is_date).
  - split.
    + intros (fss & it & fs & v & G & L & V & X). assert (Pi : is_date it) by (destruct L as (i & _ & Pi & _); exact Pi).
      destruct Pi as [p ->]. apply item_val_inv in V. destruct V as (w & d & -> & E & ->). injection X as ->.
      exists fss, p, w. auto.
    + intros (fss & p & w & G & L & E). exists fss, (ItDate p), [w], (VDate x). cbn. rewrite E. auto.
  - unfold is_date. kind; cbn; split; try (intros X; exfalso; apply X; reflexivity); try (intros [? X]; discriminate X); eauto; discriminate.
Qed.
Lemma time_from_line : forall sep dec (telegram : list item) line x,
  from_line sep dec telegram s_time line = Some x <->
  exists fss p w, good_line to_int to_float sep dec telegram line fss /\
    last_item is_time telegram fss (ItTime p) [w] /\ p w = Some x.
Proof.
  intros sep dec telegram line x. rewrite (from_line_iff _ sep dec telegram s_time is_time).
  - split.
    + intros (fss & it & fs & v & G & L & V & X). assert (Pi : is_time it) by (destruct L as (i & _ & Pi & _); exact Pi).
      destruct Pi as [p ->]. apply item_val_inv in V. destruct V as (w & d & -> & E & ->). injection X as ->.
      exists fss, p, w. auto.
    + intros (fss & p & w & G & L & E). exists fss, (ItTime p), [w], (VTime x). cbn. rewrite E. auto.
  - unfold is_time. kind; cbn; split; try (intros X; exfalso; apply X; reflexivity); try (intros [? X]; discriminate X); eauto; discriminate.
Qed.
Lemma stamp_from_line : forall sep dec (telegram : list item) line x,
  from_line sep dec telegram s_stamp line = Some x <->
  exists fss p w, good_line to_int to_float sep dec telegram line fss /\
    last_item is_stamp telegram fss (ItStamp p) [w] /\ p w = Some x.
Proof.
  intros sep dec telegram line x. rewrite (from_line_iff _ sep dec telegram s_stamp is_stamp).
  - split.
    + intros (fss & it & fs & v & G & L & V & X). assert (Pi : is_stamp it) by (destruct L as (i & _ & Pi & _); exact Pi).
      destruct Pi as [p ->]. apply item_val_inv in V. destruct V as (w & d & -> & E & ->). injection X as ->.
      exists fss, p, w. auto.
    + intros (fss & p & w & G & L & E). exists fss, (ItStamp p), [w], (VStamp x). cbn. rewrite E. auto.
  - unfold is_stamp. kind; cbn; split; try (intros X; exfalso; apply X; reflexivity); try (intros [? X]; discriminate X); eauto; discriminate.
Qed.
(** A readable line gives a value for every kind of item in the telegram. *)
Lemma from_good_line : forall B sep dec (telegram : list item) (sel : ival -> option B) (p : item -> Prop) line fss,
  (forall it fs v, item_val dec it fs = Some v -> (sel v <> None <-> p it)) ->
  good_line to_int to_float sep dec telegram line fss -> (exists it, In it telegram /\ p it) ->
  exists x, from_line sep dec telegram sel line = Some x.
Proof.
  intros B sep dec telegram sel p line fss SP G (it & I & Pi).
  destruct (good_line_vals _ _ _ _ _ G) as [vs E]. unfold from_line. rewrite E.
  apply line_vals_iff in E. destruct E as (fss' & G' & L & P).
  apply In_nth_error in I. destruct I as [i Hi].
  assert (LF : length fss' = length telegram).
  { destruct G' as (ws & _ & (F & _) & _). symmetry. eapply forall2_len. exact F. }
  destruct (nth_error_lt_Some fss' i) as [fs Hf]; [rewrite LF; eapply nth_error_Some_lt; exact Hi|].
  destruct (P i it fs Hi Hf) as (v & Hv & V). apply last_sel_some. exists v. split; [eapply nth_error_In; exact Hv|].
  apply (SP it fs v V). exact Pi.
Qed.
Lemma from_line_good : forall B sep dec (telegram : list item) (sel : ival -> option B) line x,
  from_line sep dec telegram sel line = Some x -> exists fss, good_line to_int to_float sep dec telegram line fss.
Proof.
  intros B sep dec telegram sel line x H. unfold from_line in H.
  destruct (line_vals sep dec telegram line) as [vs|] eqn:E; [|discriminate]. apply line_vals_iff in E.
  destruct E as (fss & G & _). exists fss. exact G.
Qed.
Lemma sp_num : forall dec n it fs v, item_val dec it fs = Some v -> (s_num n v <> None <-> it = ItNum n).
Proof.
  intros dec n. kind; cbn; try (split; [congruence|discriminate]).
  destruct (n =? n0) eqn:E; split; intros X; try congruence.
  + apply Nat.eqb_eq in E. congruence.
  + injection X as ->. rewrite Nat.eqb_refl in E. discriminate.
Qed.
Lemma sp_date : forall dec it fs v, item_val dec it fs = Some v -> (s_date v <> None <-> is_date it).
Proof. intros dec. unfold is_date. kind; cbn; split; try (intros X; exfalso; apply X; reflexivity); try (intros [? X]; discriminate X); eauto; discriminate. Qed.
Lemma sp_time : forall dec it fs v, item_val dec it fs = Some v -> (s_time v <> None <-> is_time it).
Proof. intros dec. unfold is_time. kind; cbn; split; try (intros X; exfalso; apply X; reflexivity); try (intros [? X]; discriminate X); eauto; discriminate. Qed.
Lemma sp_stamp : forall dec it fs v, item_val dec it fs = Some v -> (s_stamp v <> None <-> is_stamp it).
Proof. intros dec. unfold is_stamp. kind; cbn; split; try (intros X; exfalso; apply X; reflexivity); try (intros [? X]; discriminate X); eauto; discriminate. Qed.

Lemma flat_none : forall A B (f : A -> option B) l, flat_map (fun a => opt_list (f a)) l = [] ->
  forall a, In a l -> f a = None.
Proof.
  intros A B f l. induction l as [|a l IH]; cbn; [intros _ ? []|]. intros H b [<-|I].
  - destruct (f a); [discriminate|reflexivity].
  - apply IH; [|exact I]. destruct (f a); [discriminate|exact H].
Qed.
Lemma read_lines_spec : forall sep dec (telegram : list item) lines, timed telegram ->
  exists times data, read_lines to_int to_float sep dec telegram lines = Ok (times, data) /\
    collects (stamp_in_line to_int to_float sep dec telegram) lines times /\
    NoDup (map fst data) /\
    (forall n c, has_column data n c -> collects (value_in_line to_int to_float sep dec telegram n) lines c).
Proof.
  intros sep dec telegram lines TM. unfold read_lines.
  destruct (empty_columns_spec telegram) as (EC & EN & _).
  destruct (lines_spec sep dec telegram lines {| p_times := []; p_dates := []; p_stamps := []; p_data := empty_columns telegram |} _ eq_refl)
    as (H1 & H2 & H3 & H4 & H5).
  set (st := fold_left _ _ _) in *. cbn [p_dates p_times p_stamps p_data app] in H1, H2, H3, H4, H5.
  specialize (H5 EN).
  assert (COLS : forall n c, has_column (p_data st) n c -> collects (value_in_line to_int to_float sep dec telegram n) lines c).
  { intros n c HC. apply (has_column_iff Nat.eqb nat_eqb_spec _ _ _ H5) in HC. rewrite <- HC, H4, EC. cbn [app].
    apply collects_flat_map. intros line v _. apply num_from_line. }
  assert (ST : (exists it, In it telegram /\ is_stamp it) -> collects (stamp_in_line to_int to_float sep dec telegram) lines (p_stamps st)).
  { intros (it & I & SI). rewrite H3. apply collects_flat_map. intros line s _. rewrite stamp_from_line. unfold stamp_in_line. split.
    - intros (fss & p & w & G & L & E). exists fss. split; [exact G|]. left. exists p, w. auto.
    - intros (fss & G & [(p & w & L & E)|(N & _)]); [exists fss, p, w; auto|]. destruct (N it I SI). }
  destruct (p_stamps st) as [|s ss] eqn:PS.
  - assert (NS : forall line, In line lines -> from_line sep dec telegram s_stamp line = None).
    { apply flat_none. symmetry. exact H3. }
    destruct (existsb (fun it => match it with ItStamp _ => true | _ => false end) telegram) eqn:EX.
    + apply existsb_exists in EX. destruct EX as (it & I & SI).
      assert (IS : is_stamp it) by (destruct it; try discriminate; eexists; reflexivity).
      assert (NG : forall line fss, In line lines -> ~ good_line to_int to_float sep dec telegram line fss).
      { intros line fss IL G. destruct (from_good_line _ sep dec telegram s_stamp is_stamp line fss (sp_stamp dec) G) as [x X]; [eauto|].
        rewrite (NS line IL) in X. discriminate. }
      assert (NF : forall B (sel : ival -> option B), flat_map (fun l => opt_list (from_line sep dec telegram sel l)) lines = []).
      { intros B sel. clear - NG. induction lines as [|l lines IH]; [reflexivity|]. cbn.
        destruct (from_line sep dec telegram sel l) as [x|] eqn:E.
        - apply from_line_good in E. destruct E as [fss G]. destruct (NG l fss (or_introl eq_refl) G).
        - cbn. apply IH. intros line fss I. apply NG. right. exact I. }
      rewrite H1, H2, !NF. cbn. eexists _, _. split; [reflexivity|]. split; [apply ST; eauto|]. auto.
    + assert (NI : forall it, In it telegram -> ~ is_stamp it).
      { intros it I [p ->]. apply Bool.not_true_iff_false in EX. apply EX. apply existsb_exists. exists (ItStamp p). auto. }
      destruct TM as [(it & I & SI)|[(d & Id & Dd) (t & It & Tt)]]; [destruct (NI it I SI)|].
      assert (CD : collects (fun line x => exists fss p w, good_line to_int to_float sep dec telegram line fss /\
                     last_item is_date telegram fss (ItDate p) [w] /\ p w = Some x) lines (p_dates st)).
      { rewrite H1. apply collects_flat_map. intros line x _. apply date_from_line. }
      assert (CT : collects (fun line x => exists fss p w, good_line to_int to_float sep dec telegram line fss /\
                     last_item is_time telegram fss (ItTime p) [w] /\ p w = Some x) lines (p_times st)).
      { rewrite H2. apply collects_flat_map. intros line x _. apply time_from_line. }
      assert (DOM : forall line, In line lines ->
        (exists x, exists fss p w, good_line to_int to_float sep dec telegram line fss /\
                     last_item is_date telegram fss (ItDate p) [w] /\ p w = Some x) <->
        (exists x, exists fss p w, good_line to_int to_float sep dec telegram line fss /\
                     last_item is_time telegram fss (ItTime p) [w] /\ p w = Some x)).
      { intros line _. split; intros (x & fss & p & w & G & _).
        - destruct (from_good_line _ sep dec telegram s_time is_time line fss (sp_time dec) G) as [y Y]; [eauto|].
          apply time_from_line in Y. exists y. exact Y.
        - destruct (from_good_line _ sep dec telegram s_date is_date line fss (sp_date dec) G) as [y Y]; [eauto|].
          apply date_from_line in Y. exists y. exact Y. }
      rewrite (proj2 (Nat.eqb_eq _ _) (collects_same_length _ _ _ _ _ _ _ _ DOM CD CT)).
      eexists _, _. split; [reflexivity|]. split; [|auto].
      eapply collects_ext; [|exact (collects_combine _ _ _ _ _ _ _ _ DOM CD CT)].
      intros line [d0 t0] _. cbn [fst snd]. unfold stamp_in_line. split.
      * intros [(fss & p & w & G & L & E) (fss' & q & x & G' & L' & E')].
        assert (fss' = fss) by (eapply good_line_unique; eassumption). subst fss'.
        exists fss. split; [exact G|]. right. split; [exact NI|]. exists p, w, q, x. auto.
      * intros (fss & G & [(p & w & L & _)|(_ & p & w & q & x & L & E & L' & E')]).
        -- exfalso. destruct L as (i & Hi & Pi & _). apply (NI _ (nth_error_In _ _ Hi) Pi).
        -- split; [exists fss, p, w; auto|exists fss, q, x; auto].
  - eexists _, _. split; [reflexivity|]. split; [|auto]. apply ST.
    destruct (existsb (fun it => match it with ItStamp _ => true | _ => false end) telegram) eqn:EX.
    + apply existsb_exists in EX. destruct EX as (it & I & SI). exists it. split; [exact I|].
      destruct it; try discriminate; eexists; reflexivity.
    + exfalso.
      assert (X : forall line, In line lines -> from_line sep dec telegram s_stamp line = None).
      { intros line _. destruct (from_line sep dec telegram s_stamp line) as [x|] eqn:E; [|reflexivity].
        apply stamp_from_line in E. destruct E as (fss & p & w & _ & (i & Hi & _) & _).
        apply Bool.not_true_iff_false in EX. exfalso. apply EX. apply existsb_exists. exists (ItStamp p).
        split; [eapply nth_error_In; exact Hi|reflexivity]. }
      assert (Y : flat_map (fun l => opt_list (from_line sep dec telegram s_stamp l)) lines = []).
      { clear - X. induction lines as [|l lines IH]; [reflexivity|]. cbn. rewrite (X l (or_introl eq_refl)). cbn.
        apply IH. intros line I. apply X. right. exact I. }
      rewrite Y in H3. discriminate.
Qed.
(** Every column of the telegram exists and goes with the time stamps. *)
Lemma read_lines_aligned : forall sep dec (telegram : list item) lines times data n c, timed telegram ->
  read_lines to_int to_float sep dec telegram lines = Ok (times, data) ->
  In (ItNum n) telegram -> has_column data n c ->
  length c = length times /\
  collects (fun line p => stamp_in_line to_int to_float sep dec telegram line (fst p) /\
                          value_in_line to_int to_float sep dec telegram n line (snd p)) lines (combine times c).
Proof.
  intros sep dec telegram lines times data n c TM RL I HC.
  destruct (read_lines_spec sep dec telegram lines TM) as (times' & data' & RL' & CT & N & CC).
  assert (times' = times /\ data' = data) as [-> ->] by (split; congruence).
  specialize (CC n c HC).
  assert (DOM : forall line, In line lines -> (exists s, stamp_in_line to_int to_float sep dec telegram line s) <->
                             (exists v, value_in_line to_int to_float sep dec telegram n line v)).
  { intros line _. split.
    - intros (s & fss & G & _).
      destruct (from_good_line _ sep dec telegram (s_num n) (fun it => it = ItNum n) line fss (sp_num dec n) G) as [y Y]; [eauto|].
      apply num_from_line in Y. exists y. exact Y.
    - intros (v & fss & fs & G & _).
      destruct (existsb (fun it => match it with ItStamp _ => true | _ => false end) telegram) eqn:EX.
      + apply existsb_exists in EX. destruct EX as (it & I' & SI).
        destruct (from_good_line _ sep dec telegram s_stamp is_stamp line fss (sp_stamp dec) G) as [y Y].
        { exists it. split; [exact I'|]. destruct it; try discriminate; eexists; reflexivity. }
        apply stamp_from_line in Y. destruct Y as (fss' & p & w & G' & L & E). exists y, fss'. split; [exact G'|].
        left. exists p, w. auto.
      + assert (NI : forall it, In it telegram -> ~ is_stamp it).
        { intros it I' [p ->]. apply Bool.not_true_iff_false in EX. apply EX. apply existsb_exists. exists (ItStamp p). auto. }
        destruct TM as [(it & I' & SI)|[Dd Tt]]; [destruct (NI it I' SI)|].
        destruct (from_good_line _ sep dec telegram s_date is_date line fss (sp_date dec) G Dd) as [d Ed].
        destruct (from_good_line _ sep dec telegram s_time is_time line fss (sp_time dec) G Tt) as [t Et].
        apply date_from_line in Ed. apply time_from_line in Et.
        destruct Ed as (f1 & p & w & G1 & L1 & E1). destruct Et as (f2 & q & x & G2 & L2 & E2).
        assert (f2 = f1) by (eapply good_line_unique; eassumption). subst f2.
        exists (d, t), f1. split; [exact G1|]. right. split; [exact NI|]. exists p, w, q, x. auto. }
  split.
  - symmetry. eapply collects_same_length; eassumption.
  - eapply collects_combine; eassumption.
Qed.
End PvProofs.

(** ** Parsivel records *)
Section HyProofs.
Context {D T : Type} (to_int : string -> option Z) (to_float : string -> option Q).
Local Notation hy_record := (@hy_record D T).
Lemma mem_z_iff : forall n l, mem_z n l = true <-> exists m, n = Z.of_nat m /\ In m l.
Proof.
  intros n l. unfold mem_z. rewrite existsb_exists. split.
  - intros (m & I & E). apply Z.eqb_eq in E. eauto.
  - intros (m & -> & I). exists m. split; [exact I|apply Z.eqb_refl].
Qed.
(** The number and the value of a line. *)
Definition line_entry (line : string) : option (Z * option rcell) :=
  match partition ":" line with
  | None => None
  | Some (key, value) =>
      match to_int key with
      | None => None
      | Some num =>
          if mem_z num pv_int_keys then option_map (fun z => (num, Some (RInt z))) (to_int value)
          else if mem_z num pv_float_keys then option_map (fun z => (num, Some (RFloat z))) (to_float value)
          else if ((num =? 90) || (num =? 91))%Z then
            option_map (fun z => (num, Some (RVec z))) (all_read to_float (split_on ";" (rstrip_char ";" value)))
          else if (num =? 93)%Z then
            match all_read to_int (split_on ";" (rstrip_char ";" value)) with
            | Some l => option_map (fun z => (num, Some (RSpec z))) (reshape 32 32 l)
            | None => None
            end
          else Some (num, None)
      end
  end.
Definition put_entry (d : list (Z * rcell)) (e : Z * option rcell) : list (Z * rcell) :=
  match snd e with Some c => put Z.eqb (fst e) c d | None => d end.
Lemma op4a_line_entry : forall line d, op4a_line to_int to_float line d = option_map (put_entry d) (line_entry line).
Proof.
  intros line d. unfold op4a_line, line_entry. destruct (partition ":" line) as [[k v]|]; [|reflexivity].
  destruct (to_int k) as [n|]; [|reflexivity].
  destruct (mem_z n pv_int_keys); [destruct (to_int v); reflexivity|].
  destruct (mem_z n pv_float_keys); [destruct (to_float v); reflexivity|].
  destruct ((n =? 90) || (n =? 91))%Z; [destruct (all_read _ _); reflexivity|].
  destruct (n =? 93)%Z; [|reflexivity]. destruct (all_read _ _) as [l|]; [|reflexivity].
  destruct (reshape 32 32 l); reflexivity.
Qed.
Lemma line_entry_iff : forall line n o, line_entry line = Some (n, o) <-> entry to_int to_float line n o.
Proof.
  intros line n o. unfold line_entry. split.
  - destruct (partition ":" line) as [[k v]|] eqn:P; [|discriminate]. apply partition_some in P. destruct P as [P W].
    destruct (to_int k) as [m|] eqn:K; [|discriminate].
    destruct (mem_z m pv_int_keys) eqn:EI.
    { apply mem_z_iff in EI. destruct EI as (x & -> & I). destruct (to_int v) as [z|] eqn:V; [|discriminate].
      intros H. injection H as <- <-. apply (en_int to_int to_float line k v x z); auto.
      apply pv_whole_iff. apply mem_nat_iff. exact I. }
    destruct (mem_z m pv_float_keys) eqn:EF.
    { apply mem_z_iff in EF. destruct EF as (x & -> & I). destruct (to_float v) as [z|] eqn:V; [|discriminate].
      intros H. injection H as <- <-. apply (en_float to_int to_float line k v x z); auto. }
    destruct ((m =? 90) || (m =? 91))%Z eqn:EV.
    { apply orb_true_iff in EV. rewrite !Z.eqb_eq in EV. destruct (all_read _ _) as [l|] eqn:V; [|discriminate].
      intros H. injection H as <- <-. apply all_read_iff in V. eapply en_vec; try eassumption.
      apply line_fields_iff. reflexivity. }
    destruct (m =? 93)%Z eqn:ES.
    { apply Z.eqb_eq in ES. subst m. destruct (all_read _ _) as [l|] eqn:V; [|discriminate].
      destruct (reshape 32 32 l) as [rows|] eqn:R; [|discriminate]. intros H. injection H as <- <-.
      apply all_read_iff in V. apply reshape_iff in R. destruct R as (R1 & R2 & R3).
      eapply en_spec; try eassumption. apply line_fields_iff. reflexivity. }
    intros H. injection H as <- <-. eapply en_other; try eassumption. intros x X. subst m.
    apply orb_false_iff in EV. rewrite !Z.eqb_neq in EV. apply Z.eqb_neq in ES.
    split; [|split; [|lia]].
    + intros Y. apply pv_whole_iff, mem_nat_iff in Y. apply Bool.not_true_iff_false in EI. apply EI.
      apply mem_z_iff. eauto.
    + intros Y. apply Bool.not_true_iff_false in EF. apply EF. apply mem_z_iff. eauto.
  - intros H.
    assert (NI : forall x, ~ pv_whole x -> mem_z (Z.of_nat x) pv_int_keys = false).
    { intros x Y. apply Bool.not_true_iff_false. intros Z0. apply mem_z_iff in Z0. destruct Z0 as (y & E & I).
      apply Nat2Z.inj in E. subst y. apply Y. apply pv_whole_iff, mem_nat_iff. exact I. }
    assert (NF : forall x, ~ pv_decimal x -> mem_z (Z.of_nat x) pv_float_keys = false).
    { intros x Y. apply Bool.not_true_iff_false. intros Z0. apply mem_z_iff in Z0. destruct Z0 as (y & E & I).
      apply Nat2Z.inj in E. subst y. apply Y. exact I. }
    destruct H as [line k v x z L W K I V|line k v x q L W K I V|line k v x ws l L W K I LF F|line k v ws l m L W K LF F R1 R2 R3|line k v x L W K N];
      rewrite (proj2 (partition_some ":" line k v) (conj L W)), K.
    + assert (mem_z (Z.of_nat x) pv_int_keys = true) as ->.
      { apply mem_z_iff. exists x. split; [reflexivity|]. apply pv_whole_iff, mem_nat_iff in I. exact I. }
      rewrite V. reflexivity.
    + assert (~ pv_whole x) by (revert I; unfold pv_decimal, pv_whole; cbn [In]; lia).
      rewrite NI by assumption. assert (mem_z (Z.of_nat x) pv_float_keys = true) as ->.
      { apply mem_z_iff. exists x. auto. }
      rewrite V. reflexivity.
    + apply line_fields_iff in LF. apply all_read_iff in F.
      assert (X : exists y, x = Z.of_nat y /\ (y = 90 \/ y = 91)).
      { destruct I as [->| ->]; [exists 90|exists 91]; split; auto. }
      destruct X as (y & -> & Y). rewrite NI, NF by (unfold pv_whole, pv_decimal; cbn [In]; lia).
      assert (((Z.of_nat y =? 90) || (Z.of_nat y =? 91))%Z = true) as -> by (apply orb_true_iff; rewrite !Z.eqb_eq; lia).
      rewrite <- LF, F. reflexivity.
    + apply line_fields_iff in LF. apply all_read_iff in F.
      change 93%Z with (Z.of_nat 93). rewrite NI, NF by (unfold pv_whole, pv_decimal; cbn [In]; lia).
      cbn [Z.of_nat]. cbn [orb]. change ((Z.pos (Pos.of_succ_nat 92) =? 90)%Z) with false.
      change ((Z.pos (Pos.of_succ_nat 92) =? 91)%Z) with false. change ((Z.pos (Pos.of_succ_nat 92) =? 93)%Z) with true.
      cbn [orb]. rewrite <- LF, F. rewrite (proj2 (reshape_iff _ 32 32 l m)) by auto. reflexivity.
    + assert (mem_z x pv_int_keys = false) as ->.
      { apply Bool.not_true_iff_false. intros Y. apply mem_z_iff in Y. destruct Y as (y & -> & I).
        destruct (N y eq_refl) as [Q _]. apply Q. apply pv_whole_iff, mem_nat_iff. exact I. }
      assert (mem_z x pv_float_keys = false) as ->.
      { apply Bool.not_true_iff_false. intros Y. apply mem_z_iff in Y. destruct Y as (y & -> & I).
        destruct (N y eq_refl) as (_ & Q & _). apply Q. exact I. }
      assert (((x =? 90) || (x =? 91))%Z = false) as ->.
      { apply orb_false_iff. rewrite !Z.eqb_neq. split; intros ->; [destruct (N 90 eq_refl)|destruct (N 91 eq_refl)]; lia. }
      assert ((x =? 93)%Z = false) as ->.
      { apply Z.eqb_neq. intros ->. destruct (N 93 eq_refl). lia. }
      reflexivity.
Qed.
Lemma op4a_lines_iff : forall lines d d',
  op4a_lines to_int to_float lines d = Some d' <->
  exists es, Forall2 (fun line e => entry to_int to_float line (fst e) (snd e)) lines es /\ d' = fold_left put_entry es d.
Proof.
  induction lines as [|l lines IH]; intros d d'; cbn [op4a_lines].
  - split.
    + intros H. injection H as <-. exists []. split; [constructor|reflexivity].
    + intros (es & F & ->). inversion F. reflexivity.
  - rewrite op4a_line_entry. split.
    + destruct (line_entry l) as [[n o]|] eqn:E; [|discriminate]. cbn [option_map]. intros H. apply IH in H.
      destruct H as (es & F & ->). exists ((n, o) :: es). split; [|reflexivity]. constructor; [|exact F].
      apply line_entry_iff. exact E.
    + intros (es & F & ->). inversion F as [|? [n o] ? es' En F']; subst. apply line_entry_iff in En. cbn in En.
      rewrite En. cbn [option_map]. apply IH. exists es'. auto.
Qed.
Definition s_entry (n : Z) (e : Z * option rcell) : option rcell := if (n =? fst e)%Z then snd e else None.
Lemma fold_put_entry : forall es d n, get Z.eqb n (fold_left put_entry es d) = last_sel (s_entry n) es (get Z.eqb n d).
Proof.
  unfold last_sel. induction es as [|[m o] es IH]; intros d n; cbn [fold_left]; [reflexivity|].
  rewrite IH. f_equal. unfold put_entry, s_entry. cbn [fst snd]. destruct o as [c|].
  - rewrite (get_put _ _ _ z_eqb_spec). destruct (n =? m)%Z; reflexivity.
  - destruct (n =? m)%Z; reflexivity.
Qed.
Lemma record_value_iff : forall es n o, record_value es n o <-> o = last_sel (s_entry n) es None.
Proof.
  intros es n o. unfold record_value. destruct (last_sel (s_entry n) es None) as [c|] eqn:E.
  - apply last_sel_iff in E. destruct E as (i & [m o'] & Hi & Hs & Hl). unfold s_entry in Hs. cbn in Hs.
    destruct (n =? m)%Z eqn:EM; [|discriminate]. apply Z.eqb_eq in EM. subst m o'. split.
    + intros [(j & c' & Hj & -> & Hjl)|[N _]].
      * destruct (Nat.lt_trichotomy i j) as [L|[->|L]].
        -- pose proof (Hl j _ L Hj) as X. unfold s_entry in X. cbn in X. rewrite Z.eqb_refl in X. discriminate.
        -- congruence.
        -- destruct (Hjl i c L Hi).
      * exfalso. apply (N c). eapply nth_error_In. exact Hi.
    + intros ->. left. exists i, c. split; [exact Hi|]. split; [reflexivity|]. intros j c' L Hj.
      pose proof (Hl j _ L Hj) as X. unfold s_entry in X. cbn in X. rewrite Z.eqb_refl in X. discriminate.
  - split.
    + intros [(i & c & Hi & -> & Hl)|[_ H]]; [|exact H]. exfalso.
      destruct (last_sel_some _ _ (s_entry n) es None) as [x X].
      { exists (n, Some c). split; [eapply nth_error_In; exact Hi|]. unfold s_entry. cbn. rewrite Z.eqb_refl. discriminate. }
      congruence.
    + intros ->. right. split; [|reflexivity]. intros c I.
      destruct (last_sel_some _ _ (s_entry n) es None) as [x X].
      { exists (n, Some c). split; [exact I|]. unfold s_entry. cbn. rewrite Z.eqb_refl. discriminate. }
      congruence.
Qed.
Lemma fold_put_nodup : forall es d, NoDup (map fst d) -> NoDup (map fst (fold_left put_entry es d)).
Proof.
  induction es as [|[m o] es IH]; intros d N; cbn [fold_left]; [exact N|]. apply IH. unfold put_entry. cbn.
  destruct o; [apply (put_nodup _ _ _ z_eqb_spec)|]; exact N.
Qed.
(** Adding a record. *)
Lemma add_record_spec : forall n record data, NoDup (map fst data) ->
  (forall k c, In (k, c) data -> length c = n) ->
  NoDup (map fst (add_record n record data)) /\
  (forall k c, In (k, c) (add_record n record data) ->
     exists c0, c = (c0 ++ [get Z.eqb k record])%list /\
       (In (k, c0) data \/ (~ In k (map fst data) /\ c0 = repeat None n /\ In k (map fst record)))) /\
  (forall k, In k (map fst (add_record n record data)) <-> In k (map fst data) \/ In k (map fst record)).
Proof.
  intros n record data N LN. unfold add_record.
  set (f := fun (d : list (Z * list (option rcell))) (kv : Z * rcell) =>
              match column_of Z.eqb (fst kv) d with Some _ => d | None => (d ++ [(fst kv, repeat None n)])%list end).
  assert (G : forall record d, NoDup (map fst d) ->
    NoDup (map fst (fold_left f record d)) /\
    (forall k c, In (k, c) (fold_left f record d) ->
       In (k, c) d \/ (~ In k (map fst d) /\ c = repeat None n /\ In k (map fst record))) /\
    (forall k, In k (map fst (fold_left f record d)) <-> In k (map fst d) \/ In k (map fst record))).
  { clear. induction record as [|[k v] record IH]; intros d N; cbn [fold_left].
    - split; [exact N|]. split; [auto|]. intros k. cbn. tauto.
    - unfold f at 2 4 6. cbn [fst]. destruct (column_of Z.eqb k d) as [c0|] eqn:E.
      + destruct (IH d N) as (A & B & C). split; [exact A|]. split.
        * intros k' c I. destruct (B k' c I) as [X|(X & Y & W)]; [auto|]. right. cbn. auto.
        * intros k'. rewrite C. cbn. split; [intros [X|X]; auto|]. intros [X|[<-|X]]; auto.
          left. apply (column_of_in Z.eqb z_eqb_spec) in E. apply (in_map fst) in E. exact E.
      + apply (column_of_none Z.eqb z_eqb_spec) in E.
        assert (N1 : NoDup (map fst (d ++ [(k, repeat (@None rcell) n)])%list)).
        { rewrite map_app. cbn. clear - N E. revert N E. generalize (map fst d). intros l N E.
          induction N as [|a l I N IH]; cbn; [constructor; [intros []|constructor]|].
          constructor; [|apply IH; intros X; apply E; right; exact X]. intros X. apply in_app_iff in X.
          destruct X as [X|[X|[]]]; [contradiction|]. subst. apply E. left. reflexivity. }
        destruct (IH _ N1) as (A & B & C). split; [exact A|]. split.
        * intros k' c I. destruct (B k' c I) as [X|(X & Y & W)].
          -- apply in_app_iff in X. destruct X as [X|[X|[]]]; [auto|]. injection X as <- <-. right. cbn. auto.
          -- right. split; [|cbn; auto]. intros Q. apply X. rewrite map_app. apply in_app_iff. auto.
        * intros k'. rewrite C, map_app, in_app_iff. cbn. split.
          -- intros [[X|[X|[]]]|X]; subst; auto.
          -- intros [X|[X|X]]; subst; auto. }
  destruct (G record data N) as (A & B & C). rewrite map_map. cbn [fst]. split; [exact A|]. split; [|exact C].
  intros k c I. apply in_map_iff in I. destruct I as ([k' c0] & E & I). cbn in E. injection E as <- <-.
  exists c0. split; [reflexivity|]. apply B. exact I.
Qed.
Lemma read_typ_cases : forall lines,
  match read_typ_op4a to_int to_float lines with
  | Ok d => exists rest es, lines = "TYP OP4A" :: rest /\
      Forall2 (fun line e => entry to_int to_float line (fst e) (snd e)) rest es /\ d = fold_left put_entry es []
  | Raise IndexError => lines = []
  | Raise ValueError => lines <> [] /\ forall rest es, lines = "TYP OP4A" :: rest ->
      ~ Forall2 (fun line e => entry to_int to_float line (fst e) (snd e)) rest es
  | Raise _ => False
  end.
Proof.
  intros [|l rest]; cbn [read_typ_op4a]; [reflexivity|]. destruct (String.eqb l "TYP OP4A") eqn:E.
  - apply String.eqb_eq in E. subst l. destruct (op4a_lines to_int to_float rest []) as [d|] eqn:P.
    + apply op4a_lines_iff in P. destruct P as (es & F & ->). eauto.
    + split; [discriminate|]. intros r es H F. injection H as <-.
      assert (X : op4a_lines to_int to_float rest [] = Some (fold_left put_entry es [])) by (apply op4a_lines_iff; eauto).
      congruence.
  - apply String.eqb_neq in E. split; [discriminate|]. intros r es H. injection H as H _. contradiction.
Qed.
Lemma entry_fun : forall line n o n' o', entry to_int to_float line n o -> entry to_int to_float line n' o' -> n = n' /\ o = o'.
Proof.
  intros line n o n' o' A B. apply line_entry_iff in A, B. rewrite A in B. injection B as -> ->. auto.
Qed.
Lemma entries_fun : forall lines es es',
  Forall2 (fun line e => entry to_int to_float line (fst e) (snd e)) lines es ->
  Forall2 (fun line e => entry to_int to_float line (fst e) (snd e)) lines es' -> es = es'.
Proof.
  intros lines es es' F. revert es'. induction F as [|l [n o] ls es E F IH]; intros es' G; inversion G as [|? [n' o'] ? es2 E' G']; subst; [reflexivity|].
  destruct (entry_fun _ _ _ _ _ E E') as [H1 H2]. cbn in H1, H2. subst. f_equal. apply IH. exact G'.
Qed.
Definition good (r : hy_record) (p : (D * T) * list (Z * option rcell)) : Prop :=
  good_record to_int to_float r (fst p) (snd p).
Lemma forall2_snoc : forall A B (R : A -> B -> Prop) l m a b, Forall2 R l m -> R a b -> Forall2 R (l ++ [a])%list (m ++ [b])%list.
Proof. intros A B R l m a b F H. apply Forall2_app; [exact F|]. constructor; [exact H|constructor]. Qed.
Lemma repeat_forall2 : forall A B (R : A -> option B -> Prop) l, (forall a, In a l -> R a None) -> Forall2 R l (repeat None (length l)).
Proof. intros A B R l. induction l as [|a l IH]; intros H; cbn; constructor; [apply H; left; reflexivity|]. apply IH. intros; apply H; right; assumption. Qed.
Lemma hyytiala_spec : forall rs (acc : list ((D * T) * list (Z * option rcell))) data time,
  time = map fst acc -> NoDup (map fst data) ->
  (forall k c, In (k, c) data -> Forall2 (fun p o => record_value (snd p) k o) acc c) ->
  (forall k p c, In p acc -> In (k, Some c) (snd p) -> In k (map fst data)) ->
  (forall k, In k (map fst data) -> exists p c, In p acc /\ In (k, Some c) (snd p)) ->
  match hyytiala_records to_int to_float rs time data with
  | Ok (time', data') => (forall r, In r rs -> hr_lines r <> []) /\
      exists l, collects good rs l /\ time' = map fst (acc ++ l)%list /\ NoDup (map fst data') /\
      (forall k c, In (k, c) data' -> Forall2 (fun p o => record_value (snd p) k o) (acc ++ l)%list c) /\
      (forall k, In k (map fst data') <-> exists p c, In p (acc ++ l)%list /\ In (k, Some c) (snd p))
  | Raise e => e = IndexError /\ exists r, In r rs /\ hr_lines r = []
  end.
Proof.
  induction rs as [|r rs IH]; intros acc data time -> N COLS K1 K2; cbn [hyytiala_records].
  - split; [intros ? []|]. exists []. rewrite app_nil_r. split; [constructor|]. split; [reflexivity|]. split; [exact N|].
    split; [exact COLS|]. intros k. split; [apply K2|]. intros (p & c & I & J). exact (K1 k p c I J).
  - assert (SKIP : hr_lines r <> [] -> (forall p, ~ good r p) ->
      match hyytiala_records to_int to_float rs (map fst acc) data with
      | Ok (time', data') => (forall r', In r' (r :: rs) -> hr_lines r' <> []) /\
          exists l, collects good (r :: rs) l /\ time' = map fst (acc ++ l)%list /\ NoDup (map fst data') /\
          (forall k c, In (k, c) data' -> Forall2 (fun p o => record_value (snd p) k o) (acc ++ l)%list c) /\
          (forall k, In k (map fst data') <-> exists p c, In p (acc ++ l)%list /\ In (k, Some c) (snd p))
      | Raise e => e = IndexError /\ exists r', In r' (r :: rs) /\ hr_lines r' = []
      end).
    { intros NE NG. specialize (IH acc data _ eq_refl N COLS K1 K2).
      destruct (hyytiala_records to_int to_float rs (map fst acc) data) as [[t' d']|e].
      - destruct IH as (X & l & C & R). split; [intros r' [<-|I]; auto|]. exists l. split; [|exact R].
        apply collects_skip; [exact NG|exact C].
      - destruct IH as (-> & r' & I & E). split; [reflexivity|]. exists r'. split; [right; exact I|exact E]. }
    pose proof (read_typ_cases (hr_lines r)) as RT. destruct (read_typ_op4a to_int to_float (hr_lines r)) as [record|e].
    + destruct RT as (rest & es & HL & F & ->). destruct (hr_stamp r) as [t|] eqn:ST.
      * assert (GR : good r (t, es)) by (split; [exact ST|exists rest; auto]).
        set (record := fold_left put_entry es []) in *.
        assert (GV : forall k, record_value es k (get Z.eqb k record)).
        { intros k. apply record_value_iff. unfold record. rewrite fold_put_entry. reflexivity. }
        assert (GK : forall k, In k (map fst record) <-> exists c, In (k, Some c) es).
        { intros k. split.
          - intros I. destruct (get Z.eqb k record) as [c|] eqn:E.
            + destruct (GV k) as [(i & c' & Hi & Hc & _)|[_ X]]; [|congruence]. exists c'. eapply nth_error_In. exact Hi.
            + apply (get_none _ _ _ z_eqb_spec) in E. contradiction.
          - intros [c I]. destruct (in_dec Z.eq_dec k (map fst record)) as [Y|Y]; [exact Y|]. exfalso.
            apply (get_none _ _ _ z_eqb_spec) in Y. pose proof (GV k) as V. rewrite Y in V.
            destruct V as [(i & c' & _ & X & _)|[X _]]; [discriminate|]. exact (X c I). }
        assert (LN : forall k c, In (k, c) data -> length c = length (map fst acc)).
        { intros k c I. apply COLS in I. apply forall2_len in I. rewrite map_length. congruence. }
        destruct (add_record_spec (length (map fst acc)) record data N LN) as (A & B & C).
        specialize (IH (acc ++ [(t, es)])%list (add_record (length (map fst acc)) record data) (map fst acc ++ [t])%list).
        assert (P1 : (map fst acc ++ [t])%list = map fst (acc ++ [(t, es)])%list) by (rewrite map_app; reflexivity).
        assert (P2 : forall k c, In (k, c) (add_record (length (map fst acc)) record data) ->
                     Forall2 (fun p o => record_value (snd p) k o) (acc ++ [(t, es)])%list c).
        { intros k c I. destruct (B k c I) as (c0 & -> & X). apply forall2_snoc; [|apply GV].
          destruct X as [X|(X & -> & _)]; [apply COLS; exact X|]. rewrite map_length. apply repeat_forall2.
          intros p Ip. right. split; [|reflexivity]. intros c1 Ic. apply X. exact (K1 k p c1 Ip Ic). }
        assert (P3 : forall k p c, In p (acc ++ [(t, es)])%list -> In (k, Some c) (snd p) ->
                     In k (map fst (add_record (length (map fst acc)) record data))).
        { intros k p c I J. apply C. apply in_app_iff in I. destruct I as [I|[<-|[]]].
          - left. exact (K1 k p c I J).
          - right. apply GK. exists c. exact J. }
        assert (P4 : forall k, In k (map fst (add_record (length (map fst acc)) record data)) ->
                     exists p c, In p (acc ++ [(t, es)])%list /\ In (k, Some c) (snd p)).
        { intros k I. apply C in I. destruct I as [I|I].
          - destruct (K2 k I) as (p & c & Ip & Ic). exists p, c. split; [apply in_app_iff; auto|exact Ic].
          - apply GK in I. destruct I as [c I]. exists (t, es), c. split; [apply in_app_iff; right; left; reflexivity|exact I]. }
        specialize (IH P1 A P2 P3 P4).
        destruct (hyytiala_records to_int to_float rs (map fst acc ++ [t])%list (add_record (length (map fst acc)) record data)) as [[t' d']|e].
        -- destruct IH as (X & l & CO & R1 & R2 & R3 & R4).
           rewrite <- app_assoc in R1, R3. cbn [app] in R1, R3. split.
           { intros r' [<-|I]; [rewrite HL; discriminate|auto]. }
           exists ((t, es) :: l). split; [apply collects_take; assumption|]. split; [exact R1|]. split; [exact R2|].
           split; [exact R3|]. intros k. rewrite R4. rewrite <- app_assoc. reflexivity.
        -- destruct IH as (-> & r' & I & E). split; [reflexivity|]. exists r'. split; [right; exact I|exact E].
      * apply SKIP; [rewrite HL; discriminate|]. intros [t es'] [S _]. congruence.
    + destruct e; try contradiction.
      * destruct RT as [NE NF]. apply SKIP; [exact NE|]. intros [t es] [_ (rest & HL & F)]. exact (NF rest es HL F).
      * split; [reflexivity|]. exists r. split; [left; reflexivity|]. exact RT.
Qed.
Lemma hyytiala_correct : forall rs,
  match read_hyytiala to_int to_float rs with
  | Ok (time, data) => (forall r, In r rs -> hr_lines r <> []) /\
      exists l, collects good rs l /\ time = map fst l /\ NoDup (map fst data) /\
      (forall k c, In (k, c) data -> Forall2 (fun p o => record_value (snd p) k o) l c) /\
      (forall k, In k (map fst data) <-> exists p c, In p l /\ In (k, Some c) (snd p))
  | Raise e => e = IndexError /\ exists r, In r rs /\ hr_lines r = []
  end.
Proof.
  intros rs. apply (hyytiala_spec rs [] [] []); try reflexivity; try constructor.
  - intros k c [].
  - intros k p c [].
  - intros k [].
Qed.
End HyProofs.
