(** Proofs about connected components, the filters and dilation. *)
From Verif Require Import Base ArrayModel ArrayProofs ImageModel ImageSpec.
Open Scope nat_scope.

(** ** Generic *)

Lemma px_eqb_iff p q : px_eqb p q = true <-> p = q.
Proof.
  destruct p, q. unfold px_eqb. cbn [fst snd]. rewrite andb_true_iff, !Nat.eqb_eq.
  split; [intros []; congruence|intros H; injection H; auto].
Qed.

Lemma mem_iff p l : mem p l = true <-> In p l.
Proof.
  unfold mem. rewrite existsb_exists. split.
  - intros (q & Hq & E). apply px_eqb_iff in E. subst. exact Hq.
  - intros H. exists p. split; [exact H|]. apply px_eqb_iff. reflexivity.
Qed.

Lemma nth_error_mapi_from {A B} (f : nat -> A -> B) l : forall s i,
  nth_error (mapi_from f s l) i = option_map (f (s + i)) (nth_error l i).
Proof.
  induction l as [|x l IH]; intros s [|i]; cbn [mapi_from nth_error option_map]; auto.
  - rewrite Nat.add_0_r. reflexivity.
  - rewrite IH. replace (s + S i) with (S s + i) by lia. reflexivity.
Qed.

Lemma pixel_imapi {A B} (f : nat -> nat -> A -> B) m i j :
  pixel (imapi f m) i j = option_map (f i j) (pixel m i j).
Proof.
  unfold pixel, imapi. rewrite nth_error_mapi_from. cbn [Nat.add].
  destruct (nth_error m i) as [row|]; cbn [option_map]; [|reflexivity].
  rewrite nth_error_mapi_from. reflexivity.
Qed.

Lemma mapi_from_length {A B} (f : nat -> A -> B) l : forall s, length (mapi_from f s l) = length l.
Proof. induction l as [|x l IH]; intros s; cbn; auto. Qed.

(** Lists of row lengths: the shape of an image. *)
Definition shape {A} (m : image A) : list nat := map (@length A) m.

Lemma shape_imapi {A B} (f : nat -> nat -> A -> B) m : shape (imapi f m) = shape m.
Proof.
  unfold shape, imapi. generalize 0 at 2. induction m as [|r m IH]; intros s; cbn; [reflexivity|].
  rewrite mapi_from_length, IH. reflexivity.
Qed.

Lemma shape_imap {A B} (f : A -> B) m : shape (imap f m) = shape m.
Proof. unfold shape, imap. rewrite map_map. apply map_ext. intros r. apply map_length. Qed.

Lemma image_ext {A} (m n : image A) : shape m = shape n ->
  (forall i j, pixel m i j = pixel n i j) -> m = n.
Proof.
  intros Hs H. apply nth_error_ext. intros i.
  assert (Hl : nth_error (shape m) i = nth_error (shape n) i) by (rewrite Hs; reflexivity).
  unfold shape in Hl. rewrite !nth_error_map' in Hl.
  specialize (fun j => H i j). unfold pixel in H.
  destruct (nth_error m i) as [r|], (nth_error n i) as [r'|]; cbn in Hl; try discriminate; [|reflexivity].
  f_equal. apply nth_error_ext. exact H.
Qed.

Lemma in_where_from l : forall s j, In j (where_from s l) <-> s <= j /\ nth_error l (j - s) = Some true.
Proof.
  induction l as [|b l IH]; intros s j; cbn [where_from].
  - split; [intros []|]. intros [_ H]. destruct (j - s); discriminate.
  - rewrite in_app_iff, IH. split.
    + intros [H|[H1 H2]].
      * destruct b; [|destruct H]. destruct H as [->|[]]. split; [lia|]. rewrite Nat.sub_diag. reflexivity.
      * split; [lia|]. replace (j - s) with (S (j - S s)) by lia. exact H2.
    + intros [H1 H2]. destruct (Nat.eq_dec j s) as [->|Hne].
      * rewrite Nat.sub_diag in H2. cbn in H2. injection H2 as ->. left. left. reflexivity.
      * right. split; [lia|]. replace (j - s) with (S (j - S s)) in H2 by lia. exact H2.
Qed.

Lemma in_where2_from m : forall s i j, In (i, j) (where2_from s m) <->
  s <= i /\ pixel m (i - s) j = Some true.
Proof.
  induction m as [|r m IH]; intros s i j; cbn [where2_from].
  - split; [intros []|]. intros [_ H]. unfold pixel in H. destruct (i - s); discriminate.
  - rewrite in_app_iff, IH, in_map_iff. split.
    + intros [(k & E & H)|[H1 H2]].
      * injection E as -> ->. apply in_where_from in H. destruct H as [_ H]. rewrite Nat.sub_0_r in H.
        split; [lia|]. rewrite Nat.sub_diag. exact H.
      * split; [lia|]. replace (i - s) with (S (i - S s)) by lia. exact H2.
    + intros [H1 H2]. destruct (Nat.eq_dec i s) as [->|Hne].
      * rewrite Nat.sub_diag in H2. left. exists j. split; [reflexivity|].
        apply in_where_from. split; [lia|]. rewrite Nat.sub_0_r. exact H2.
      * right. split; [lia|]. replace (i - s) with (S (i - S s)) in H2 by lia. exact H2.
Qed.

Lemma in_where2 m p : In p (where2 m) <-> set_in m p.
Proof.
  destruct p as [i j]. unfold where2, set_in. rewrite in_where2_from, Nat.sub_0_r. cbn [fst snd].
  split; [intros []; auto|intros; split; [lia|auto]].
Qed.

Lemma nodup_where_from l : forall s, NoDup (where_from s l).
Proof.
  induction l as [|b l IH]; intros s; cbn [where_from]; [constructor|].
  destruct b; cbn [app]; [|apply IH]. constructor; [|apply IH].
  rewrite in_where_from. lia.
Qed.

Lemma nodup_app {A} (l1 l2 : list A) : NoDup l1 -> NoDup l2 ->
  (forall x, In x l1 -> ~ In x l2) -> NoDup (l1 ++ l2).
Proof.
  induction l1 as [|a l1 IH]; intros H1 H2 H; cbn; [exact H2|].
  inversion H1; subst. constructor.
  - rewrite in_app_iff. intros [?|?]; [auto|]. apply (H a); [left; reflexivity|assumption].
  - apply IH; auto. intros x Hx. apply H. right. exact Hx.
Qed.

Lemma nodup_where2_from m : forall s, NoDup (where2_from s m).
Proof.
  induction m as [|r m IH]; intros s; cbn [where2_from]; [constructor|].
  apply nodup_app.
  - apply FinFun.Injective_map_NoDup; [|apply nodup_where_from]. intros x y E. injection E. auto.
  - apply IH.
  - intros [i j] H H'. apply in_map_iff in H. destruct H as (k & E & _). injection E as <- <-.
    apply in_where2_from in H'. lia.
Qed.

Lemma nodup_where2 m : NoDup (where2 m).
Proof. apply nodup_where2_from. Qed.

Lemma nodup1 (p : px) : NoDup [p].
Proof. constructor; [intros []|constructor]. Qed.

(** ** Flood fill *)
Section Flood.
  Variables (nb : px -> px -> bool) (set : list px).

  Lemma in_grow q acc : In q (grow nb set acc) <->
    In q set /\ (In q acc \/ exists r, In r acc /\ nb q r = true).
  Proof.
    unfold grow. rewrite filter_In, orb_true_iff, mem_iff, existsb_exists. reflexivity.
  Qed.

  Lemma grow_incl acc : incl acc set -> incl acc (grow nb set acc).
  Proof. intros H q Hq. apply in_grow. auto. Qed.

  Lemma flood_incl_set fuel : forall acc, incl acc set -> incl (flood nb set fuel acc) set.
  Proof.
    induction fuel as [|f IH]; intros acc H; cbn [flood]; [exact H|].
    apply IH. intros q Hq. apply in_grow in Hq. tauto.
  Qed.

  Lemma flood_acc fuel : forall acc, incl acc set -> incl acc (flood nb set fuel acc).
  Proof.
    induction fuel as [|f IH]; intros acc H; cbn [flood]; [apply incl_refl|].
    intros q Hq. apply IH.
    - intros r Hr. apply in_grow in Hr. tauto.
    - apply grow_incl; assumption.
  Qed.

  Lemma nodup_grow acc : NoDup set -> NoDup (grow nb set acc).
  Proof. apply NoDup_filter. Qed.

  Lemma flood_nodup fuel : forall acc, NoDup set -> NoDup acc -> NoDup (flood nb set fuel acc).
  Proof.
    induction fuel as [|f IH]; intros acc Hs H; cbn [flood]; [exact H|].
    apply IH; auto. apply nodup_grow; auto.
  Qed.

  Definition closed (acc : list px) : Prop :=
    forall q r, In r acc -> nb q r = true -> In q set -> In q acc.

  Lemma grow_closed acc : closed acc -> closed (grow nb set acc).
  Proof.
    intros H q r Hr Hn Hq. apply in_grow. split; [exact Hq|].
    left. apply in_grow in Hr. destruct Hr as [Hs [Hr|(t & Ht & Hn')]].
    - exact (H q r Hr Hn Hq).
    - exact (H q r (H r t Ht Hn' Hs) Hn Hq).
  Qed.

  Lemma flood_closed_from fuel : forall acc, closed acc -> closed (flood nb set fuel acc).
  Proof. induction fuel as [|f IH]; intros acc H; cbn [flood]; [exact H|]. apply IH, grow_closed, H. Qed.

  Lemma closed_or_grows acc : NoDup set -> NoDup acc -> incl acc set ->
    closed acc \/ S (length acc) <= length (grow nb set acc).
  Proof.
    intros Hs Ha Hi.
    destruct (le_lt_dec (length (grow nb set acc)) (length acc)) as [H|H]; [left|right; lia].
    assert (Hincl : incl (grow nb set acc) acc).
    { apply NoDup_length_incl; [exact Ha|exact H|]. apply grow_incl, Hi. }
    intros q r Hr Hn Hq. apply Hincl. apply in_grow. split; [exact Hq|]. right. eauto.
  Qed.

  Lemma flood_closed fuel : forall acc, NoDup set -> NoDup acc -> incl acc set ->
    length set <= fuel + length acc -> closed (flood nb set fuel acc).
  Proof.
    induction fuel as [|f IH]; intros acc Hs Ha Hi Hl; cbn [flood].
    - assert (Hincl : incl set acc) by (apply NoDup_length_incl; auto).
      intros q r _ _ Hq. apply Hincl, Hq.
    - destruct (closed_or_grows acc Hs Ha Hi) as [H|H].
      + apply flood_closed_from, grow_closed, H.
      + apply IH; auto; [apply nodup_grow; auto| |lia].
        intros q Hq. apply in_grow in Hq. tauto.
  Qed.

  (** Everything in the flood can be reached. *)
  Lemma flood_reach (P : px -> Prop) fuel : forall acc,
    (forall q, In q acc -> P q) -> (forall q r, P r -> nb q r = true -> In q set -> P q) ->
    forall q, In q (flood nb set fuel acc) -> P q.
  Proof.
    induction fuel as [|f IH]; intros acc Ha Hs; cbn [flood]; [exact Ha|].
    apply IH; [|exact Hs]. intros q Hq. apply in_grow in Hq.
    destruct Hq as [Hq [H|(r & Hr & Hn)]]; [auto|]. apply (Hs q r); auto.
  Qed.
End Flood.

(** ** Regions *)
Section Regions.
  Variables (nb : px -> px -> bool) (next : px -> px -> Prop) (m : image bool).
  Hypothesis nb_next : forall p q, nb p q = true <-> next p q.
  Hypothesis next_sym : forall p q, next p q -> next q p.

  Lemma walk_set p q : walk next m p q -> set_in m p /\ set_in m q.
  Proof. induction 1; [auto|]. destruct IHwalk. auto. Qed.

  Lemma walk_trans p q r : walk next m p q -> walk next m q r -> walk next m p r.
  Proof.
    intros H1 H2. induction H2 as [q Hq|q s t H IH Hn Ht]; [exact H1|].
    apply walk_step with s; [apply IH, H1|exact Hn|exact Ht].
  Qed.

  Lemma walk_sym p q : walk next m p q -> walk next m q p.
  Proof.
    induction 1 as [p Hp|p q r H IH Hn Hr].
    - apply walk_here, Hp.
    - apply walk_trans with q; [|exact IH]. apply walk_step with r; [apply walk_here, Hr|auto|].
      apply (walk_set p q H).
  Qed.

  Lemma region_iff p : set_in m p -> forall q,
    In q (flood nb (where2 m) (length (where2 m)) [p]) <-> walk next m p q.
  Proof.
    intros Hp q. split.
    - apply flood_reach.
      + intros r [<-|[]]. apply walk_here, Hp.
      + intros r s Hs Hn Hr. apply walk_step with s; [exact Hs| |apply in_where2, Hr].
        apply next_sym, nb_next, Hn.
    - assert (Hi : incl [p] (where2 m)) by (intros r [<-|[]]; apply in_where2, Hp).
      assert (Hc : closed nb (where2 m) (flood nb (where2 m) (length (where2 m)) [p])).
      { apply flood_closed; [apply nodup_where2|apply nodup1|exact Hi|apply Nat.le_add_r]. }
      intros H. induction H as [p Hp'|p q r H IH Hn Hr].
      + apply flood_acc; [exact Hi|left; reflexivity].
      + apply (Hc r q); [apply IH; auto|apply nb_next, next_sym, Hn|apply in_where2, Hr].
  Qed.

  Definition is_region (r : list px) : Prop :=
    NoDup r /\ exists p, set_in m p /\ forall q, In q r <-> walk next m p q.

  Lemma label_from_regions fuel : forall todo, incl todo (where2 m) ->
    Forall is_region (label_from nb (where2 m) todo fuel).
  Proof.
    induction fuel as [|f IH]; intros todo Hi; cbn [label_from]; [constructor|].
    destruct todo as [|p todo]; [constructor|].
    assert (Hp : set_in m p) by (apply in_where2, Hi; left; reflexivity).
    constructor.
    - split.
      + apply flood_nodup; [apply nodup_where2|apply nodup1].
      + exists p. split; [exact Hp|]. apply region_iff, Hp.
    - apply IH. intros q Hq. apply filter_In in Hq. apply Hi, Hq.
  Qed.

  Lemma label_from_cover fuel : forall todo, incl todo (where2 m) -> length todo <= fuel ->
    forall q, In q todo -> exists r, In r (label_from nb (where2 m) todo fuel) /\ In q r.
  Proof.
    induction fuel as [|f IH]; intros todo Hi Hl q Hq.
    - destruct todo; [destruct Hq|cbn in Hl; lia].
    - cbn [label_from]. destruct todo as [|p todo]; [destruct Hq|].
      assert (Hp : set_in m p) by (apply in_where2, Hi; left; reflexivity).
      set (region := flood nb (where2 m) (length (where2 m)) [p]) in *.
      assert (Hpr : In p region) by (apply region_iff, walk_here; auto).
      destruct (mem q region) eqn:Em.
      + exists region. split; [left; reflexivity|apply mem_iff, Em].
      + destruct (IH (filter (fun q => negb (mem q region)) (p :: todo))) with (q := q) as (r & Hr & Hqr).
        * intros x Hx. apply filter_In in Hx. apply Hi, Hx.
        * cbn [filter]. apply mem_iff in Hpr. rewrite Hpr. cbn [negb].
          assert (Hle : forall g (l : list px), length (filter g l) <= length l).
          { intros g l. induction l as [|x l IHl]; cbn; [lia|]. destruct (g x); cbn; lia. }
          cbn [length] in Hl. specialize (Hle (fun q => negb (mem q region)) todo).
          apply Nat.le_trans with (length todo); [exact Hle|]. apply le_S_n, Hl.
        * apply filter_In. rewrite Em. auto.
        * exists r. split; [right; exact Hr|exact Hqr].
  Qed.

  Lemma label_at_spec regions p : 
    (label_at regions p = 0 /\ forall r, In r regions -> ~ In p r) \/
    (exists k r, label_at regions p = S k /\ nth_error regions k = Some r /\ In p r).
  Proof.
    induction regions as [|r rest IH]; cbn [label_at].
    - left. split; [reflexivity|intros r []].
    - destruct (mem p r) eqn:Em.
      + right. exists 0, r. split; [reflexivity|]. split; [reflexivity|apply mem_iff, Em].
      + assert (Hn : ~ In p r) by (intros H; apply mem_iff in H; congruence).
        destruct IH as [[-> H]|(k & r' & -> & H & Hin)].
        * left. split; [reflexivity|]. intros r' [<-|Hr']; auto.
        * right. exists (S k), r'. auto.
  Qed.

  (** What the label of a pixel says. *)
  Lemma label_meaning p :
    (label_at (label_regions nb m) p = 0 /\ ~ set_in m p) \/
    (exists k r, label_at (label_regions nb m) p = S k /\ nth_error (label_regions nb m) k = Some r /\
       NoDup r /\ set_in m p /\ forall q, In q r <-> walk next m p q).
  Proof.
    destruct (label_at_spec (label_regions nb m) p) as [[H Hn]|(k & r & H & Hk & Hin)].
    - left. split; [exact H|]. intros Hp.
      destruct (label_from_cover (length (where2 m)) (where2 m)) with (q := p) as (r & Hr & Hpr).
      + apply incl_refl.
      + lia.
      + apply in_where2, Hp.
      + apply (Hn r Hr Hpr).
    - right. exists k, r. split; [exact H|]. split; [exact Hk|].
      pose proof (label_from_regions (length (where2 m)) (where2 m) (incl_refl _)) as HF.
      rewrite Forall_forall in HF. destruct (HF r) as (Hnd & s & Hs & Hw).
      { apply nth_error_In with k, Hk. }
      split; [exact Hnd|]. assert (Hsp : walk next m s p) by (apply Hw, Hin).
      split; [apply (walk_set s p Hsp)|]. intros q. rewrite Hw. split; intros H'.
      + apply walk_trans with s; [apply walk_sym, Hsp|exact H'].
      + apply walk_trans with p; [exact Hsp|exact H'].
  Qed.
End Regions.

(** ** Structuring elements *)

Lemma cross_iff p q : cross p q = true <-> edge_next p q.
Proof.
  destruct p as [a b], q as [c d]. unfold cross, edge_next, adiff. cbn [fst snd].
  rewrite Nat.eqb_eq. lia.
Qed.
Lemma edge_next_sym p q : edge_next p q -> edge_next q p.
Proof. unfold edge_next. lia. Qed.
Lemma square_iff p q : square p q = true <-> around p q.
Proof.
  destruct p as [a b], q as [c d]. unfold square, around, adiff. cbn [fst snd].
  rewrite Nat.eqb_eq. split.
  - intros H. split; [intros E; injection E as -> ->; lia|lia].
  - intros [H H']. assert (a <> c \/ b <> d).
    { destruct (Nat.eq_dec a c) as [->|]; [|auto]. destruct (Nat.eq_dec b d) as [->|]; [|auto].
      exfalso. apply H. reflexivity. }
    lia.
Qed.
Lemma around_sym p q : around p q -> around q p.
Proof. unfold around. intros (H & H'). split; [auto|lia]. Qed.
Lemma along_time_iff p q : along_time p q = true <-> beside p q.
Proof.
  destruct p as [a b], q as [c d]. unfold along_time, beside, adiff. cbn [fst snd].
  rewrite andb_true_iff, !Nat.eqb_eq. lia.
Qed.
Lemma beside_sym p q : beside p q -> beside q p.
Proof. unfold beside. lia. Qed.

(** ** remove_small_objects *)

Lemma in_keep_labels sizes max k :
  existsb (Nat.eqb k) (map S (where1 (map (fun s => (max <? s)%Z) sizes))) = true <->
  exists k' s, k = S k' /\ nth_error sizes k' = Some s /\ (max < s)%Z.
Proof.
  rewrite existsb_exists. split.
  - intros (x & Hx & E). apply Nat.eqb_eq in E. subst x. apply in_map_iff in Hx.
    destruct Hx as (k' & <- & Hk). apply in_where_from in Hk. destruct Hk as [_ Hk].
    rewrite Nat.sub_0_r, nth_error_map' in Hk.
    destruct (nth_error sizes k') as [s|] eqn:E; [|discriminate]. cbn in Hk.
    assert ((max <? s)%Z = true) by congruence.
    exists k', s. split; [reflexivity|]. split; [exact E|]. apply Z.ltb_lt. assumption.
  - intros (k' & s & -> & Hs & Hlt). exists (S k'). split; [|apply Nat.eqb_refl].
    apply in_map. apply in_where_from. split; [lia|].
    rewrite Nat.sub_0_r, nth_error_map', Hs. cbn. f_equal. apply Z.ltb_lt. exact Hlt.
Qed.

Lemma remove_small_shape m max : shape (remove_small_objects m max) = shape m.
Proof. unfold remove_small_objects, label_image. rewrite shape_imap, shape_imapi. reflexivity. Qed.

Lemma remove_small_pixel m max i j b : pixel (remove_small_objects m max) i j = Some b ->
  (exists b0, pixel m i j = Some b0) /\
  (b = true <-> pixel m i j = Some true /\ cloud_larger m max (i, j)).
Proof.
  intros H. unfold remove_small_objects, label_image in H. rewrite pixel_imap, pixel_imapi in H.
  destruct (pixel m i j) as [b0|] eqn:E; [|discriminate]. cbn [option_map] in H.
  split; [eauto|].
  assert (Hb : b = existsb (Nat.eqb (label_at (label_regions cross m) (i, j)))
    (map S (where1 (map (fun s => (max <? s)%Z) (map (fun r => Z.of_nat (length r)) (label_regions cross m))))))
    by congruence. clear H. rewrite Hb, in_keep_labels. clear Hb.
  destruct (label_meaning cross edge_next m cross_iff edge_next_sym (i, j))
    as [[Hl Hn]|(k & r & Hl & Hk & Hnd & Hset & Hw)].
  - rewrite Hl. split.
    + intros (k' & s & H & _). discriminate.
    + intros [H _]. exfalso. apply Hn. unfold set_in. cbn [fst snd]. rewrite E. exact H.
  - rewrite Hl. split.
    + intros (k' & s & Hkk & Hs & Hlt). assert (k' = k) by lia. subst k'.
      rewrite nth_error_map', Hk in Hs. cbn in Hs. assert (s = Z.of_nat (length r)) by congruence. subst s.
      split; [unfold set_in in Hset; cbn [fst snd] in Hset; congruence|].
      exists r. split; [exact Hnd|]. split; [|exact Hlt]. intros q. apply Hw.
    + intros (_ & l & Hnl & Hlw & Hlt). exists k, (Z.of_nat (length r)). split; [reflexivity|].
      split; [rewrite nth_error_map', Hk; reflexivity|].
      assert (length l <= length r); [|lia]. apply NoDup_incl_length; [exact Hnl|].
      intros q Hq. apply Hw, Hlw, Hq.
Qed.

Lemma remove_small_total m max i j b0 : pixel m i j = Some b0 ->
  exists b, pixel (remove_small_objects m max) i j = Some b.
Proof.
  intros H. unfold remove_small_objects, label_image. rewrite pixel_imap, pixel_imapi, H.
  cbn [option_map]. eauto.
Qed.

Lemma remove_small_set m max p : set_in (remove_small_objects m max) p <->
  set_in m p /\ cloud_larger m max p.
Proof.
  destruct p as [i j]. unfold set_in at 1 2. cbn [fst snd]. split.
  - intros H. apply (remove_small_pixel m max i j true) in H. tauto.
  - intros [H Hc]. destruct (remove_small_total m max i j true H) as [b Hb].
    rewrite Hb. f_equal. apply (remove_small_pixel m max i j b) in Hb. tauto.
Qed.

Lemma cloud_larger_walk m max p q : walk edge_next m p q -> cloud_larger m max p -> cloud_larger m max q.
Proof.
  intros Hw (l & Hn & Hl & Hlt). exists l. split; [exact Hn|]. split; [|exact Hlt].
  intros r Hr. apply walk_trans with p; [|apply Hl, Hr]. apply walk_sym; [apply edge_next_sym|exact Hw].
Qed.

Lemma remove_small_walk m max p q : cloud_larger m max p -> walk edge_next m p q ->
  walk edge_next (remove_small_objects m max) p q.
Proof.
  intros Hc H. induction H as [p Hp|p q r H IH Hn Hr].
  - apply walk_here. apply remove_small_set. auto.
  - apply walk_step with q; [apply IH, Hc|exact Hn|]. apply remove_small_set. split; [exact Hr|].
    apply cloud_larger_walk with p; [|exact Hc]. apply walk_step with q; auto.
Qed.

Lemma remove_small_idempotent m max :
  remove_small_objects (remove_small_objects m max) max = remove_small_objects m max.
Proof.
  apply image_ext; [apply remove_small_shape|]. intros i j.
  destruct (pixel (remove_small_objects (remove_small_objects m max) max) i j) as [b|] eqn:E.
  - destruct (remove_small_pixel _ _ _ _ _ E) as [[b0 H0] Hb]. rewrite H0. f_equal.
    rewrite H0 in Hb.
    destruct b0.
    + apply Hb. split; [reflexivity|].
      destruct (proj1 (remove_small_set m max (i, j)) H0) as [Hs Hc].
      destruct Hc as (l & Hn & Hl & Hlt). exists l. split; [exact Hn|]. split; [|exact Hlt].
      intros q Hq. apply remove_small_walk; [exists l; auto|apply Hl, Hq].
    + destruct b; [|reflexivity]. destruct Hb as [Hb _]. destruct (Hb eq_refl). discriminate.
  - destruct (pixel (remove_small_objects m max) i j) as [b|] eqn:E'; [|reflexivity].
    destruct (remove_small_total _ max _ _ _ E') as [b' Hb']. congruence.
Qed.

(** ** Singleton filters *)

Lemma filter_singletons_pixel nb next m :
  (forall p q, nb p q = true <-> next p q) -> (forall p q, next p q -> next q p) ->
  (forall p, ~ next p p) ->
  forall i j b, pixel (filter_singletons nb m) i j = Some b ->
  (exists b0, pixel m i j = Some b0) /\
  (b = true <-> pixel m i j = Some true /\ exists q, next (i, j) q /\ set_in m q).
Proof.
  intros Hnb Hsym Hirr i j b H. unfold filter_singletons, label_image in H.
  rewrite pixel_imapi in H.
  destruct (pixel m i j) as [b0|] eqn:E; [|discriminate]. cbn [option_map] in H.
  rewrite pixel_imapi, E in H. cbn [option_map] in H. split; [eauto|].
  assert (Hb : b = assign (nth (label_at (label_regions nb m) (i, j))
     (map (Nat.eqb 1) (0 :: map (@length px) (label_regions nb m))) false) false b0) by congruence.
  clear H. subst b.
  destruct (label_meaning nb next m Hnb Hsym (i, j)) as [[Hl Hn]|(k & r & Hl & Hk & Hnd & Hset & Hw)].
  - rewrite Hl. cbn [map nth Nat.eqb assign].
    assert (b0 <> true).
    { intros ->. apply Hn. unfold set_in. cbn [fst snd]. exact E. }
    split; [intros ->; congruence|]. intros [H' _]. congruence.
  - unfold set_in in Hset. cbn [fst snd] in Hset. assert (b0 = true) by congruence. subst b0.
    rewrite Hl. cbn [map nth].
    rewrite (nth_error_nth (map (Nat.eqb 1) (map (@length px) (label_regions nb m))) k false
               (x := Nat.eqb 1 (length r))).
    2:{ rewrite !nth_error_map', Hk. reflexivity. }
    assert (Hself : In (i, j) r) by (apply Hw, walk_here; exact Hset).
    destruct (Nat.eqb_spec 1 (length r)) as [H1|H1]; cbn [assign].
    + split; [discriminate|]. intros (_ & q & Hq & Hqs).
      assert (Hqr : In q r).
      { apply Hw. apply walk_step with (i, j); [apply walk_here; exact Hset|exact Hq|exact Hqs]. }
      destruct r as [|x [|y r]]; cbn in H1; try lia.
      destruct Hself as [Hx|[]]. destruct Hqr as [Hy|[]]. exfalso. apply (Hirr (i, j)). rewrite <- Hx at 1. rewrite Hy. apply Hsym, Hq.
    + split; [|reflexivity]. intros _. split; [reflexivity|].
      assert (Hex : exists x, In x r /\ x <> (i, j)).
      { destruct r as [|x [|y r]]; [destruct Hself|cbn in H1; lia|].
        destruct (px_eqb x (i, j)) eqn:Ex.
        - apply px_eqb_iff in Ex. exists y. split; [right; left; reflexivity|].
          inversion Hnd; subst. intros ->. apply H2. left. reflexivity.
        - exists x. split; [left; reflexivity|]. intros ->.
          assert (px_eqb (i, j) (i, j) = true) by (apply px_eqb_iff; reflexivity). congruence. }
      destruct Hex as (x & Hx & Hne). apply Hw in Hx. apply walk_sym in Hx; [|exact Hsym].
      inversion Hx as [p Hp|p q t Hpq Hqt Ht]; subst; [congruence|].
      exists q. split; [apply Hsym, Hqt|apply (walk_set next m x q Hpq)].
Qed.

Lemma filter_singletons_total nb m i j b0 : pixel m i j = Some b0 ->
  exists b, pixel (filter_singletons nb m) i j = Some b.
Proof. intros H. unfold filter_singletons. rewrite pixel_imapi, H. cbn [option_map]. eauto. Qed.

Lemma around_irr p : ~ around p p.
Proof. intros [H _]. congruence. Qed.
Lemma beside_irr p : ~ beside p p.
Proof. unfold beside. lia. Qed.

(** ** Dilation *)

Lemma get_iff m i j : get m i j = true <-> pixel m i j = Some true.
Proof. unfold get. destruct (pixel m i j) as [[]|]; split; congruence. Qed.

Lemma dilate1_pixel m i j b : pixel (dilate1 m) i j = Some b ->
  (b = true <-> exists q, set_in m q /\ (q = (i, j) \/ edge_next q (i, j))).
Proof.
  unfold dilate1. rewrite pixel_imapi. destruct (pixel m i j) as [b0|] eqn:E; [|discriminate].
  cbn [option_map]. intros H.
  match type of H with Some ?x = _ => assert (Hb : b = x) by congruence end. clear H. subst b.
  rewrite !orb_true_iff, !get_iff. split.
  - intros [[[[H|H]|H]|H]|H].
    + subst b0. exists (i, j). split; [exact E|left; reflexivity].
    + exists (S i, j). split; [exact H|right; unfold edge_next; cbn; lia].
    + exists (i, S j). split; [exact H|right; unfold edge_next; cbn; lia].
    + destruct i as [|i']; [discriminate|]. apply get_iff in H. exists (i', j).
      split; [exact H|right; unfold edge_next; cbn; lia].
    + destruct j as [|j']; [discriminate|]. apply get_iff in H. exists (i, j').
      split; [exact H|right; unfold edge_next; cbn; lia].
  - intros ([a c] & Hq & [Heq|Hn]).
    + injection Heq as -> ->. unfold set_in in Hq. cbn [fst snd] in Hq. do 4 left. congruence.
    + unfold set_in in Hq. unfold edge_next in Hn. cbn [fst snd] in Hq, Hn.
      destruct Hn as [[-> [->| ->]]|[-> [->| ->]]].
      * left; left; right. exact Hq.
      * right. apply get_iff. exact Hq.
      * left; left; left; right. exact Hq.
      * left; right. apply get_iff. exact Hq.
Qed.

Lemma dilate1_shape m : shape (dilate1 m) = shape m.
Proof. apply shape_imapi. Qed.
Lemma dilate_shape n : forall m, shape (dilate n m) = shape m.
Proof. induction n as [|n IH]; intros m; cbn [dilate]; [reflexivity|]. rewrite IH. apply dilate1_shape. Qed.
