(** Proofs about the insect filter around the melting layer. *)
From Verif Require Import Base BitsModel ArrayModel ArraySpec ArrayProofs FillModel FillProofs GridModel GridProofs
  ImageModel ImageSpec ImageProofs ClassifyModel ClassifySpec ClassifyProofs.
Open Scope nat_scope.

Lemma wrap_spec n k i : wrap n k = Some i ->
  i < n /\ ((Z.of_nat i = k) \/ (k < 0 /\ Z.of_nat i = k + Z.of_nat n))%Z.
Proof.
  unfold wrap. destruct (Z.leb_spec 0 k).
  - destruct (Z.ltb_spec k (Z.of_nat n)); [|discriminate]. intros E. injection E as <-. lia.
  - destruct (Z.leb_spec 0 (k + Z.of_nat n)); [|discriminate]. intros E. injection E as <-. lia.
Qed.

Lemma wrap_all_in n ks : forall l, wrap_all n ks = Ok l ->
  forall i, In i l -> exists k, In k ks /\ wrap n k = Some i.
Proof.
  induction ks as [|k ks IH]; cbn [wrap_all]; intros l H i Hi.
  - injection H as <-. destruct Hi.
  - destruct (wrap n k) as [a|] eqn:E; [|discriminate].
    destruct (wrap_all n ks) as [l'|]; [|discriminate]. cbn [bind] in H. injection H as <-.
    destruct Hi as [<-|Hi].
    + exists k. split; [left; reflexivity|exact E].
    + destruct (IH l' eq_refl i Hi) as (k' & Hk & Hw). exists k'. split; [right; exact Hk|exact Hw].
Qed.

Lemma wrap_all_ok n ks : forall l, wrap_all n ks = Ok l -> forall k, In k ks -> (- Z.of_nat n <= k < Z.of_nat n)%Z.
Proof.
  induction ks as [|k ks IH]; cbn [wrap_all]; intros l H x Hx; [destruct Hx|].
  destruct (wrap n k) as [a|] eqn:E; [|discriminate].
  destruct (wrap_all n ks) as [l'|]; [|discriminate].
  destruct Hx as [<-|Hx]; [|apply (IH l' eq_refl x Hx)].
  apply wrap_spec in E. lia.
Qed.

Lemma in_arange a b k : In k (arange a b) <-> (a <= k < b)%Z.
Proof.
  unfold arange. rewrite in_map_iff. split.
  - intros (x & <- & Hx). apply in_seq in Hx. lia.
  - intros H. exists (Z.to_nat (k - a)). split; [lia|]. apply in_seq. lia.
Qed.

Lemma in_slice_indices n y j : 1 <= y -> In j (slice_indices n (Z.of_nat y - 1) (Z.of_nat y + 2)) ->
  y <= S j /\ j <= S y.
Proof.
  intros Hy H. unfold slice_indices, slice_bound in H. apply in_seq in H.
  destruct (Z.ltb_spec (Z.of_nat y - 1) 0); [lia|]. destruct (Z.ltb_spec (Z.of_nat y + 2) 0); lia.
Qed.

Lemma filter_length_le {A} (f : A -> bool) l : length (filter f l) <= length l.
Proof. induction l as [|x l IH]; cbn; [lia|]. destruct (f x); cbn; lia. Qed.

(** Profile [i] is within five profiles of [x], or [x] is one of the first five
    profiles and [i] one of the last five: Python's negative indices. *)
Definition near_or_wrapped (n x i : nat) : Prop :=
  (x <= i + 5 /\ i <= x + 5) \/ (x < 5 /\ x + n <= i + 5).

(** Why a pixel may be changed by the loop, given the insects [o] and melting
    pixels at its start. *)
Definition loop_reason (n : nat) (melt : px -> Prop) (o : image bool) (i j : nat) : Prop :=
  (exists y, melt (i, y) /\ j < y /\ y <= j + 5 /\ set_in o (i, j)) \/
  (exists x y, melt (x, y) /\ j <= S y /\ y <= S j /\ near_or_wrapped n x i /\ x + 5 < n /\ set_in o (i, y)).

Definition changed (c : CategoryBits) : CategoryBits := set_insect false (set_falling true c).
Lemma changed_changed c : changed (changed c) = changed c.
Proof. reflexivity. Qed.

(** [m] is [m1] with some justified changes. *)
Definition justified (R : nat -> nat -> Prop) (m1 m : image CategoryBits) : Prop :=
  shape m = shape m1 /\ forall i j c, pixel m i j = Some c ->
    exists c1, pixel m1 i j = Some c1 /\ (c = c1 \/ (c = changed c1 /\ R i j)).

Lemma justified_refl R m : justified R m m.
Proof. split; [reflexivity|]. intros i j c H. exists c. auto. Qed.

Lemma justified_itf (R : nat -> nat -> Prop) m1 m ps : justified R m1 m ->
  (forall i j, In (i, j) ps -> R i j) -> justified R m1 (insects_to_falling ps m).
Proof.
  intros [Hs H] HR. split; [unfold insects_to_falling; rewrite shape_imapi; exact Hs|].
  intros i j c Hc. unfold insects_to_falling in Hc. rewrite pixel_imapi in Hc.
  destruct (pixel m i j) as [c0|] eqn:E; [|discriminate]. cbn [option_map] in Hc. inv_some Hc.
  destruct (H i j c0 E) as (c1 & H1 & Hc). exists c1. split; [exact H1|]. unfold assign.
  destruct (mem (i, j) ps) eqn:Em; [|exact Hc].
  apply mem_iff in Em. right. split; [|apply HR, Em]. destruct Hc as [->|[-> _]]; reflexivity.
Qed.

Lemma shape_length {A B} (m : image A) (n : image B) : shape m = shape n -> length m = length n.
Proof. unfold shape. intros H. apply (f_equal (@length nat)) in H. rewrite !map_length in H. exact H. Qed.

Lemma filter_at_justified (melt : px -> Prop) o m1 m xy : melt xy ->
  justified (loop_reason (length m1) melt o) m1 m ->
  justified (loop_reason (length m1) melt o) m1 (filter_insects_at o m xy).
Proof.
  destruct xy as [x y]. intros Hm HJ. unfold filter_insects_at. cbv zeta. cbn [fst snd].
  destruct (wrap_all (length (nth x m [])) (arange (Z.of_nat y - 5) (Z.of_nat y))) as [ind1|] eqn:E1; [|exact HJ].
  destruct (Nat.ltb_spec 5 (length (filter falling (firstn y (nth x m []))))) as [H5|H5]; [|exact HJ].
  assert (Hy : 5 < y).
  { pose proof (filter_length_le falling (firstn y (nth x m []))) as Hl.
    pose proof (firstn_le_length y (nth x m [])). lia. }
  set (m' := insects_to_falling _ m).
  assert (HJ' : justified (loop_reason (length m1) melt o) m1 m').
  { apply justified_itf; [exact HJ|]. intros i j Hin. apply in_map_iff in Hin.
    destruct Hin as (k & E & Hk). injection E as <- <-. apply filter_In in Hk. destruct Hk as [Hk Ho].
    destruct (wrap_all_in _ _ _ E1 _ Hk) as (z & Hz & Hw). apply in_arange in Hz. apply wrap_spec in Hw.
    left. exists y. split; [exact Hm|]. split; [lia|]. split; [lia|]. apply get_iff, Ho. }
  assert (Hlen : length m = length m1) by (apply shape_length, HJ).
  destruct (wrap_all (length m) (arange (Z.of_nat x - 5) (Z.of_nat x + 6))) as [rows|] eqn:E2; [|exact HJ'].
  apply justified_itf; [exact HJ'|]. intros i j Hin. apply in_prod_iff in Hin. destruct Hin as [Hi Hj].
  apply filter_In in Hi. destruct Hi as [Hi Ho].
  apply in_slice_indices in Hj; [|lia].
  destruct (wrap_all_in _ _ _ E2 _ Hi) as (z & Hz & Hw). apply in_arange in Hz. apply wrap_spec in Hw.
  assert (Hx : In (Z.of_nat x + 5)%Z (arange (Z.of_nat x - 5) (Z.of_nat x + 6))) by (apply in_arange; lia).
  pose proof (wrap_all_ok _ _ _ E2 _ Hx) as Hb.
  right. exists x, y. split; [exact Hm|]. split; [lia|]. split; [lia|]. split.
  - unfold near_or_wrapped. lia.
  - split; [lia|]. apply get_iff, Ho.
Qed.

Lemma filter_fold_justified (melt : px -> Prop) o m1 l : (forall p, In p l -> melt p) -> forall m,
  justified (loop_reason (length m1) melt o) m1 m ->
  justified (loop_reason (length m1) melt o) m1 (fold_left (filter_insects_at o) l m).
Proof.
  induction l as [|p l IH]; intros Hl m HJ; cbn [fold_left]; [exact HJ|].
  apply IH; [intros q Hq; apply Hl; right; exact Hq|].
  apply filter_at_justified; [apply Hl; left; reflexivity|exact HJ].
Qed.

(** Melting at or below a gate, from the forward fill. *)
Lemma get_ffill_melting m i j c : pixel m i j = Some c ->
  (get (map ffill_bool (meltings m)) i j = true <-> at_or_above m melting i j).
Proof.
  intros Hc. rewrite get_iff. unfold at_or_above, pixel, meltings, imap in *.
  rewrite nth_error_map', nth_error_map'.
  destruct (nth_error m i) as [row|] eqn:E; [|discriminate]. cbn [option_map].
  rewrite ffill_bool_true, map_length. split.
  - intros (Hj & k & Hk & Hm). rewrite nth_error_map' in Hm.
    destruct (nth_error row k) as [c'|] eqn:Ek; [|discriminate]. cbn [option_map] in Hm.
    exists k, c'. split; [exact Hk|]. split; [exact Ek|congruence].
  - intros (k & c' & Hk & Ek & Hm). split; [eapply nth_error_Some_lt; exact Hc|].
    exists k. split; [exact Hk|]. rewrite nth_error_map', Ek. cbn [option_map]. congruence.
Qed.

(** The melting pixels of an image. *)
Definition melting_at (m : image CategoryBits) (p : px) : Prop :=
  exists c, pixel m (fst p) (snd p) = Some c /\ melting c = true.
Definition insect_at (m : image CategoryBits) (i j : nat) : Prop :=
  exists c, pixel m i j = Some c /\ insect c = true.

Lemma filter_insects_changes m i j c' : pixel (filter_insects m) i j = Some c' ->
  exists c, pixel m i j = Some c /\
    (c' = c \/
     (c' = changed c /\
      ((insect c = true /\ at_or_above m melting i j) \/
       (insect c = true /\ exists y, melting_at m (i, y) /\ j < y /\ y <= j + 5) \/
       (exists x y, melting_at m (x, y) /\ j <= S y /\ y <= S j /\ near_or_wrapped (length m) x i /\
          x + 5 < length m /\ insect_at m i y)))).
Proof.
  unfold filter_insects. cbv zeta.
  set (m1 := imapi _ m). intros H.
  assert (Hlen : length m1 = length m) by (apply shape_length; unfold m1; apply shape_imapi).
  assert (Hm1 : forall a b c1, pixel m1 a b = Some c1 -> exists c, pixel m a b = Some c /\
    ((c1 = c /\ ~ (insect c = true /\ at_or_above m melting a b)) \/ (c1 = changed c /\ insect c = true /\ at_or_above m melting a b))).
  { intros a b c1 Hc. unfold m1 in Hc. rewrite pixel_imapi in Hc.
    destruct (pixel m a b) as [c|] eqn:E; [|discriminate]. cbn [option_map] in Hc. inv_some Hc.
    exists c. split; [reflexivity|]. pose proof (get_ffill_melting m a b c E) as Hg. unfold assign.
    destruct (insect c && get (map ffill_bool (meltings m)) a b) eqn:Eb.
    - apply andb_true_iff in Eb. destruct Eb as [Hi Hgt]. right. split; [reflexivity|]. split; [exact Hi|apply Hg, Hgt].
    - left. split; [reflexivity|]. intros [Hi Ha]. apply Hg in Ha. rewrite Hi, Ha in Eb. discriminate. }
  assert (Hins : forall a b, set_in (insects m1) (a, b) -> insect_at m a b).
  { intros a b Hs. unfold set_in, insects in Hs. cbn [fst snd] in Hs. rewrite pixel_imap in Hs.
    destruct (pixel m1 a b) as [c1|] eqn:E; [|discriminate]. cbn [option_map] in Hs.
    assert (Hi : insect c1 = true) by congruence.
    destruct (Hm1 a b c1 E) as (c & Hc & [[-> _]|(-> & _)]); [|discriminate]. exists c. auto. }
  pose proof (filter_fold_justified (melting_at m) (insects m1) m1 (where2 (meltings m1))) as HF.
  assert (Hwhere : forall p, In p (where2 (meltings m1)) -> melting_at m p).
  { intros [a b] Hp. apply in_where2 in Hp. unfold set_in, meltings in Hp. cbn [fst snd] in Hp.
    rewrite pixel_imap in Hp. destruct (pixel m1 a b) as [c1|] eqn:E; [|discriminate]. cbn [option_map] in Hp.
    assert (Hi : melting c1 = true) by congruence.
    destruct (Hm1 a b c1 E) as (c & Hc & [[-> _]|(-> & _)]); exists c; auto. }
  specialize (HF Hwhere m1 (justified_refl _ _)). destruct HF as [_ HF].
  destruct (HF i j c' H) as (c1 & H1 & Hc'). rewrite Hlen in Hc'.
  destruct (Hm1 i j c1 H1) as (c & Hc & Hc1). exists c. split; [exact Hc|].
  destruct Hc1 as [[-> Hno]|(-> & Hi & Ha)].
  - destruct Hc' as [->|[-> Hr]]; [left; reflexivity|]. right. split; [reflexivity|].
    destruct Hr as [(y & Hm & Hj & Hy & Ho)|(x & y & Hm & Hj & Hy & Hn & Hx & Ho)].
    + right. left. apply Hins in Ho. destruct Ho as (c2 & Hc2 & Hi2).
      assert (c2 = c) by congruence. subst c2. split; [exact Hi2|]. eauto.
    + right. right. exists x, y. auto 10.
  - right. split.
    + destruct Hc' as [->|[-> _]]; [reflexivity|apply changed_changed].
    + left. auto.
Qed.

Lemma filter_insects_shape m : shape (filter_insects m) = shape m.
Proof.
  unfold filter_insects. cbv zeta. set (m1 := imapi _ m).
  pose proof (filter_fold_justified (fun _ => True) (insects m1) m1 (where2 (meltings m1)) (fun _ _ => I) m1
    (justified_refl _ _)) as [HF _].
  rewrite HF. unfold m1. apply shape_imapi.
Qed.

(** Insects at or above the melting layer are always removed. *)
Lemma filter_insects_above m i j c c' : pixel m i j = Some c -> insect c = true -> at_or_above m melting i j ->
  pixel (filter_insects m) i j = Some c' -> c' = changed c.
Proof.
  intros Hc Hi Ha. unfold filter_insects. cbv zeta. set (m1 := imapi _ m). intros H.
  pose proof (filter_fold_justified (fun _ => True) (insects m1) m1 (where2 (meltings m1)) (fun _ _ => I) m1
    (justified_refl _ _)) as [_ HF].
  destruct (HF i j c' H) as (c1 & H1 & Hc').
  assert (c1 = changed c).
  { unfold m1 in H1. rewrite pixel_imapi, Hc in H1. cbn [option_map] in H1. inv_some H1.
    apply (get_ffill_melting m i j c Hc) in Ha. rewrite Hi, Ha. reflexivity. }
  subst c1. destruct Hc' as [->|[-> _]]; [reflexivity|apply changed_changed].
Qed.
