(** Proofs about falling hydrometeors and liquid layers seen by the radar. *)
From Verif Require Import Base BitsModel ArrayModel ArraySpec ArrayProofs FillModel FillProofs GridModel GridProofs
  ImageModel ImageSpec ImageProofs ClassifyModel ClassifySpec ClassifyProofs.
Open Scope nat_scope.

Lemma nth_nth_error {A} (m : list (list A)) i j : nth_error (nth i m []) j = pixel m i j.
Proof.
  unfold pixel. destruct (nth_error m i) as [r|] eqn:E.
  - rewrite (nth_error_nth m i [] E). reflexivity.
  - rewrite nth_overflow; [destruct j; reflexivity|]. apply nth_error_None, E.
Qed.

(** ** Layers with increasing echo *)

Lemma compressed_app l1 l2 : compressed (l1 ++ l2) = compressed l1 ++ compressed l2.
Proof. induction l1 as [|[x|] l1 IH]; cbn; [reflexivity| |]; rewrite IH; reflexivity. Qed.

Definition all_masked (l : list (masked Q)) : Prop := Forall (fun x => x = None) l.

Lemma compressed_all_masked l : all_masked l -> compressed l = [].
Proof. induction 1 as [|x l Hx H IH]; cbn; [reflexivity|]. subst x. exact IH. Qed.

Lemma compressed_nil l : compressed l = [] -> all_masked l.
Proof.
  induction l as [|[x|] l IH]; cbn; intros H; [constructor|discriminate|]. constructor; [reflexivity|apply IH, H].
Qed.

Lemma compressed_cons l : forall x r, compressed l = x :: r ->
  exists l1 l2, l = l1 ++ Some x :: l2 /\ all_masked l1 /\ compressed l2 = r.
Proof.
  induction l as [|[y|] l IH]; cbn; intros x r H; [discriminate| |].
  - injection H as Hx Hr. subst y r. exists [], l. split; [reflexivity|]. split; [constructor|reflexivity].
  - destruct (IH x r H) as (l1 & l2 & -> & Hm & Hr). exists (None :: l1), l2.
    split; [reflexivity|]. split; [constructor; auto|exact Hr].
Qed.

Lemma compressed_snoc l : forall r y, compressed l = r ++ [y] ->
  exists l1 l2, l = l1 ++ Some y :: l2 /\ all_masked l2 /\ compressed l1 = r.
Proof.
  induction l as [|x l IH]; intros r y H.
  - destruct r; discriminate.
  - destruct x as [x|]; cbn in H.
    + destruct r as [|z r]; cbn in H.
      * injection H as Hx H. subst x. exists [], l. split; [reflexivity|]. split; [apply compressed_nil, H|reflexivity].
      * injection H as Hx H. subst x. destruct (IH r y H) as (l1 & l2 & -> & Hm & Hr).
        exists (Some z :: l1), l2. split; [reflexivity|]. split; [exact Hm|]. cbn. rewrite Hr. reflexivity.
    + destruct (IH r y H) as (l1 & l2 & -> & Hm & Hr).
      exists (None :: l1), l2. split; [reflexivity|]. split; [exact Hm|exact Hr].
Qed.

Lemma all_masked_nth l : all_masked l <-> forall k, k < length l -> nth_error l k = Some None.
Proof.
  split.
  - intros H k Hk. destruct (nth_error_lt_Some l k Hk) as [x Hx]. rewrite Hx. f_equal.
    unfold all_masked in H. rewrite Forall_forall in H. apply H. eapply nth_error_In, Hx.
  - intros H. apply Forall_forall. intros x Hx. apply In_nth_error in Hx. destruct Hx as [k Hk].
    specialize (H k (nth_error_Some_lt _ _ _ Hk)).
    assert (E : Some x = Some None) by (rewrite <- Hk; exact H). injection E as ->. reflexivity.
Qed.

Definition increasing_echo (l : list (masked Q)) : Prop :=
  exists p q x y, p < q /\ nth_error l p = Some (Some x) /\ nth_error l q = Some (Some y) /\ (x < y)%Q /\
    (forall k, k < p -> nth_error l k = Some None) /\
    (forall k, q < k -> k < length l -> nth_error l k = Some None).

Lemma increasing_iff l :
  (if 1 <? length (compressed l) then qlt (hd 0%Q (compressed l)) (last (compressed l) 0%Q) else false) = true
  <-> increasing_echo l.
Proof.
  split.
  - destruct (Nat.ltb_spec 1 (length (compressed l))) as [Hl|]; [|discriminate]. intros Hlt.
    destruct (compressed l) as [|x r] eqn:Ec; [cbn in Hl; lia|].
    assert (Hr : r <> []) by (intros ->; cbn in Hl; lia).
    destruct (exists_last Hr) as (r' & y & ->).
    destruct (compressed_cons l x (r' ++ [y]) Ec) as (l1 & l2 & -> & Hm1 & H2).
    destruct (compressed_snoc l2 r' y H2) as (l3 & l4 & -> & Hm4 & H3).
    rewrite app_comm_cons, last_last in Hlt. cbn [hd app] in Hlt. apply qlt_iff in Hlt.
    exists (length l1), (length l1 + S (length l3)), x, y. split; [lia|]. split; [|split; [|split; [|split]]].
    + rewrite nth_error_app2, Nat.sub_diag by lia. reflexivity.
    + rewrite nth_error_app2 by lia. replace (_ + _ - _) with (S (length l3)) by lia. cbn [nth_error].
      rewrite nth_error_app2, Nat.sub_diag by lia. reflexivity.
    + exact Hlt.
    + intros k Hk. rewrite nth_error_app1 by exact Hk. apply all_masked_nth; assumption.
    + intros k Hk Hkl. rewrite nth_error_app2 by lia.
      replace (k - length l1) with (S (k - length l1 - 1)) by lia. cbn [nth_error].
      rewrite nth_error_app2 by lia.
      replace (k - length l1 - 1 - length l3) with (S (k - length l1 - 1 - length l3 - 1)) by lia. cbn [nth_error].
      apply all_masked_nth; [exact Hm4|]. rewrite app_length in Hkl. cbn [length] in Hkl.
      rewrite app_length in Hkl. cbn [length] in Hkl. lia.
  - intros (p & q & x & y & Hpq & Hp & Hq & Hlt & Hb & Ha).
    destruct (nth_error_split l p Hp) as (l1 & l2 & -> & Hl1).
    rewrite nth_error_app2 in Hq by lia. replace (q - length l1) with (S (q - length l1 - 1)) in Hq by lia.
    cbn [nth_error] in Hq.
    destruct (nth_error_split l2 _ Hq) as (l3 & l4 & -> & Hl3).
    assert (Hm1 : all_masked l1).
    { apply all_masked_nth. intros k Hk. specialize (Hb k ltac:(lia)). rewrite nth_error_app1 in Hb by exact Hk. exact Hb. }
    assert (Hm4 : all_masked l4).
    { apply all_masked_nth. intros k Hk. specialize (Ha (length l1 + S (length l3 + S k))).
      rewrite nth_error_app2 in Ha by lia.
      replace (length l1 + S (length l3 + S k) - length l1) with (S (length l3 + S k)) in Ha by lia.
      cbn [nth_error] in Ha. rewrite nth_error_app2 in Ha by lia.
      replace (length l3 + S k - length l3) with (S k) in Ha by lia. cbn [nth_error] in Ha. apply Ha; [lia|].
      rewrite app_length. cbn [length]. rewrite app_length. cbn [length]. lia. }
    assert (Hc : compressed (l1 ++ Some x :: l3 ++ Some y :: l4) = x :: compressed l3 ++ [y]).
    { rewrite compressed_app, (compressed_all_masked l1 Hm1). cbn [app compressed].
      rewrite compressed_app. cbn [compressed]. rewrite (compressed_all_masked l4 Hm4). reflexivity. }
    rewrite Hc. destruct (Nat.ltb_spec 1 (length (x :: compressed l3 ++ [y]))) as [Hl|Hl].
    + rewrite app_comm_cons, last_last. cbn [hd app]. apply qlt_iff, Hlt.
    + cbn [length] in Hl. rewrite app_length in Hl. cbn [length] in Hl. lia.
Qed.

Lemma nth_error_skipn {A} (l : list A) : forall a k, nth_error (skipn a l) k = nth_error l (a + k).
Proof.
  induction l as [|x l IH]; intros [|a] k; cbn; auto. destruct k; reflexivity.
Qed.
Lemma nth_error_firstn {A} (l : list A) : forall n k, k < n -> nth_error (firstn n l) k = nth_error l k.
Proof.
  induction l as [|x l IH]; intros [|n] [|k] H; cbn; auto; try lia. apply IH. lia.
Qed.
Lemma slice_length {A} (l : list A) a n : a + n <= length l -> length (firstn n (skipn a l)) = n.
Proof. intros H. rewrite firstn_length, skipn_length. lia. Qed.

Lemma missing_above_iff z t : is_z_missing_above_liquid z t = true <-> nth_error z (S t) = Some None.
Proof.
  unfold is_z_missing_above_liquid. destruct (Nat.eqb_spec (S t) (length z)) as [E|E].
  - split; [discriminate|]. intros H. apply nth_error_Some_lt in H. lia.
  - destruct (nth_error z (S t)) as [[x|]|]; cbn; split; congruence.
Qed.

Lemma increasing_row_iff z b t : b <= t -> t < length z ->
  (is_z_increasing z b t = true <->
   exists p q x y, b <= p /\ p < q /\ q <= t /\ nth_error z p = Some (Some x) /\ nth_error z q = Some (Some y) /\
     (x < y)%Q /\ (forall k, b <= k -> k < p -> nth_error z k = Some None) /\
     (forall k, q < k -> k <= t -> nth_error z k = Some None)).
Proof.
  intros Hbt Ht. unfold is_z_increasing. cbv zeta. rewrite increasing_iff. unfold increasing_echo.
  assert (Hlen : length (firstn (S t - b) (skipn b z)) = S t - b) by (apply slice_length; lia).
  assert (Hn : forall k, k < S t - b -> nth_error (firstn (S t - b) (skipn b z)) k = nth_error z (b + k)).
  { intros k Hk. rewrite nth_error_firstn by exact Hk. apply nth_error_skipn. }
  split.
  - intros (p & q & x & y & Hpq & Hp & Hq & Hlt & Hb & Ha).
    pose proof (nth_error_Some_lt _ _ _ Hq) as Hql. setoid_rewrite Hlen in Hql.
    exists (b + p), (b + q), x, y. rewrite Hn in Hp by lia. rewrite Hn in Hq by lia.
    repeat (split; [first [lia|assumption]|]). split.
    + intros k Hk1 Hk2. specialize (Hb (k - b) ltac:(lia)). rewrite Hn in Hb by lia.
      replace (b + (k - b)) with k in Hb by lia. exact Hb.
    + intros k Hk1 Hk2. specialize (Ha (k - b) ltac:(lia)). setoid_rewrite Hlen in Ha. specialize (Ha ltac:(lia)).
      rewrite Hn in Ha by lia. replace (b + (k - b)) with k in Ha by lia. exact Ha.
  - intros (p & q & x & y & Hbp & Hpq & Hqt & Hp & Hq & Hlt & Hb & Ha).
    exists (p - b), (q - b), x, y. split; [lia|]. rewrite !Hn by lia.
    replace (b + (p - b)) with p by lia. replace (b + (q - b)) with q by lia.
    repeat (split; [assumption|]). split.
    + intros k Hk. rewrite Hn by lia. apply Hb; lia.
    + intros k Hk Hkl. setoid_rewrite Hlen in Hkl. rewrite Hn by lia. apply Ha; lia.
Qed.

(** ** The loop over layers *)

Lemma set_range_pixel m n b t v i j : pixel (set_range m n b t v) i j =
  option_map (fun x => assign ((i =? n) && (b <=? j) && (j <=? t)) v x) (pixel m i j).
Proof. unfold set_range. rewrite pixel_imapi. reflexivity. Qed.

Lemma fold_clear (cond : (nat * nat) * (nat * nat) -> bool) layers : forall m i j,
  pixel (fold_left (fun acc layer =>
     if cond layer then set_range acc (fst (fst layer)) (snd (fst layer)) (snd (snd layer)) false else acc) layers m) i j
  = option_map (fun x => x && negb (existsb (fun layer => cond layer && ((i =? fst (fst layer))
       && (snd (fst layer) <=? j) && (j <=? snd (snd layer)))) layers)) (pixel m i j).
Proof.
  induction layers as [|l layers IH]; intros m i j; cbn [fold_left existsb].
  - destruct (pixel m i j) as [x|]; cbn; [|reflexivity]. rewrite andb_true_r. reflexivity.
  - rewrite IH. destruct (cond l) eqn:E.
    + rewrite set_range_pixel. destruct (pixel m i j) as [x|]; cbn [option_map]; [|reflexivity]. f_equal.
      cbn [andb]. unfold assign.
      destruct (_ && _ && _); cbn [orb negb andb]; [rewrite andb_false_r; reflexivity|reflexivity].
    + cbn [andb orb]. reflexivity.
Qed.

Lemma fix_dominated_pixel obs m liquid fixed : shape liquid = shape (c_z obs) ->
  fix_liquid_dominated_radar obs m liquid = Ok fixed ->
  forall i j b, pixel fixed i j = Some b ->
  exists b0, pixel m i j = Some b0 /\
   (b = true <-> b0 = true /\ ~ exists bs t, liquid_dominated (c_z obs) liquid i bs t /\ bs <= j <= t).
Proof.
  intros Hs. unfold fix_liquid_dominated_radar.
  destruct (layers_exact liquid) as (layers & E & Hin & _). rewrite E. cbn [bind]. intros HF i j b Hb.
  assert (Hfx : fixed = fold_left (fun acc layer =>
     if (fun layer => is_z_missing_above_liquid (nth (fst (fst layer)) (c_z obs) []) (snd (snd layer)) &&
           is_z_increasing (nth (fst (fst layer)) (c_z obs) []) (snd (fst layer)) (snd (snd layer))) layer
     then set_range acc (fst (fst layer)) (snd (fst layer)) (snd (snd layer)) false else acc) layers m) by congruence.
  rewrite Hfx, fold_clear in Hb. clear HF Hfx.
  destruct (pixel m i j) as [b0|]; [|discriminate]. cbn [option_map] in Hb. exists b0. split; [reflexivity|].
  set (ex := existsb _ layers) in Hb.
  assert (Hex : ex = true <-> exists bs t, liquid_dominated (c_z obs) liquid i bs t /\ bs <= j <= t).
  { unfold ex. rewrite existsb_exists. clear Hb ex. split.
    - intros ([[bi bs] [ti t]] & Hl & Hc). cbn [fst snd] in Hc.
      rewrite !andb_true_iff, Nat.eqb_eq, !Nat.leb_le in Hc. destruct Hc as ((Hm & Hinc) & (-> & H1) & H2).
      apply Hin in Hl. destruct Hl as (-> & row & Hrow & Hrun).
      exists bs, t. split; [|lia]. split; [eauto|].
      apply missing_above_iff in Hm. pose proof Hm as Hm'. rewrite nth_nth_error in Hm'. split; [exact Hm'|].
      apply increasing_row_iff in Hinc; [|lia|apply nth_error_Some_lt in Hm; lia].
      destruct Hinc as (p & q & x & y & A1 & A2 & A3 & A4 & A5 & A6 & A7 & A8).
      exists p, q, x, y. rewrite <- !nth_nth_error. repeat (split; [assumption|]). split.
      + intros k B1 B2. rewrite <- nth_nth_error. auto.
      + intros k B1 B2. rewrite <- nth_nth_error. auto.
    - intros (bs & t & ((row & Hrow & Hrun) & Hm & Hinc) & Hj).
      exists ((i, bs), (i, t)). split; [apply Hin; eauto|]. cbn [fst snd].
      rewrite !andb_true_iff, Nat.eqb_eq, !Nat.leb_le. split; [|lia].
      rewrite <- nth_nth_error in Hm. split; [apply missing_above_iff; exact Hm|].
      apply increasing_row_iff; [destruct Hrun; lia|apply nth_error_Some_lt in Hm; lia|].
      destruct Hinc as (p & q & x & y & A1 & A2 & A3 & A4 & A5 & A6 & A7 & A8).
      exists p, q, x, y. rewrite !nth_nth_error. repeat (split; [assumption|]). split.
      + intros k B1 B2. rewrite nth_nth_error. auto.
      + intros k B1 B2. rewrite nth_nth_error. auto. }
  assert (b = b0 && negb ex) by congruence. subst b. rewrite andb_true_iff, negb_true_iff.
  rewrite <- Hex. destruct ex; intuition congruence.
Qed.

(** ** Cold lidar echoes *)

Lemma count_in_three row a b : 2 < count_in row a b <->
  exists k1 k2 k3, k1 < k2 /\ k2 < k3 /\ a <= k1 /\ k3 < b /\ row k1 = true /\ row k2 = true /\ row k3 = true.
Proof.
  unfold count_in. split.
  - intros H. assert (HS : StronglySorted lt (filter row (seq a (b - a)))).
    { assert (Hseq : forall n s, StronglySorted lt (seq s n)).
      { induction n as [|n IH]; intros s; cbn [seq]; constructor; [apply IH|].
        apply Forall_forall. intros x Hx. apply in_seq in Hx. lia. }
      generalize (Hseq (b - a) a). generalize (seq a (b - a)). intros l Hl.
      induction Hl as [|x l Hl IH Hf]; cbn [filter]; [constructor|].
      destruct (row x); [|exact IH]. constructor; [exact IH|].
      apply Forall_forall. intros y Hy. apply filter_In in Hy. rewrite Forall_forall in Hf. apply Hf, Hy. }
    assert (Hin : forall k, In k (filter row (seq a (b - a))) -> a <= k /\ k < b /\ row k = true).
    { intros k Hk. apply filter_In in Hk. destruct Hk as [Hk Hr]. apply in_seq in Hk. split; [lia|]. split; [lia|exact Hr]. }
    destruct (filter row (seq a (b - a))) as [|k1 [|k2 [|k3 l]]]; cbn [length] in H; try lia.
    exists k1, k2, k3.
    inversion HS as [|? ? HS1 HF1]; subst. inversion HS1 as [|? ? HS2 HF2]; subst.
    inversion HF1; subst. inversion HF2; subst.
    pose proof (Hin k1 ltac:(cbn; auto)). pose proof (Hin k2 ltac:(cbn; auto)). pose proof (Hin k3 ltac:(cbn; auto)).
    repeat split; tauto || lia.
  - intros (k1 & k2 & k3 & H12 & H23 & Ha & Hb & R1 & R2 & R3).
    assert (Hnd : NoDup [k1; k2; k3]).
    { repeat constructor; cbn; intuition lia. }
    assert (Hincl : incl [k1; k2; k3] (filter row (seq a (b - a)))).
    { intros k Hk. apply filter_In. destruct Hk as [<-|[<-|[<-|[]]]]; (split; [apply in_seq; lia|assumption]). }
    apply (NoDup_incl_length Hnd) in Hincl. exact Hincl.
Qed.

Lemma cold_aerosols_iff obs liquid i j b : pixel (find_cold_aerosols obs liquid) i j = Some b ->
  (b = true <-> cold_lidar_ice (c_beta obs) (c_tw obs) (c_height obs) (c_altitude obs) liquid i j).
Proof.
  unfold find_cold_aerosols. cbv zeta. rewrite pixel_imapi.
  destruct (pixel liquid i j) as [liq|] eqn:E; cbn [option_map]; intros H; [|discriminate]. inv_some H.
  unfold cold_lidar_ice. rewrite E.
  set (range := (nth j (c_height obs) 0 - c_altitude obs)%Q).
  assert (Hcount : (2 <? count_in (fun k => valid (c_beta obs) i k) (j + 1 - 6) (j + 1)) = true <->
    exists k1 k2 k3, k1 < k2 /\ k2 < k3 /\ k3 <= j /\ j <= k1 + 5 /\
       measured (c_beta obs) i k1 /\ measured (c_beta obs) i k2 /\ measured (c_beta obs) i k3).
  { rewrite Nat.ltb_lt, count_in_three. split.
    - intros (k1 & k2 & k3 & A1 & A2 & A3 & A4 & A5 & A6 & A7). exists k1, k2, k3.
      rewrite valid_iff in A5, A6, A7. repeat (split; [first [lia|assumption]|]). assumption.
    - intros (k1 & k2 & k3 & A1 & A2 & A3 & A4 & A5 & A6 & A7). exists k1, k2, k3.
      rewrite !valid_iff. repeat (split; [first [lia|assumption]|]). assumption. }
  set (cnt := 2 <? count_in _ _ _) in *. clearbody cnt.
  rewrite <- Hcount. clear Hcount.
  pose proof (below_iff (c_tw obs) (T0 - 15) i j) as Hbel.
  pose proof (valid_iff (c_beta obs) i j) as Hval.
  pose proof (qlt_iff range 2000) as H2. pose proof (qlt_iff range 4000) as H4.
  pose proof (qlt_false range 2000) as H2f. pose proof (qlt_false range 4000) as H4f.
  unfold T0 in Hbel.
  rewrite <- Hbel, <- Hval, <- H2f, <- H4f. unfold T0.
  destruct (below (c_tw obs) ((27316 # 100) - 15) i j), (valid (c_beta obs) i j), liq,
    (qlt range 2000), (qlt range 4000), cnt; cbn; intuition congruence.
Qed.

Lemma find_cold_shape obs liquid : shape (find_cold_aerosols obs liquid) = shape liquid.
Proof. apply shape_imapi. Qed.

Lemma get_false m i j : get m i j = false <-> pixel m i j <> Some true.
Proof. rewrite <- get_iff. destruct (get m i j); intuition congruence. Qed.

Lemma shape_same_pixel {A B} (m : image A) (n : image B) i j x : shape m = shape n -> pixel m i j = Some x ->
  exists y, pixel n i j = Some y.
Proof. intros H Hx. apply (same_shape_pixel m n i j H). eauto. Qed.

Lemma find_falling_pixel obs liquid ins out : shape liquid = shape (c_z obs) ->
  find_falling_hydrometeors obs liquid ins = Ok out ->
  forall i j b, pixel out i j = Some b ->
  (b = true <->
   (measured (c_z obs) i j /\ pixel (c_clutter obs) i j <> Some true /\ pixel ins i j <> Some true /\
    ~ exists bs t, liquid_dominated (c_z obs) liquid i bs t /\ bs <= j <= t)
   \/ cold_lidar_ice (c_beta obs) (c_tw obs) (c_height obs) (c_altitude obs) liquid i j).
Proof.
  intros Hs. unfold find_falling_hydrometeors.
  destruct (fix_liquid_dominated_radar obs (find_falling_from_radar obs ins) liquid) as [fixed|] eqn:E;
    cbn [bind]; [|discriminate]. cbv zeta. intros HO i j b Hb.
  assert (HO' : out = imapi (fun i j b => b || get (find_cold_aerosols obs liquid) i j) fixed) by congruence.
  subst out. rewrite pixel_imapi in Hb. destruct (pixel fixed i j) as [f|] eqn:Ef; [|discriminate].
  cbn [option_map] in Hb. inv_some Hb.
  destruct (fix_dominated_pixel obs _ liquid fixed Hs E i j f Ef) as (b0 & Hb0 & Hf).
  unfold find_falling_from_radar in Hb0. rewrite pixel_imapi in Hb0.
  destruct (pixel (c_z obs) i j) as [z|] eqn:Ez; [|discriminate]. cbn [option_map] in Hb0. inv_some Hb0.
  destruct (shape_same_pixel (c_z obs) (find_cold_aerosols obs liquid) i j z) as [ca Hca].
  { rewrite find_cold_shape. symmetry. exact Hs. }
  { exact Ez. }
  assert (Hg : get (find_cold_aerosols obs liquid) i j = ca) by (unfold get; rewrite Hca; reflexivity).
  rewrite Hg, orb_true_iff, Hf, (cold_aerosols_iff obs liquid i j ca Hca).
  rewrite !andb_true_iff, !negb_true_iff, !get_false.
  assert (Hz : is_masked z = false <-> measured (c_z obs) i j).
  { unfold measured. rewrite Ez. destruct z as [z|]; cbn; split; intros H; try discriminate; eauto.
    destruct H as [x Hx]. discriminate. }
  rewrite Hz. tauto.
Qed.

Lemma find_falling_total obs liquid ins : exists out, find_falling_hydrometeors obs liquid ins = Ok out /\
  shape out = shape (c_z obs).
Proof.
  unfold find_falling_hydrometeors, fix_liquid_dominated_radar. rewrite zip_layers_eq. cbn [bind]. eexists. split; [reflexivity|].
  rewrite shape_imapi.
  assert (H : forall layers m, shape (fold_left (fun acc (layer : (nat * nat) * (nat * nat)) =>
        if is_z_missing_above_liquid (nth (fst (fst layer)) (c_z obs) []) (snd (snd layer)) &&
           is_z_increasing (nth (fst (fst layer)) (c_z obs) []) (snd (fst layer)) (snd (snd layer))
        then set_range acc (fst (fst layer)) (snd (fst layer)) (snd (snd layer)) false else acc) layers m) = shape m).
  { induction layers as [|l layers IH]; intros m; cbn [fold_left]; [reflexivity|]. rewrite IH.
    destruct (_ && _); [apply shape_imapi|reflexivity]. }
  etransitivity; [apply H|]. apply shape_imapi.
Qed.

(** ** Liquid tops corrected by the radar *)

Lemma where2_tops m p : In p (where2 (find_cloud_tops m)) <-> top_of m (fst p) (snd p).
Proof.
  unfold where2. destruct (where2_layers m 0) as [_ ->]. rewrite in_map_iff. unfold top_of. split.
  - intros ([[bi b] [ti t]] & <- & Hin). cbn [fst snd]. apply in_layers in Hin.
    destruct Hin as (-> & _ & row & Hr & Hrun). rewrite Nat.sub_0_r in Hr. exists row, b.
    split; [exact Hr|apply runs_max_run, Hrun].
  - intros (row & b & Hr & Hrun). destruct p as [i t]. cbn [fst snd] in *.
    exists ((i, b), (i, t)). split; [reflexivity|]. apply in_layers. split; [reflexivity|]. split; [lia|].
    exists row. rewrite Nat.sub_0_r. split; [exact Hr|apply max_run_in_runs, Hrun].
Qed.

Lemma where2_bases m p : In p (where2 (find_cloud_bases m)) <->
  exists row t, nth_error m (fst p) = Some row /\ max_run row (snd p) t.
Proof.
  unfold where2. destruct (where2_layers m 0) as [-> _]. rewrite in_map_iff. split.
  - intros ([[bi b] [ti t]] & <- & Hin). cbn [fst snd]. apply in_layers in Hin.
    destruct Hin as (-> & _ & row & Hr & Hrun). rewrite Nat.sub_0_r in Hr. exists row, t.
    split; [exact Hr|apply runs_max_run, Hrun].
  - intros (row & t & Hr & Hrun). destruct p as [i b]. cbn [fst snd] in *.
    exists ((i, b), (i, t)). split; [reflexivity|]. apply in_layers. split; [reflexivity|]. split; [lia|].
    exists row. rewrite Nat.sub_0_r. split; [exact Hr|apply max_run_in_runs, Hrun].
Qed.

Lemma where1_hd l k r : where1 l = k :: r ->
  nth_error l k = Some true /\ forall k', k' < k -> nth_error l k' <> Some true.
Proof.
  intros H. assert (Hk : In k (where1 l)) by (rewrite H; left; reflexivity).
  apply in_where_from in Hk. destruct Hk as [_ Hk]. rewrite Nat.sub_0_r in Hk. split; [exact Hk|].
  intros k' Hlt Hk'. assert (Hin : In k' (where1 l)).
  { apply in_where_from. split; [lia|]. rewrite Nat.sub_0_r. exact Hk'. }
  pose proof (where1_sorted l) as HS. rewrite H in Hin, HS. destruct Hin as [->|Hin]; [lia|].
  inversion HS as [|? ? _ HF]; subst. rewrite Forall_forall in HF. specialize (HF k' Hin). lia.
Qed.

Lemma find_ind_window row t margin : t < length row ->
  match find_ind_above_top (skipn t row) margin with
  | Ok ind => liquid_window row margin t (t + ind)
  | Raise e => e = IndexError /\ forall k, t <= k -> nth_error row k <> Some true
  end.
Proof.
  intros Ht. unfold find_ind_above_top. destruct (where1 (skipn t row)) as [|f r] eqn:E.
  - split; [reflexivity|]. intros k Hk Hc.
    assert (Hin : In (k - t) (where1 (skipn t row))).
    { apply in_where_from. split; [lia|]. rewrite Nat.sub_0_r, nth_error_skipn.
      replace (t + (k - t)) with k by lia. exact Hc. }
    rewrite E in Hin. destruct Hin.
  - apply where1_hd in E. destruct E as [Hf Hb]. rewrite nth_error_skipn in Hf.
    exists (t + f). split; [lia|]. split; [exact Hf|]. split.
    + intros k H1 H2. specialize (Hb (k - t) ltac:(lia)). rewrite nth_error_skipn in Hb.
      replace (t + (k - t)) with k in Hb by lia. exact Hb.
    + rewrite skipn_length. lia.
Qed.

Lemma first_true_Some l k : first_true l = Some k ->
  nth_error l k = Some true /\ forall k', k' < k -> nth_error l k' = Some false.
Proof.
  revert k. induction l as [|b l IH]; intros k H; cbn in H; [discriminate|].
  destruct b.
  - injection H as <-. split; [reflexivity|]. lia.
  - destruct (first_true l) as [k0|] eqn:E; [|discriminate]. cbn in H. injection H as <-.
    destruct (IH k0 eq_refl) as [H1 H2]. split; [exact H1|]. intros [|k'] Hk; [reflexivity|]. apply H2. lia.
Qed.
Lemma first_true_None l : first_true l = None -> forall k, nth_error l k <> Some true.
Proof.
  induction l as [|b l IH]; intros H [|k]; cbn in *; try discriminate.
  - destruct b; congruence.
  - destruct b; [discriminate|]. destruct (first_true l); [discriminate|]. apply IH. reflexivity.
Qed.

(** One top: the gates that are added. *)
Definition top_adds (z : image (masked Q)) (prof top ind : nat) (j : nat) : bool :=
  let mask := map (@is_masked Q) (firstn (ind + 1) (skipn top (nth prof z []))) in
  if negb (forallb (fun b => b) mask || negb (existsb (fun b => b) mask)) then
    match first_true mask with Some fm => (top <=? j) && (j <? top + fm) | None => false end
  else false.

Lemma window_mask z prof top ind k : k < ind + 1 ->
  nth_error (map (@is_masked Q) (firstn (ind + 1) (skipn top (nth prof z [])))) k
  = option_map (@is_masked Q) (pixel z prof (top + k)).
Proof.
  intros Hk. rewrite nth_error_map', nth_error_firstn by exact Hk. rewrite nth_error_skipn, nth_nth_error. reflexivity.
Qed.

Lemma window_mask_none z prof top ind k b :
  nth_error (map (@is_masked Q) (firstn (ind + 1) (skipn top (nth prof z [])))) k = Some b -> k < ind + 1.
Proof.
  intros H. apply nth_error_Some_lt in H. rewrite map_length, firstn_length in H. lia.
Qed.

Lemma top_adds_iff z prof top ind j :
  top_adds z prof top ind j = true <->
  top <= j /\ (forall k, top <= k -> k <= j -> measured z prof k) /\
  exists k, j < k /\ k <= top + ind /\ pixel z prof k = Some None.
Proof.
  unfold top_adds. set (mask := map _ _).
  assert (Hmk : forall k, k < ind + 1 -> nth_error mask k = option_map (@is_masked Q) (pixel z prof (top + k))).
  { intros k Hk. apply window_mask, Hk. }
  assert (Hmn : forall k b, nth_error mask k = Some b -> k < ind + 1) by (intros k b; apply window_mask_none).
  assert (Hmeas : forall k, k < ind + 1 -> nth_error mask k = Some false -> measured z prof (top + k)).
  { intros k Hk H. rewrite Hmk in H by exact Hk. unfold measured.
    destruct (pixel z prof (top + k)) as [[x|]|]; cbn in H; try discriminate. eauto. }
  split.
  - destruct (negb (forallb (fun b => b) mask || negb (existsb (fun b => b) mask))); [|discriminate].
    destruct (first_true mask) as [fm|] eqn:Ef; [|discriminate].
    rewrite andb_true_iff, Nat.leb_le, Nat.ltb_lt. intros [H1 H2].
    apply first_true_Some in Ef. destruct Ef as [Hfm Hb].
    split; [exact H1|]. split.
    + intros k Hk1 Hk2. replace k with (top + (k - top)) by lia. apply Hmeas.
      * pose proof (Hmn _ _ Hfm). lia.
      * apply Hb. lia.
    + exists (top + fm). pose proof (Hmn _ _ Hfm) as Hlt. split; [lia|]. split; [lia|].
      rewrite Hmk in Hfm by exact Hlt. destruct (pixel z prof (top + fm)) as [[x|]|]; cbn in Hfm; try discriminate. reflexivity.
  - intros (H1 & Hm & k & Hk1 & Hk2 & Hk).
    assert (Hkm : nth_error mask (k - top) = Some true).
    { rewrite Hmk by lia. replace (top + (k - top)) with k by lia. rewrite Hk. reflexivity. }
    assert (Htm : nth_error mask 0 = Some false).
    { rewrite Hmk by lia. rewrite Nat.add_0_r. destruct (Hm top ltac:(lia) ltac:(lia)) as [x Hx]. rewrite Hx. reflexivity. }
    assert (Hfa : forallb (fun b => b) mask = false).
    { destruct (forallb (fun b => b) mask) eqn:E; [|reflexivity]. rewrite forallb_forall in E.
      apply nth_error_In in Htm. specialize (E false Htm). discriminate. }
    assert (Hex : existsb (fun b => b) mask = true).
    { apply existsb_exists. exists true. split; [|reflexivity]. eapply nth_error_In, Hkm. }
    rewrite Hfa, Hex. cbn [orb negb].
    destruct (first_true mask) as [fm|] eqn:Ef.
    + apply first_true_Some in Ef. destruct Ef as [Hfm Hb].
      rewrite andb_true_iff, Nat.leb_le, Nat.ltb_lt. split; [exact H1|].
      destruct (le_lt_dec (top + fm) j) as [Hle|Hlt]; [|exact Hlt]. exfalso.
      destruct (Hm (top + fm) ltac:(lia) Hle) as [x Hx].
      rewrite Hmk, Hx in Hfm; [discriminate|]. apply (Hmn _ _ Hfm).
    + exfalso. apply (first_true_None mask Ef _ Hkm).
Qed.

(** One pass of the loop. *)
Definition top_step (z : image (masked Q)) (is_freezing : image bool) (top_above : nat)
  (acc : result (image bool)) (pt : nat * nat) : result (image bool) :=
  bind acc (fun corrected =>
  bind (find_ind_above_top (skipn (snd pt) (nth (fst pt) is_freezing [])) top_above) (fun ind =>
  Ok (imapi (fun i j b => assign ((i =? fst pt) && top_adds z (fst pt) (snd pt) ind j) true b) corrected))).

Lemma imapi_id {A} (f : nat -> nat -> A -> A) m : (forall i j x, f i j x = x) -> imapi f m = m.
Proof.
  intros H. apply image_ext; [apply shape_imapi|]. intros i j. rewrite pixel_imapi.
  destruct (pixel m i j); cbn; [rewrite H|]; reflexivity.
Qed.
Lemma imapi_ext {A B} (f g : nat -> nat -> A -> B) m : (forall i j x, f i j x = g i j x) -> imapi f m = imapi g m.
Proof.
  intros H. apply image_ext; [rewrite !shape_imapi; reflexivity|]. intros i j. rewrite !pixel_imapi.
  destruct (pixel m i j); cbn; [rewrite H|]; reflexivity.
Qed.

Lemma correct_liquid_top_steps z liquid fr margin :
  correct_liquid_top z liquid fr margin =
  fold_left (top_step z fr margin) (where2 (find_cloud_tops liquid)) (Ok liquid).
Proof.
  unfold correct_liquid_top. generalize (where2 (find_cloud_tops liquid)) as tops. intros tops.
  generalize (Ok liquid) as acc. induction tops as [|pt tops IH]; intros acc; cbn [fold_left]; [reflexivity|].
  rewrite IH. f_equal. unfold top_step. destruct acc as [corrected|]; cbn [bind]; [|reflexivity].
  destruct (find_ind_above_top _ _) as [ind|]; cbn [bind]; [|reflexivity]. unfold top_adds. cbv zeta.
  set (mask := map _ _).
  destruct (negb (forallb (fun b => b) mask || negb (existsb (fun b => b) mask))) eqn:E.
  - destruct (first_true mask) as [fm|] eqn:Ef.
    + f_equal. apply imapi_ext. intros i j x. rewrite andb_assoc. reflexivity.
    + exfalso. apply negb_true_iff, orb_false_iff in E. destruct E as [_ E]. apply negb_false_iff, existsb_exists in E.
      destruct E as (b & Hb & ->). apply In_nth_error in Hb. destruct Hb as [k Hk].
      apply (first_true_None mask Ef k Hk).
  - f_equal. symmetry. apply imapi_id. intros i j x. rewrite andb_false_r. reflexivity.
Qed.

Lemma extends_top_iff z fr margin i t row ind j : nth_error fr i = Some row ->
  liquid_window row margin t (t + ind) ->
  (top_adds z i t ind j = true <-> extends_top z fr margin i t j).
Proof.
  intros Hrow Hw. rewrite top_adds_iff. unfold extends_top. split.
  - intros (H1 & H2 & k & A1 & A2 & A3). split; [exact H1|]. split; [exact H2|]. exists row, (t + ind), k. auto.
  - intros (H1 & H2 & row' & e & k & Hr & Hw' & A1 & A2 & A3).
    split; [exact H1|]. split; [exact H2|]. exists k. split; [exact A1|]. split; [|exact A3].
    assert (row' = row) by congruence. subst row'.
    destruct Hw as (f & F1 & F2 & F3 & F4). destruct Hw' as (f' & G1 & G2 & G3 & G4).
    assert (f = f').
    { destruct (lt_eq_lt_dec f f') as [[Hl|He]|Hl]; [|exact He|].
      - exfalso. apply (G3 f F1 Hl F2).
      - exfalso. apply (F3 f' G1 Hl G2). }
    subst f'. lia.
Qed.

Lemma top_fold z fr margin tops : forall m,
  (forall p, In p tops -> exists row, nth_error fr (fst p) = Some row /\ snd p < length row) ->
  match fold_left (top_step z fr margin) tops (Ok m) with
  | Ok out => shape out = shape m /\
      (forall p, In p tops -> exists row k, nth_error fr (fst p) = Some row /\ snd p <= k /\ nth_error row k = Some true) /\
      forall i j b, pixel out i j = Some b -> exists b0, pixel m i j = Some b0 /\
        (b = true <-> b0 = true \/ exists t, In (i, t) tops /\ extends_top z fr margin i t j)
  | Raise e => e = IndexError /\ exists p row, In p tops /\ nth_error fr (fst p) = Some row /\
      forall k, snd p <= k -> nth_error row k <> Some true
  end.
Proof.
  assert (Hraise : forall tops e, fold_left (top_step z fr margin) tops (Raise e) = Raise e).
  { induction tops0 as [|p l IH]; intros e; cbn; auto. }
  induction tops as [|p tops IH]; intros m Hrows; cbn [fold_left].
  - split; [reflexivity|]. split; [intros p []|]. intros i j b Hb. exists b. split; [exact Hb|].
    split; [auto|]. intros [H|(t & [] & _)]. exact H.
  - destruct (Hrows p (or_introl eq_refl)) as (row & Hrow & Hlen).
    unfold top_step at 2. cbn [bind]. rewrite (nth_error_nth fr (fst p) [] Hrow).
    pose proof (find_ind_window row (snd p) margin Hlen) as Hw.
    destruct (find_ind_above_top (skipn (snd p) row) margin) as [ind|e]; cbn [bind].
    + set (m' := imapi _ m).
      specialize (IH m' (fun q Hq => Hrows q (or_intror Hq))).
      destruct (fold_left (top_step z fr margin) tops (Ok m')) as [out|e].
      * destruct IH as (Hs & Hfr & Hp). split; [rewrite Hs; apply shape_imapi|]. split.
        -- intros q [<-|Hq]; [|apply Hfr, Hq]. destruct Hw as (f & F1 & F2 & _). exists row, f. auto.
        -- intros i j b Hb. destruct (Hp i j b Hb) as (b1 & Hb1 & Hiff).
           unfold m' in Hb1. rewrite pixel_imapi in Hb1. destruct (pixel m i j) as [b0|]; [|discriminate].
           cbn [option_map] in Hb1. inv_some Hb1. exists b0. split; [reflexivity|]. rewrite Hiff. unfold assign.
           destruct p as [pi pt]. cbn [fst snd] in *.
           pose proof (extends_top_iff z fr margin pi pt row ind j Hrow Hw) as He.
           destruct (Nat.eqb_spec i pi) as [->|Hne]; cbn [andb].
           ++ destruct (top_adds z pi pt ind j).
              ** split; [|auto]. intros _. right. exists pt. split; [left; reflexivity|]. apply He. reflexivity.
              ** split.
                 --- intros [H|(t & Ht & H)]; [auto|]. right. exists t. split; [right; exact Ht|exact H].
                 --- intros [H|(t & [Heq|Ht] & H)]; [auto| |right; eauto].
                     injection Heq as <-. apply He in H. discriminate.
           ++ split.
              ** intros [H|(t & Ht & H)]; [auto|]. right. exists t. split; [right; exact Ht|exact H].
              ** intros [H|(t & [Heq|Ht] & H)]; [auto| |right; eauto]. injection Heq as H1 _. congruence.
      * destruct IH as (-> & q & row' & Hq & Hr & Hno). split; [reflexivity|]. exists q, row'.
        split; [right; exact Hq|]. auto.
    + rewrite Hraise. destruct Hw as [-> Hno]. split; [reflexivity|]. exists p, row.
      split; [left; reflexivity|]. auto.
Qed.

Lemma top_of_length m i t : top_of m i t -> exists row, nth_error m i = Some row /\ t < length row.
Proof.
  intros (row & b & Hr & (Hbt & Hall & _)). exists row. split; [exact Hr|].
  eapply nth_error_Some_lt. apply Hall; [exact Hbt|lia].
Qed.

Lemma correct_liquid_top_spec z liquid fr margin : shape fr = shape liquid ->
  match correct_liquid_top z liquid fr margin with
  | Ok out => shape out = shape liquid /\
      (forall i t, top_of liquid i t -> exists k, t <= k /\ pixel fr i k = Some true) /\
      forall i j b, pixel out i j = Some b ->
        (b = true <-> pixel liquid i j = Some true \/ exists t, top_of liquid i t /\ extends_top z fr margin i t j)
  | Raise e => e = IndexError /\ exists i t, top_of liquid i t /\ forall k, t <= k -> pixel fr i k <> Some true
  end.
Proof.
  intros Hs. rewrite correct_liquid_top_steps.
  assert (Hrows : forall p, In p (where2 (find_cloud_tops liquid)) ->
     exists row, nth_error fr (fst p) = Some row /\ snd p < length row).
  { intros p Hp. apply where2_tops in Hp. apply top_of_length in Hp. destruct Hp as (row & Hr & Hl).
    apply (f_equal (fun l => nth_error l (fst p))) in Hs. unfold shape in Hs. rewrite !nth_error_map', Hr in Hs.
    cbn [option_map] in Hs. destruct (nth_error fr (fst p)) as [row'|]; [|discriminate]. cbn [option_map] in Hs.
    exists row'. split; [reflexivity|]. assert (length row' = length row) by congruence. lia. }
  pose proof (top_fold z fr margin (where2 (find_cloud_tops liquid)) liquid Hrows) as H.
  destruct (fold_left _ _ _) as [out|e].
  - destruct H as (Hsh & Hfr & Hp). split; [exact Hsh|]. split.
    + intros i t Ht. destruct (Hfr (i, t)) as (row & k & Hr & Hk & Hn); [apply where2_tops, Ht|].
      exists k. split; [exact Hk|]. unfold pixel. cbn [fst snd] in Hr. rewrite Hr. exact Hn.
    + intros i j b Hb. destruct (Hp i j b Hb) as (b0 & Hb0 & Hiff). rewrite Hiff, Hb0.
      split; (intros [H|(t & Ht & He)]; [left; congruence|right; exists t; split; [|exact He]]).
      * apply (where2_tops liquid (i, t)), Ht.
      * apply (where2_tops liquid (i, t)), Ht.
  - destruct H as (-> & p & row & Hp & Hr & Hno). split; [reflexivity|]. exists (fst p), (snd p).
    split; [apply where2_tops, Hp|]. intros k Hk. unfold pixel. rewrite Hr. apply Hno, Hk.
Qed.

(** ** Radar liquid below lidar liquid *)

Lemma fold_clear_below bases : forall m i j,
  pixel (fold_left (fun acc (pb : nat * nat) =>
      imapi (fun i j b => assign ((i =? fst pb) && (j <? snd pb)) false b) acc) bases m) i j
  = option_map (fun x => x && negb (existsb (fun pb => (i =? fst pb) && (j <? snd pb)) bases)) (pixel m i j).
Proof.
  induction bases as [|p bases IH]; intros m i j; cbn [fold_left existsb].
  - destruct (pixel m i j) as [x|]; cbn; [|reflexivity]. rewrite andb_true_r. reflexivity.
  - rewrite IH, pixel_imapi. destruct (pixel m i j) as [x|]; cbn [option_map]; [|reflexivity]. f_equal.
    unfold assign. destruct ((i =? fst p) && (j <? snd p)); cbn [orb negb andb]; [rewrite andb_false_r; reflexivity|reflexivity].
Qed.

Lemma combine_liquid_pixel prob lidar fr i j b :
  pixel (combine_liquid prob lidar fr) i j = Some b ->
  exists p, pixel prob i j = Some p /\
  (b = true <-> pixel lidar i j = Some true \/
    ((55 # 100 < p)%Q /\ pixel fr i j = Some true /\
     ~ exists row bs t, nth_error lidar i = Some row /\ max_run row bs t /\ j < bs)).
Proof.
  unfold combine_liquid, remove_false_radar_liquid. cbv zeta.
  rewrite pixel_imapi, pixel_imapi, fold_clear_below, pixel_imap.
  destruct (pixel prob i j) as [p|]; cbn [option_map]; intros H; [|discriminate]. inv_some H.
  exists p. split; [reflexivity|]. rewrite orb_true_iff, get_iff.
  set (ex := existsb _ _).
  assert (Hex : ex = true <-> exists row bs t, nth_error lidar i = Some row /\ max_run row bs t /\ j < bs).
  { unfold ex. rewrite existsb_exists. split.
    - intros ([bi bs] & Hin & Hc). cbn [fst snd] in Hc. rewrite andb_true_iff, Nat.eqb_eq, Nat.ltb_lt in Hc.
      destruct Hc as [-> Hlt]. apply where2_bases in Hin. cbn [fst snd] in Hin.
      destruct Hin as (row & t & Hr & Hrun). exists row, bs, t. auto.
    - intros (row & bs & t & Hr & Hrun & Hlt). exists (i, bs). cbn [fst snd].
      split; [|rewrite andb_true_iff, Nat.eqb_eq, Nat.ltb_lt; auto]. apply where2_bases. eauto. }
  rewrite <- Hex. clearbody ex. rewrite <- (get_iff fr), <- qlt_iff.
  unfold assign. destruct (qlt (55 # 100) p), ex, (get fr i j); cbn; intuition congruence.
Qed.
