(** Proofs about the classification steps. *)
From Verif Require Import Base BitsModel ArrayModel ArraySpec ArrayProofs FillModel FillProofs GridModel GridProofs
  ImageModel ImageSpec ImageProofs ClassifyModel ClassifySpec.
Open Scope nat_scope.

Ltac inv_some H := match type of H with Some ?x = Some ?y =>
  let E := fresh "E" in assert (E : y = x) by congruence; clear H; subst y end.

Lemma valid_iff m i j : valid m i j = true <-> measured m i j.
Proof.
  unfold valid, measured. destruct (pixel m i j) as [[x|]|]; split; intros H; try discriminate; eauto;
    destruct H as [y Hy]; discriminate.
Qed.

(** ** Clutter *)

Lemma find_clutter_pixel v rain i j b : (forall r, In r rain -> r = 0%Z \/ r = 1%Z) ->
  pixel (find_clutter v rain) i j = Some b ->
  (b = true <-> j < 10 /\ exists x, pixel v i j = Some (Some x) /\ (Qabs.Qabs x < 5 # 100)%Q).
Proof.
  intros Hr. unfold find_clutter. rewrite pixel_imapi.
  destruct (pixel v i j) as [x|] eqn:E; cbn [option_map]; intros H; [|discriminate]. inv_some H.
  assert (Hln : Z.lnot (nth i rain 0%Z) <> 0%Z).
  { assert (nth i rain 0%Z = 0%Z \/ nth i rain 0%Z = 1%Z) as Hc.
    { destruct (nth_in_or_default i rain 0%Z) as [Hin| ->]; auto. }
    unfold Z.lnot. lia. }
  destruct (Nat.ltb_spec j 10) as [Hj|Hj]; unfold assign.
  - destruct x as [y|].
    + destruct (qlt (Qabs.Qabs y) (5 # 100)) eqn:Eq; cbn [Z.b2z].
      * rewrite Z.mul_1_l. apply Z.eqb_neq in Hln. rewrite Hln. cbn [negb].
        split; [|auto]. intros _. split; [exact Hj|]. exists y. split; [reflexivity|]. apply qlt_iff, Eq.
      * cbn [Z.mul Z.eqb negb]. split; [discriminate|]. intros (_ & z & Hz & Hlt).
        assert (y = z) by congruence. subst z. apply qlt_iff in Hlt. congruence.
    + cbn [Z.b2z Z.mul Z.eqb negb]. split; [discriminate|]. intros (_ & z & Hz & _). congruence.
  - split; [discriminate|]. lia.
Qed.

Lemma profiles_with_rain_01 echo dis only r :
  In r (profiles_with_rain echo dis only) -> r = 0%Z \/ r = 1%Z.
Proof.
  unfold profiles_with_rain. intros H. apply In_nth_error in H. destruct H as [n H].
  rewrite nth_error_map2 in H.
  set (l := map2 _ _ dis) in H.
  destruct (nth_error l n) as [a|] eqn:Ea; [|discriminate].
  destruct (nth_error only n) as [b|]; [|discriminate]. assert (r = Z.land a (Z.b2z b)) by congruence.
  subst r. subst l. rewrite nth_error_map2, nth_error_map' in Ea.
  destruct (nth_error echo n) as [e|]; [|discriminate]. cbn [option_map] in Ea.
  destruct (nth_error dis n) as [d|]; [|discriminate].
  assert (a = match d with Some b => Z.b2z b | None => if e then 1%Z else 0%Z end) by congruence.
  subst a. destruct d as [[]|], e, b; cbn; auto.
Qed.

(** ** Pixel-wise steps *)

Lemma get_imap {A} (f : A -> bool) m i j c : pixel m i j = Some c -> get (imap f m) i j = f c.
Proof. intros H. unfold get. rewrite pixel_imap, H. reflexivity. Qed.

(** [Q] holds for every pixel of the image after a step. *)
Definition all_pixels {A} (Q : nat -> nat -> A -> Prop) (m : image A) : Prop :=
  forall i j c, pixel m i j = Some c -> Q i j c.

Lemma all_pixels_imapi {A B} (f : nat -> nat -> A -> B) (P : nat -> nat -> A -> Prop) (R : nat -> nat -> B -> Prop) m :
  (forall i j c, P i j c -> R i j (f i j c)) -> all_pixels P m -> all_pixels R (imapi f m).
Proof.
  intros H HP i j c' Hc. rewrite pixel_imapi in Hc.
  destruct (pixel m i j) as [c|] eqn:E; [|discriminate]. cbn [option_map] in Hc. inv_some Hc.
  apply H, HP, E.
Qed.

Definition alone (i j : nat) (c : CategoryBits) : Prop := aerosol_alone c.

Lemma find_aerosols_alone obs m : all_pixels alone (find_aerosols obs m).
Proof.
  apply all_pixels_imapi with (P := fun _ _ _ => True); [|intros ? ? ? ?; exact I].
  intros i j c _. unfold alone, aerosol_alone. cbn [aerosol set_aerosol droplet falling].
  rewrite !andb_true_iff, !negb_true_iff. tauto.
Qed.

Lemma fix_super_cold_alone obs m : all_pixels alone m -> all_pixels alone (fix_super_cold_liquid obs m).
Proof.
  apply all_pixels_imapi. intros i j c H. unfold alone, aerosol_alone, assign in *.
  destruct (below _ _ _ _ && droplet c) eqn:E; [|exact H]. cbn.
  apply andb_true_iff in E. destruct E as [_ E]. intros Ha. destruct (H Ha). congruence.
Qed.

Lemma reclassify_alone obs m : all_pixels alone m -> all_pixels alone (reclassify_ice_with_high_ldr obs m).
Proof.
  intros H. unfold reclassify_ice_with_high_ldr. destruct (c_ldr obs) as [ldr|]; [|exact H].
  revert H. apply all_pixels_imapi. intros i j c H. unfold alone, aerosol_alone, assign in *. cbv zeta.
  match goal with |- context [if ?b then set_insect true c else c] => destruct b eqn:E end.
  - rewrite !andb_true_iff, !negb_true_iff in E.
    destruct (valid (c_beta obs) i j); cbn; intuition congruence.
  - exact H.
Qed.

Lemma filter_insects_in_falling_alone m : all_pixels alone m -> all_pixels alone (filter_insects_in_falling m).
Proof.
  intros H. unfold filter_insects_in_falling. destruct (label_regions cross (fallings m)); [exact H|].
  revert H. apply all_pixels_imapi. intros i j c H. unfold alone, aerosol_alone, assign in *.
  destruct (_ && _ && _); [cbn; discriminate|exact H].
Qed.

Lemma before_speckle_alone obs m : all_pixels alone (before_speckle obs m).
Proof.
  unfold before_speckle.
  apply filter_insects_in_falling_alone, reclassify_alone, fix_super_cold_alone, find_aerosols_alone.
Qed.

(** Speckle removal, one pixel. *)
Definition speckle (m : image CategoryBits) (p : px) : Prop :=
  set_in (fallings m) p /\ ~ cloud_larger (fallings m) 10 p.

Lemma filter_falling_pixel obs m i j c' : pixel (filter_falling obs m) i j = Some c' ->
  exists c, pixel m i j = Some c /\
    ((c' = c /\ ~ speckle m (i, j)) \/
     (speckle m (i, j) /\ falling c = true /\ falling c' = false /\ droplet c' = droplet c /\
      freezing c' = freezing c /\ melting c' = melting c /\
      insect c' = insect c || negb (freezing c) /\
      aerosol c' = aerosol c || valid (c_beta obs) i j)).
Proof.
  unfold filter_falling. cbv zeta. rewrite pixel_imapi.
  destruct (pixel m i j) as [c|] eqn:E; cbn [option_map]; intros H; [|discriminate]. inv_some H.
  exists c. split; [reflexivity|].
  assert (Hp : pixel (fallings m) i j = Some (falling c)) by (unfold fallings; rewrite pixel_imap, E; reflexivity).
  destruct (remove_small_total (fallings m) 10 i j _ Hp) as [b Hb].
  pose proof (remove_small_pixel _ _ _ _ _ Hb) as [_ Hiff].
  assert (Hg : get (remove_small_objects (fallings m) 10) i j = b) by (unfold get; rewrite Hb; reflexivity).
  rewrite Hg. rewrite Hp in Hiff.
  assert (Hsp : speckle m (i, j) <-> falling c = true /\ b = false).
  { unfold speckle, set_in. cbn [fst snd]. rewrite Hp. split.
    - intros [H1 H2]. split; [congruence|]. destruct b; [|reflexivity]. exfalso. apply H2, Hiff. reflexivity.
    - intros [H1 ->]. split; [congruence|]. intros Hc. assert (false = true) by (apply Hiff; split; [congruence|exact Hc]).
      discriminate. }
  destruct (falling c) eqn:Ef; destruct b; cbn [andb negb assign].
  - left. split; [reflexivity|]. rewrite Hsp. intuition congruence.
  - right. rewrite Hsp. split; [auto|].
    destruct (valid (c_beta obs) i j); destruct c as [d f fz ml ae ins]; cbn in *; subst f;
      destruct fz, ae, ins; cbn; repeat split.
  - left. split; [reflexivity|]. rewrite Hsp. intuition congruence.
  - left. split; [reflexivity|]. rewrite Hsp. intuition congruence.
Qed.

(** Clutter removal, one pixel. *)
Definition cloud_next (m : image CategoryBits) (p : px) : Prop :=
  exists q c, (q = p \/ edge_next q p) /\ pixel m (fst q) (snd q) = Some c /\
    (droplet c = true \/ falling c = true).

Lemma false_clutter_iff clut m i j c : pixel m i j = Some c ->
  (false_clutter clut m i j = true <-> pixel clut i j = Some true /\ cloud_next m (i, j)).
Proof.
  intros H. unfold false_clutter. rewrite andb_true_iff, !get_iff. cbn [dilate].
  set (cl := imap (fun c => droplet c || falling c) m).
  assert (Hp : exists b, pixel (dilate1 cl) i j = Some b).
  { unfold dilate1. rewrite pixel_imapi. unfold cl. rewrite pixel_imap, H. cbn [option_map]. eauto. }
  destruct Hp as [b Hb]. rewrite Hb.
  pose proof (dilate1_pixel cl i j b Hb) as Hd.
  assert (Hset : forall q, set_in cl q <-> exists c, pixel m (fst q) (snd q) = Some c /\ (droplet c = true \/ falling c = true)).
  { intros q. unfold set_in, cl. rewrite pixel_imap. split.
    - destruct (pixel m (fst q) (snd q)) as [x|]; [|discriminate]. cbn [option_map]. intros Hx.
      exists x. split; [reflexivity|]. apply orb_true_iff. congruence.
    - intros (x & -> & Hx). cbn [option_map]. f_equal. apply orb_true_iff, Hx. }
  split.
  - intros [H1 H2]. split; [exact H1|]. assert (b = true) by congruence. apply Hd in H0.
    destruct H0 as (q & Hq & Hn). apply Hset in Hq. destruct Hq as (x & Hx & Hc). exists q, x. auto.
  - intros [H1 (q & x & Hn & Hx & Hc)]. split; [exact H1|]. f_equal. apply Hd. exists q. split; [|exact Hn].
    apply Hset. eauto.
Qed.

Lemma remove_clutter_pixel clut m i j c' : pixel (fst (remove_clutter_in_liquid clut m)) i j = Some c' ->
  exists c, pixel m i j = Some c /\
    ((c' = c /\ ~ (pixel clut i j = Some true /\ cloud_next m (i, j))) \/
     (pixel clut i j = Some true /\ cloud_next m (i, j) /\ c' = set_falling true c)).
Proof.
  unfold remove_clutter_in_liquid. cbn [fst]. rewrite pixel_imapi.
  destruct (pixel m i j) as [c|] eqn:E; cbn [option_map]; intros H; [|discriminate]. inv_some H.
  exists c. split; [reflexivity|].
  pose proof (false_clutter_iff clut m i j c E) as Hf.
  destruct (false_clutter clut m i j); unfold assign.
  - right. assert (true = true) by reflexivity. apply Hf in H. tauto.
  - left. split; [reflexivity|]. intros H. apply Hf in H. discriminate.
Qed.

Lemma remove_clutter_flags clut m i j b : shape clut = shape m ->
  pixel (snd (remove_clutter_in_liquid clut m)) i j = Some b ->
  (b = true <-> pixel clut i j = Some true /\ ~ cloud_next m (i, j)).
Proof.
  unfold remove_clutter_in_liquid. cbn [snd]. rewrite pixel_imapi. intros Hs.
  destruct (pixel clut i j) as [b0|] eqn:E; cbn [option_map]; intros H; [|discriminate]. inv_some H.
  destruct (same_shape_pixel clut m i j Hs (ex_intro _ b0 E)) as [c Hc].
  pose proof (false_clutter_iff clut m i j c Hc) as Hf. rewrite E in Hf.
  destruct (false_clutter clut m i j); unfold assign.
  - split; [discriminate|]. intros [H1 H2]. exfalso. apply H2. apply Hf. reflexivity.
  - split.
    + intros ->. split; [reflexivity|]. intros H. assert (false = true) by (apply Hf; auto). discriminate.
    + intros [H _]. congruence.
Qed.

(** C24 *)
Lemma post_process_aerosol obs m i j c : pixel (fst (post_process obs m)) i j = Some c -> aerosol c = true ->
  (droplet c = false /\ falling c = false) \/
  (exists c0, pixel (before_speckle obs m) i j = Some c0 /\ droplet c0 = true /\ falling c0 = true /\
     droplet c = true /\ speckle (before_speckle obs m) (i, j)) \/
  (falling c = true /\ pixel (c_clutter obs) i j = Some true /\
     cloud_next (filter_falling obs (before_speckle obs m)) (i, j)).
Proof.
  intros H Ha. apply remove_clutter_pixel in H.
  destruct H as (c1 & H1 & [[-> _]|(Hcl & Hn & ->)]).
  - apply filter_falling_pixel in H1.
    destruct H1 as (c0 & H0 & [[-> _]|(Hsp & Hf & Hf' & Hd & _)]).
    + left. exact (before_speckle_alone obs m i j c0 H0 Ha).
    + destruct (droplet c0) eqn:Ed.
      * right. left. exists c0. auto.
      * left. auto.
  - right. right. auto.
Qed.

(** ** Supercold droplets *)

Lemma below_iff tw l i j : below tw l i j = true <-> exists t, pixel tw i j = Some t /\ (t < l)%Q.
Proof.
  unfold below. destruct (pixel tw i j) as [t|]; split.
  - intros H. exists t. split; [reflexivity|apply qlt_iff, H].
  - intros (t' & E & H). inv_some E. apply qlt_iff, H.
  - discriminate.
  - intros (t' & E & _). discriminate.
Qed.
Lemma above_iff tw l i j : above tw l i j = true <-> exists t, pixel tw i j = Some t /\ (l < t)%Q.
Proof.
  unfold above. destruct (pixel tw i j) as [t|]; split.
  - intros H. exists t. split; [reflexivity|apply qlt_iff, H].
  - intros (t' & E & H). inv_some E. apply qlt_iff, H.
  - discriminate.
  - intros (t' & E & _). discriminate.
Qed.

Lemma set_insect_pixel_facts b c :
  droplet (set_insect b c) = droplet c /\ falling (set_insect b c) = falling c /\
  freezing (set_insect b c) = freezing c /\ melting (set_insect b c) = melting c.
Proof. auto. Qed.

(** Droplet flags of the steps before [_fix_super_cold_liquid] are untouched. *)
Definition same_droplet (m n : image CategoryBits) : Prop :=
  forall i j, option_map droplet (pixel m i j) = option_map droplet (pixel n i j).

Lemma same_droplet_imapi f m : (forall i j c, droplet (f i j c) = droplet c) -> same_droplet (imapi f m) m.
Proof.
  intros H i j. rewrite pixel_imapi. destruct (pixel m i j) as [c|]; cbn [option_map]; [|reflexivity].
  f_equal. apply H.
Qed.
Lemma same_droplet_trans a b c : same_droplet a b -> same_droplet b c -> same_droplet a c.
Proof. intros H1 H2 i j. rewrite H1. apply H2. Qed.
Lemma same_droplet_refl a : same_droplet a a.
Proof. intros i j. reflexivity. Qed.

Lemma assign_droplet b x c : droplet x = droplet c -> droplet (assign b x c) = droplet c.
Proof. intros H. destruct b; [exact H|reflexivity]. Qed.

Lemma same_droplet_fix_melting lwp m : same_droplet (fix_undetected_melting_layer lwp m) m.
Proof.
  apply same_droplet_imapi. intros i [|j] c; [reflexivity|].
  destruct (pixel m i j); [|reflexivity]. apply assign_droplet. reflexivity.
Qed.

Lemma same_droplet_itf ps m : same_droplet (insects_to_falling ps m) m.
Proof. apply same_droplet_imapi. intros i j c. apply assign_droplet. reflexivity. Qed.

Lemma same_droplet_filter_at o m xy : same_droplet (filter_insects_at o m xy) m.
Proof.
  unfold filter_insects_at. cbv zeta.
  destruct (wrap_all _ _) as [ind1|]; [|apply same_droplet_refl].
  destruct (5 <? _); [|apply same_droplet_refl].
  destruct (wrap_all _ _) as [rows|]; [|apply same_droplet_itf].
  eapply same_droplet_trans; [apply same_droplet_itf|apply same_droplet_itf].
Qed.

Lemma same_droplet_filter_insects m : same_droplet (filter_insects m) m.
Proof.
  unfold filter_insects. cbv zeta.
  set (m1 := imapi _ m). assert (H : same_droplet m1 m).
  { apply same_droplet_imapi. intros i j c. apply assign_droplet. reflexivity. }
  eapply same_droplet_trans; [|exact H]. generalize (insects m1) as o. clear H. intros o.
  generalize (where2 (meltings m1)) as l. intros l. generalize m1 as s. clear m1.
  induction l as [|xy l IH]; intros s; cbn [fold_left]; [apply same_droplet_refl|].
  eapply same_droplet_trans; [apply IH|apply same_droplet_filter_at].
Qed.

Lemma same_droplet_melting_steps obs m : same_droplet (melting_steps obs m) m.
Proof.
  unfold melting_steps. generalize 5 as n. intros n. revert m.
  induction n as [|n IH]; intros m; cbn [repeat_step]; [apply same_droplet_refl|].
  eapply same_droplet_trans; [apply IH|].
  eapply same_droplet_trans; [apply same_droplet_filter_insects|apply same_droplet_fix_melting].
Qed.

Lemma same_droplet_aerosols obs m : same_droplet (find_aerosols obs m) m.
Proof. apply same_droplet_imapi. reflexivity. Qed.

Lemma same_droplet_reclassify obs m : same_droplet (reclassify_ice_with_high_ldr obs m) m.
Proof.
  unfold reclassify_ice_with_high_ldr. destruct (c_ldr obs) as [ldr|]; [|apply same_droplet_refl].
  apply same_droplet_imapi. intros i j c. cbv zeta.
  match goal with |- context [assign ?b (set_insect true c) c] => destruct b end;
    destruct (valid (c_beta obs) i j); reflexivity.
Qed.

Lemma same_droplet_in_falling m : same_droplet (filter_insects_in_falling m) m.
Proof.
  unfold filter_insects_in_falling. destruct (label_regions _ _); [apply same_droplet_refl|].
  apply same_droplet_imapi. intros i j c. apply assign_droplet. reflexivity.
Qed.

Definition supercold (obs : ClassData) (i j : nat) : Prop :=
  exists t, pixel (c_tw obs) i j = Some t /\ (t < 23516 # 100)%Q.

Lemma supercold_below obs i j : supercold obs i j <-> below (c_tw obs) (T0 - 38) i j = true.
Proof.
  rewrite below_iff. unfold supercold, T0. split; intros (t & H & Hlt); exists t; (split; [exact H|]).
  - eapply Qlt_le_trans; [exact Hlt|]. apply Qle_bool_iff. reflexivity.
  - eapply Qlt_le_trans; [exact Hlt|]. apply Qle_bool_iff. reflexivity.
Qed.

(** Pixel after the supercold step and the two steps that follow it. *)
Lemma before_speckle_supercold obs m i j c : pixel (before_speckle obs m) i j = Some c -> supercold obs i j ->
  droplet c = false /\
  forall c0, pixel m i j = Some c0 -> droplet c0 = true -> falling c = true.
Proof.
  intros H Hs. unfold before_speckle in H.
  set (m1 := find_aerosols obs (melting_steps obs m)) in *.
  set (m2 := fix_super_cold_liquid obs m1) in *.
  assert (H2 : forall c2, pixel m2 i j = Some c2 -> droplet c2 = false /\
     forall c0, pixel m i j = Some c0 -> droplet c0 = true -> falling c2 = true).
  { intros c2 Hc2. unfold m2, fix_super_cold_liquid in Hc2. rewrite pixel_imapi in Hc2.
    destruct (pixel m1 i j) as [c1|] eqn:E1; [|discriminate]. cbn [option_map] in Hc2. inv_some Hc2.
    apply supercold_below in Hs. rewrite Hs. cbn [andb].
    destruct (droplet c1) eqn:Ed; cbn [assign].
    - split; [reflexivity|]. reflexivity.
    - split; [exact Ed|]. intros c0 H0 Hd0. exfalso.
      assert (HD : same_droplet m1 m).
      { eapply same_droplet_trans; [apply same_droplet_aerosols|apply same_droplet_melting_steps]. }
      specialize (HD i j). rewrite E1, H0 in HD. cbn [option_map] in HD. congruence. }
  assert (H3 : forall c3, pixel (reclassify_ice_with_high_ldr obs m2) i j = Some c3 -> pixel m2 i j = Some c3).
  { intros c3. unfold reclassify_ice_with_high_ldr. destruct (c_ldr obs) as [ldr|]; [|auto].
    cbv zeta. rewrite pixel_imapi. destruct (pixel m2 i j) as [c2|] eqn:E2; [|discriminate]. cbn [option_map].
    assert (Hab : above (c_tw obs) (T0 - 10) i j = false).
    { destruct (above (c_tw obs) (T0 - 10) i j) eqn:Ea; [|reflexivity]. exfalso.
      apply above_iff in Ea. destruct Ea as (t & Ht & Hlt). destruct Hs as (t' & Ht' & Hlt').
      assert (t = t') by congruence. subst t'.
      assert (Hc : (T0 - 10 < 23516 # 100)%Q) by (eapply Qlt_trans; eassumption).
      vm_compute in Hc. discriminate. }
    rewrite Hab, !andb_false_r. cbn. auto. }
  unfold filter_insects_in_falling in H. destruct (label_regions _ _).
  - apply H2, H3, H.
  - rewrite pixel_imapi in H. destruct (pixel (reclassify_ice_with_high_ldr obs m2) i j) as [c3|] eqn:E3; [|discriminate].
    cbn [option_map] in H. inv_some H.
    destruct (H2 c3 (H3 c3 eq_refl)) as [Hd Hf]. unfold assign. destruct (_ && _ && _); cbn [droplet falling set_aerosol set_insect set_falling].
    + auto.
    + auto.
Qed.

Lemma post_process_supercold obs m i j c : pixel (fst (post_process obs m)) i j = Some c -> supercold obs i j ->
  droplet c = false /\
  forall c0, pixel m i j = Some c0 -> droplet c0 = true ->
    falling c = true \/ speckle (before_speckle obs m) (i, j).
Proof.
  intros H Hs. apply remove_clutter_pixel in H.
  destruct H as (c1 & H1 & H). apply filter_falling_pixel in H1.
  destruct H1 as (c2 & H2 & H1).
  destruct (before_speckle_supercold obs m i j c2 H2 Hs) as [Hd Hf].
  assert (Hd1 : droplet c1 = false) by (destruct H1 as [[-> _]|(_ & _ & _ & -> & _)]; exact Hd).
  split.
  - destruct H as [[-> _]|(_ & _ & ->)]; [exact Hd1|exact Hd1].
  - intros c0 H0 Hd0. specialize (Hf c0 H0 Hd0).
    destruct H1 as [[-> _]|(Hsp & _)]; [|right; exact Hsp].
    left. destruct H as [[-> _]|(_ & _ & ->)]; [exact Hf|reflexivity].
Qed.
