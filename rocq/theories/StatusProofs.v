From Verif Require Import Base BitsModel StatusModel StatusSpec.
Open Scope Z_scope.

(** The flag space is finite; case analysis over it is complete. *)
Ltac all_flags c := destruct c as [[] [] [] [] [] []].

Lemma target_correct c q : target_classification c q = target_spec c (clutter q).
Proof.
  unfold target_classification, target_spec. destruct (clutter q); all_flags c; reflexivity.
Qed.

Lemma target_field_correct m i j :
  pixel (target_classification_field m) i j
  = option_map (fun p => target_spec (fst p) (clutter (snd p))) (pixel m i j).
Proof.
  unfold target_classification_field. rewrite pixel_imap.
  destruct (pixel m i j) as [p|]; simpl; [f_equal; apply target_correct|reflexivity].
Qed.

Lemma target_range c q : 0 <= target_classification c q <= 10.
Proof. rewrite target_correct. unfold target_spec. destruct (clutter q); all_flags c; simpl; lia. Qed.

Lemma not_true_false b : b <> true <-> b = false.
Proof. destruct b; split; intros; congruence. Qed.

Lemma some_att_iff q : some_att q <-> is_attenuated_mask q = true.
Proof.
  unfold some_att, is_attenuated_mask. split.
  - intros [[] H]; simpl in H; rewrite H, ?orb_true_r; reflexivity.
  - intros H. apply orb_true_iff in H as [H|H]; [apply orb_true_iff in H as [H|H]|].
    + exists Liquid; exact H. + exists Rain; exact H. + exists Melting; exact H.
Qed.

Lemma all_corrected_iff q : all_corrected q <-> is_corrected_mask q = true.
Proof.
  unfold all_corrected, is_corrected_mask. rewrite some_att_iff.
  rewrite !andb_true_iff. split.
  - intros [H1 H2]. pose proof (H2 Liquid) as Hl. pose proof (H2 Rain) as Hr.
    pose proof (H2 Melting) as Hm. simpl in *.
    destruct (attenuated_liquid q), (attenuated_rain q), (attenuated_melting q);
      simpl; rewrite ?Hl, ?Hr, ?Hm; auto.
  - intros [[[H1 Hl] Hr] Hm]. split; [exact H1|]. intros [] H; simpl in *;
      rewrite H in *; simpl in *; assumption.
Qed.

Lemma some_uncorrected_iff q :
  some_uncorrected q <-> is_attenuated_mask q = true /\ is_corrected_mask q = false.
Proof.
  split.
  - intros (k & Ha & Hc). split; [apply some_att_iff; exists k; exact Ha|].
    apply not_true_iff_false. intros H. apply all_corrected_iff in H as [_ H].
    exact (Hc (H k Ha)).
  - intros [Ha Hc]. unfold is_corrected_mask in Hc. rewrite Ha in Hc. simpl in Hc.
    unfold some_uncorrected.
    destruct (attenuated_liquid q) eqn:E1, (corrected_liquid q) eqn:E2; simpl in Hc;
      try (exists Liquid; simpl; rewrite ?E1, ?E2; split; [reflexivity|discriminate]);
    destruct (attenuated_rain q) eqn:E3, (corrected_rain q) eqn:E4; simpl in Hc;
      try (exists Rain; simpl; rewrite ?E3, ?E4; split; [reflexivity|discriminate]);
    destruct (attenuated_melting q) eqn:E5, (corrected_melting q) eqn:E6; simpl in Hc;
      try discriminate;
      (exists Melting; simpl; rewrite ?E5, ?E6; split; [reflexivity|discriminate]).
Qed.

Lemma corrected_attenuated q : is_corrected_mask q = true -> is_attenuated_mask q = true.
Proof. unfold is_corrected_mask. rewrite !andb_true_iff. tauto. Qed.

Lemma detection_correct q v : detection_status q = v <-> detection_meaning q v.
Proof.
  assert (Hfun : detection_meaning q (detection_status q)).
  { unfold detection_status, detection_meaning, R, L.
    pose proof (corrected_attenuated q) as Hca.
    destruct (is_attenuated_mask q) eqn:Ea, (is_corrected_mask q) eqn:Ec;
      try (specialize (Hca eq_refl); discriminate);
    destruct (radar q), (lidar q), (clutter q), (molecular q); simpl;
      rewrite ?some_att_iff, ?some_uncorrected_iff, ?all_corrected_iff, ?Ea, ?Ec;
      intuition congruence. }
  split; [intros <-; exact Hfun|]. clear Hfun. intros H.
  pose proof (corrected_attenuated q) as Hca.
  unfold detection_status, assign. cbv zeta.
  assert (Hra : v = 0 \/ v = 1 \/ v = 2 \/ v = 3 \/ v = 4 \/ v = 5 \/ v = 6 \/ v = 7 \/ v = 8 \/ v = 9).
  { unfold detection_meaning in H. destruct v as [|p|p]; [lia| |contradiction].
    do 4 (destruct p as [p|p|]; try contradiction; try lia). }
  repeat (destruct Hra as [->|Hra]); try subst v; unfold detection_meaning, R, L in H;
  rewrite ?some_att_iff, ?some_uncorrected_iff, ?all_corrected_iff in H;
  destruct (is_attenuated_mask q), (is_corrected_mask q);
    try (specialize (Hca eq_refl); discriminate);
  destruct (radar q), (lidar q), (clutter q), (molecular q); simpl;
    try reflexivity; exfalso; intuition congruence.
Qed.

Lemma signal_correct q : source_flags (signal_source_status q) = Some (radar q, lidar q).
Proof. unfold signal_source_status. destruct (radar q), (lidar q); reflexivity. Qed.

(** ** Ice *)
Lemma ice_iff c : Ice c <-> ice_is_ice c = true.
Proof. unfold Ice, ice_is_ice. all_flags c; simpl; intuition congruence. Qed.

Lemma ice_attenuated_mask q : ice_attenuated q = is_attenuated_mask q.
Proof. reflexivity. Qed.

Lemma uncorrected_ice_iff c q :
  uncorrected_ice c q = true <-> Ice c /\ some_uncorrected q.
Proof.
  rewrite ice_iff, some_uncorrected_iff. unfold uncorrected_ice.
  rewrite ice_attenuated_mask. unfold is_corrected_mask.
  destruct (is_attenuated_mask q) eqn:Ea; rewrite ?andb_true_r, ?andb_false_r; simpl;
    [|intuition congruence].
  destruct (ice_is_ice c); simpl; [|intuition congruence].
  destruct (attenuated_liquid q), (corrected_liquid q), (attenuated_rain q), (corrected_rain q),
    (attenuated_melting q), (corrected_melting q); simpl; intuition congruence.
Qed.

Lemma icy_data_iff p v :
  icy_data p = Some v <->
  Ice (ip_cat p) /\ ~ some_uncorrected (ip_qual p) /\ ip_z p = Some v.
Proof.
  unfold icy_data, assign.
  pose proof (uncorrected_ice_iff (ip_cat p) (ip_qual p)) as Hu.
  pose proof (ice_iff (ip_cat p)) as Hi.
  destruct (ice_is_ice (ip_cat p)) eqn:Ei, (uncorrected_ice (ip_cat p) (ip_qual p)) eqn:Eu;
    simpl; intuition (try congruence).
Qed.

Record ice_status_meaning (p : ice_pixel) (v : Z) : Prop := {
  ism_1 : v = 1 <-> (exists x, icy_data p = Some x) /\
                    ~ (some_att (ip_qual p) /\ exists k, corr (ip_qual p) k);
  ism_3 : v = 3 <-> (exists x, icy_data p = Some x) /\
                    some_att (ip_qual p) /\ exists k, corr (ip_qual p) k;
  ism_4 : v = 4 <-> Ice (ip_cat p) /\ ~ some_uncorrected (ip_qual p) /\ ip_z p = None;
  ism_2 : v = 2 <-> Ice (ip_cat p) /\ some_uncorrected (ip_qual p);
  ism_6 : v = 6 <-> ~ Ice (ip_cat p) /\ ip_rain p = true /\
                    freezing (ip_cat p) = true /\ melting (ip_cat p) = false;
  ism_7 : v = 7 <-> melting (ip_cat p) = true \/
                    (falling (ip_cat p) = true /\ freezing (ip_cat p) = false /\
                     insect (ip_cat p) = false);
  ism_range : In v [0; 1; 2; 3; 4; 6; 7] }.

Lemma some_corr_iff q : (exists k, corr q k) <-> ice_corrected_any q = true.
Proof.
  unfold ice_corrected_any. split.
  - intros [[] H]; simpl in H; rewrite H, ?orb_true_r; reflexivity.
  - intros H. apply orb_true_iff in H as [H|H]; [apply orb_true_iff in H as [H|H]|].
    + exists Liquid; exact H. + exists Rain; exact H. + exists Melting; exact H.
Qed.

Lemma ice_status_cases p :
  ice_status p =
  let c := ip_cat p in let q := ip_qual p in
  if ice_is_ice c then
    if uncorrected_ice c q then 2 else if is_masked (ip_z p) then 4
    else if is_attenuated_mask q && ice_corrected_any q then 3 else 1
  else if ip_rain p && freezing c && negb (melting c) then 6
  else if ice_would_be c then 7 else 0.
Proof.
  unfold ice_status, icy_data, corrected_ice, clear_above_rain, assign. cbv zeta.
  rewrite ice_attenuated_mask.
  destruct (ice_is_ice (ip_cat p)) eqn:Ei.
  - simpl. rewrite andb_false_r. simpl.
    destruct (uncorrected_ice (ip_cat p) (ip_qual p)); simpl.
    + rewrite andb_false_r. reflexivity.
    + destruct (ip_z p); simpl; [|rewrite andb_false_r; reflexivity].
      destruct (is_attenuated_mask (ip_qual p) && ice_corrected_any (ip_qual p)); simpl;
        rewrite andb_false_r; reflexivity.
  - assert (Hu : uncorrected_ice (ip_cat p) (ip_qual p) = false).
    { unfold uncorrected_ice. rewrite Ei. reflexivity. }
    rewrite Hu. simpl. rewrite andb_true_r.
    destruct (ip_rain p && freezing (ip_cat p) && negb (melting (ip_cat p))); simpl.
    + rewrite andb_false_r. reflexivity.
    + rewrite andb_true_r. reflexivity.
Qed.

Lemma ice_status_correct p : ice_status_meaning p (ice_status p).
Proof.
  assert (Hex : (exists x, icy_data p = Some x) <->
    ice_is_ice (ip_cat p) = true /\ uncorrected_ice (ip_cat p) (ip_qual p) = false
    /\ is_masked (ip_z p) = false).
  { unfold icy_data, assign.
    destruct (ice_is_ice (ip_cat p)), (uncorrected_ice (ip_cat p) (ip_qual p)), (ip_z p);
      simpl; split; try (intros [? ?]; congruence); try (intros (? & ? & ?); congruence);
      eauto. }
  assert (Hz : ip_z p = None <-> is_masked (ip_z p) = true).
  { destruct (ip_z p); simpl; split; congruence. }
  assert (Hu : ice_is_ice (ip_cat p) = true ->
    (some_uncorrected (ip_qual p) <-> uncorrected_ice (ip_cat p) (ip_qual p) = true)).
  { intros H. rewrite uncorrected_ice_iff, ice_iff. tauto. }
  assert (Hw : ice_would_be (ip_cat p) = true <-> melting (ip_cat p) = true \/
                    (falling (ip_cat p) = true /\ freezing (ip_cat p) = false /\
                     insect (ip_cat p) = false)).
  { unfold ice_would_be. rewrite orb_true_iff, !andb_true_iff, !negb_true_iff. tauto. }
  assert (Hx : ip_rain p && freezing (ip_cat p) && negb (melting (ip_cat p)) = true <->
    ip_rain p = true /\ freezing (ip_cat p) = true /\ melting (ip_cat p) = false).
  { rewrite !andb_true_iff, !negb_true_iff. tauto. }
  assert (Hwi : ice_would_be (ip_cat p) = true -> ice_is_ice (ip_cat p) = false).
  { unfold ice_would_be, ice_is_ice. all_flags (ip_cat p); simpl; congruence. }
  assert (Hwx : ice_would_be (ip_cat p) = true ->
    ip_rain p && freezing (ip_cat p) && negb (melting (ip_cat p)) = false).
  { unfold ice_would_be. destruct (ip_rain p); all_flags (ip_cat p); simpl; congruence. }
  split; rewrite ?Hex, ?Hz, ?some_att_iff, ?some_corr_iff, ?ice_iff, <- ?Hx, <- ?Hw;
    rewrite ice_status_cases; cbv zeta;
    clear Hex Hz Hw Hx;
    destruct (ice_is_ice (ip_cat p)); try (rewrite Hu by reflexivity);
    try clear Hu;
    destruct (uncorrected_ice (ip_cat p) (ip_qual p)), (is_masked (ip_z p)),
      (is_attenuated_mask (ip_qual p)), (ice_corrected_any (ip_qual p)),
      (ip_rain p && freezing (ip_cat p) && negb (melting (ip_cat p))),
      (ice_would_be (ip_cat p));
    simpl; try (specialize (Hwi eq_refl)); try (specialize (Hwx eq_refl)); try discriminate;
    clear Hwi Hwx;
    repeat match goal with |- _ <-> _ => split; intros | H : _ /\ _ |- _ => destruct H end;
    try discriminate; auto 9; try (exfalso; auto; fail); try tauto; try (intuition congruence).
Qed.

Lemma ice_value_iff_status p :
  (exists v, icy_data p = Some v) <-> ice_status p = 1 \/ ice_status p = 3.
Proof.
  pose proof (ice_status_correct p) as H. rewrite (ism_1 _ _ H), (ism_3 _ _ H).
  rewrite some_att_iff, some_corr_iff.
  destruct (is_attenuated_mask (ip_qual p)), (ice_corrected_any (ip_qual p)); intuition.
Qed.

Lemma mask_iwc_id p : mask_iwc p = icy_data p.
Proof.
  unfold mask_iwc, assign.
  destruct (icy_data p) as [v|] eqn:E.
  - assert (H : exists v, icy_data p = Some v) by eauto.
    apply ice_value_iff_status in H as [H|H]; rewrite H; reflexivity.
  - destruct (negb _); reflexivity.
Qed.

Lemma iwc_error_subset p err v :
  iwc_error_pixel p err = Some v -> Ice (ip_cat p) /\ ~ some_uncorrected (ip_qual p).
Proof.
  unfold iwc_error_pixel, assign.
  pose proof (uncorrected_ice_iff (ip_cat p) (ip_qual p)) as Hu.
  pose proof (ice_iff (ip_cat p)) as Hi.
  destruct (ice_is_ice (ip_cat p)), (uncorrected_ice (ip_cat p) (ip_qual p));
    simpl; intuition congruence.
Qed.

(** ** Droplet effective radius *)
Lemma der_status_correct rain c r :
  let v := der_status rain c r in
  (v = 3 <-> r = true /\ rain = true) /\
  (v = 2 <-> r = true /\ rain = false /\ falling c = true /\ droplet c = true) /\
  (v = 1 <-> r = true /\ rain = false /\ ~ (falling c = true /\ droplet c = true)) /\
  (v = 4 <-> r = false /\ Ice c /\ droplet c = false) /\
  (v = 0 <-> r = false /\ ~ (Ice c /\ droplet c = false)) /\
  0 <= v <= 4.
Proof.
  unfold der_status, der_is_ice, der_is_mixed, Ice.
  destruct rain, r; all_flags c; simpl; intuition (try congruence; try lia).
Qed.

(** ** Drizzle *)
Lemma drizzle_flags_iff rain c q : drizzle_flags rain c q = true <-> DrizzleFlags rain c q.
Proof.
  unfold drizzle_flags, DrizzleFlags. rewrite !andb_true_iff, !negb_true_iff. tauto.
Qed.
Lemma would_be_iff rain c q : would_be_drizzle rain c q = true <-> WouldBeDrizzle rain c q.
Proof.
  unfold would_be_drizzle, WouldBeDrizzle, warm_liquid.
  rewrite !andb_true_iff, !negb_true_iff. tauto.
Qed.

(** Status of a pixel, given whether the start value is set. *)
Lemma drizzle_status_cases rain cold p :
  drizzle_status_pixel rain cold p =
  if rain then 5
  else if would_be_drizzle rain (dz_cat p) (dz_qual p) then 3
  else if drizzle_data rain p then (if cold && negb (vs_masked (dz_v p)) then 2 else 1)
  else if warm_liquid (dz_cat p) then 4 else 0.
Proof.
  unfold drizzle_status_pixel, drizzle_eq1, assign. cbv zeta.
  destruct rain; [reflexivity|].
  destruct (would_be_drizzle false (dz_cat p) (dz_qual p)); [reflexivity|].
  destruct (drizzle_data false p), cold, (vs_masked (dz_v p)), (warm_liquid (dz_cat p)); reflexivity.
Qed.

Lemma drizzle_data_droplet rain p :
  drizzle_data rain p = true -> droplet (dz_cat p) = false /\ rain = false.
Proof.
  unfold drizzle_data. rewrite andb_true_iff, drizzle_flags_iff. unfold DrizzleFlags. tauto.
Qed.

Lemma drizzle_status_spec rain cold p :
  let v := drizzle_status_pixel rain cold p in
  let c := dz_cat p in let q := dz_qual p in
  (vs_masked (dz_v p) = false) ->
  (v = 5 <-> rain = true) /\
  (v = 1 <-> drizzle_retrieved rain p = true /\ cold = false) /\
  (v = 2 <-> drizzle_retrieved rain p = true /\ cold = true) /\
  (v = 3 <-> WouldBeDrizzle rain c q) /\
  (v = 4 <-> rain = false /\ droplet c = true /\ freezing c = false /\ ~ WouldBeDrizzle rain c q) /\
  0 <= v <= 5 /\
  (drizzle_retrieved rain p = true <-> DrizzleFlags rain c q /\ vs_finite (dz_v p) = true).
Proof.
  cbv zeta. intros Hm. rewrite drizzle_status_cases. rewrite Hm.
  pose proof (would_be_iff rain (dz_cat p) (dz_qual p)) as Hw.
  unfold drizzle_retrieved, drizzle_eq1. rewrite Hm. rewrite andb_true_r.
  pose proof (drizzle_data_droplet rain p) as Hd.
  assert (Hdd : drizzle_data rain p = true <->
     DrizzleFlags rain (dz_cat p) (dz_qual p) /\ vs_finite (dz_v p) = true).
  { unfold drizzle_data. rewrite andb_true_iff, drizzle_flags_iff. tauto. }
  rewrite <- Hw. clear Hw.
  assert (Hwd : would_be_drizzle rain (dz_cat p) (dz_qual p) = true -> droplet (dz_cat p) = true /\ rain = false).
  { rewrite would_be_iff. unfold WouldBeDrizzle. tauto. }
  assert (Hwl : warm_liquid (dz_cat p) = true <-> droplet (dz_cat p) = true /\ freezing (dz_cat p) = false).
  { unfold warm_liquid. rewrite andb_true_iff, negb_true_iff. tauto. }
  destruct rain, (would_be_drizzle _ (dz_cat p) (dz_qual p)), (drizzle_data _ p), cold,
    (warm_liquid (dz_cat p)); simpl; intuition (try congruence; try lia).
Qed.

(** Without the assumption on the mask: the clauses that survive. *)
Lemma drizzle_status_any rain cold p :
  let v := drizzle_status_pixel rain cold p in
  let c := dz_cat p in let q := dz_qual p in
  (v = 5 <-> rain = true) /\ (v = 3 <-> WouldBeDrizzle rain c q) /\
  (v = 4 <-> rain = false /\ droplet c = true /\ freezing c = false /\ ~ WouldBeDrizzle rain c q) /\
  (v = 2 -> drizzle_retrieved rain p = true) /\
  (drizzle_retrieved rain p = true -> v = 1 \/ v = 2) /\
  0 <= v <= 5.
Proof.
  cbv zeta. rewrite drizzle_status_cases.
  pose proof (would_be_iff rain (dz_cat p) (dz_qual p)) as Hw.
  pose proof (drizzle_data_droplet rain p) as Hd.
  unfold drizzle_retrieved, drizzle_eq1.
  assert (Hwd : would_be_drizzle rain (dz_cat p) (dz_qual p) = true -> droplet (dz_cat p) = true /\ rain = false).
  { rewrite would_be_iff. unfold WouldBeDrizzle. tauto. }
  assert (Hwl : warm_liquid (dz_cat p) = true <-> droplet (dz_cat p) = true /\ freezing (dz_cat p) = false).
  { unfold warm_liquid. rewrite andb_true_iff, negb_true_iff. tauto. }
  rewrite <- Hw.
  destruct rain, (would_be_drizzle _ (dz_cat p) (dz_qual p)), (drizzle_data _ p), cold,
    (warm_liquid (dz_cat p)), (vs_masked (dz_v p)); simpl; intuition (try congruence; try lia).
Qed.

Lemma cold_rain_iff profile :
  cold_rain profile = true <-> exists p, In p profile /\ melting (dz_cat p) = true.
Proof. unfold cold_rain. rewrite existsb_exists. reflexivity. Qed.

Lemma drizzle_field_pixel rows i j :
  pixel (drizzle_status_field rows) i j =
  match nth_error rows i with
  | None => None
  | Some (rain, profile) =>
      option_map (drizzle_status_pixel rain (cold_rain profile)) (nth_error profile j)
  end.
Proof.
  unfold pixel, drizzle_status_field. rewrite nth_error_map'.
  destruct (nth_error rows i) as [[rain profile]|]; simpl; [|reflexivity].
  unfold drizzle_status_profile. apply nth_error_map'.
Qed.

Lemma drizzle_output_rain v : drizzle_output true v = None.
Proof. reflexivity. Qed.

(** ** Cloud fraction *)
Lemma cloud_fraction_correct c :
  (cloud_fraction_mask c = 1 <-> Cloudy c) /\ (cloud_fraction_mask c = 0 <-> ~ Cloudy c).
Proof.
  unfold cloud_fraction_mask, Cloudy. all_flags c; vm_compute; intuition congruence.
Qed.
Lemma cloud_fraction_range c : cloud_fraction_mask c = 0 \/ cloud_fraction_mask c = 1.
Proof. all_flags c; vm_compute; auto. Qed.

(** Rain flag. *)
Lemma get_is_rain_spec : forall detected rainfall rate l,
  get_is_rain detected rainfall rate = Ok l ->
  exists d,
    (detected = Some d \/ detected = None /\ rainfall = Some d \/
     detected = None /\ rainfall = None /\ rate = Some d) /\
    length l = length d /\
    forall i, nth_error l i = Some true <->
      nth_error d i = Some None \/ exists v, nth_error d i = Some (Some v) /\ ~ (v == 0)%Q.
Proof.
  intros a b c l H.
  assert (Hd : exists d, (a = Some d \/ a = None /\ b = Some d \/ a = None /\ b = None /\ c = Some d)
                         /\ l = map is_rain_value d).
  { unfold get_is_rain in H. destruct a as [d|]; [|destruct b as [d|]; [|destruct c as [d|]]];
      try discriminate; exists d; (split; [auto|congruence]). }
  destruct Hd as [d [Hc ->]]. exists d. split; [exact Hc|]. split; [apply map_length|].
  intros i. rewrite nth_error_map'. unfold is_rain_value.
  destruct (nth_error d i) as [[v|]|]; cbn [option_map].
  - split.
    + intros E. right. exists v. split; [reflexivity|]. intros Z. apply Qeq_bool_iff in Z.
      rewrite Z in E. discriminate.
    + intros [E|[w [E N]]]; [discriminate|]. assert (w = v) by congruence; subst.
      destruct (Qeq_bool v 0) eqn:Z; [apply Qeq_bool_iff in Z; contradiction|reflexivity].
  - split; auto.
  - split; [discriminate|]. intros [E|[w [E _]]]; discriminate.
Qed.

Lemma get_is_rain_raises : forall detected rainfall rate,
  get_is_rain detected rainfall rate = Raise ValueError <->
  detected = None /\ rainfall = None /\ rate = None.
Proof.
  intros [a|] [b|] [c|]; cbn; split; try (intros (? & ? & ?)); try discriminate; auto.
Qed.
