(** Properties C01-C05, C30, C33, C35 (status), C49: bit fields and status
    variables. *)
From Verif Require Import Base BitsModel BitsProofs StatusModel StatusSpec StatusProofs.
Open Scope Z_scope.

(** ** C01: every flag survives packing into the file and reading back. *)
Theorem C01_category_roundtrip : forall m : image CategoryBits,
  read_category (write_category m) = m.
Proof. exact category_image_roundtrip. Qed.
Theorem C01_quality_roundtrip : forall m : image QualityBits,
  read_quality (write_quality m) = m.
Proof. exact quality_image_roundtrip. Qed.
Theorem C01_category_fits : forall m i j v,
  pixel (write_category m) i j = Some v -> 0 <= v < 64.
Proof. exact category_image_bound. Qed.
Theorem C01_quality_fits : forall m i j v,
  pixel (write_quality m) i j = Some v -> 0 <= v < 1024.
Proof. exact quality_image_bound. Qed.
(** The bit positions documented in the file. *)
Theorem C01_category_bits_documented : forall c,
  let v := classes_to_bits (category_fields c) in
  Z.testbit v 0 = droplet c /\ Z.testbit v 1 = falling c /\ Z.testbit v 2 = freezing c /\
  Z.testbit v 3 = melting c /\ Z.testbit v 4 = aerosol c /\ Z.testbit v 5 = insect c.
Proof. exact category_bit_meaning. Qed.
Theorem C01_quality_bits_documented : forall q,
  let v := classes_to_bits (quality_fields q) in
  Z.testbit v 0 = radar q /\ Z.testbit v 1 = lidar q /\ Z.testbit v 2 = clutter q /\
  Z.testbit v 3 = molecular q /\ Z.testbit v 4 = attenuated_liquid q /\
  Z.testbit v 5 = corrected_liquid q /\ Z.testbit v 6 = attenuated_rain q /\
  Z.testbit v 7 = corrected_rain q /\ Z.testbit v 8 = attenuated_melting q /\
  Z.testbit v 9 = corrected_melting q.
Proof. exact quality_bit_meaning. Qed.
Print Assumptions C01_category_roundtrip.
Print Assumptions C01_quality_roundtrip.
Print Assumptions C01_category_fits.
Print Assumptions C01_quality_fits.
Print Assumptions C01_category_bits_documented.
Print Assumptions C01_quality_bits_documented.

Definition ex_cat := {| droplet := true; falling := false; freezing := true;
  melting := false; aerosol := false; insect := true |}.
Definition ex_qual := {| radar := true; lidar := false; clutter := false; molecular := true;
  attenuated_liquid := true; corrected_liquid := true; attenuated_rain := false;
  corrected_rain := false; attenuated_melting := true; corrected_melting := false |}.
Example C01_nonvacuous :
  write_category [[ex_cat]; []] = [[37]; []] /\ write_quality [[ex_qual]] = [[313]]
  /\ read_quality [[313]] = [[ex_qual]].
Proof. vm_compute. auto. Qed.

(** ** C02: isbit / setbit. *)
Theorem C02_setbit_then_isbit : forall x n y m,
  setbit x n = Ok y -> 0 <= m -> isbit y m = if m =? n then Ok true else isbit x m.
Proof. exact setbit_spec. Qed.
(** [isbit] reads the binary digit: the remainder mod 2 after dividing by 2^n. *)
Theorem C02_isbit_is_binary_digit : forall x n, 0 <= n ->
  isbit x n = Ok (Z.odd (x / 2 ^ n)).
Proof.
  intros x n Hn. rewrite isbit_testbit by exact Hn. f_equal.
  rewrite Z.testbit_odd, Z.shiftr_div_pow2 by exact Hn. reflexivity.
Qed.
Theorem C02_setbit_idempotent : forall x n y, setbit x n = Ok y -> setbit y n = Ok y.
Proof. exact setbit_idempotent. Qed.
Theorem C02_setbit_order_irrelevant : forall x n m,
  bind (setbit x n) (fun y => setbit y m) = bind (setbit x m) (fun y => setbit y n).
Proof. exact setbit_comm. Qed.
Theorem C02_errors : forall x n,
  (isbit x n = Raise ValueError <-> n < 0) /\ (setbit x n = Raise ValueError <-> n < 0).
Proof. intros x n. split; [apply bit_error|apply setbit_error]. Qed.
Print Assumptions C02_setbit_then_isbit.
Print Assumptions C02_isbit_is_binary_digit.
Print Assumptions C02_setbit_idempotent.
Print Assumptions C02_setbit_order_irrelevant.
Print Assumptions C02_errors.
Example C02_nonvacuous :
  setbit 8 1 = Ok 10 /\ isbit 10 1 = Ok true /\ isbit 10 3 = Ok true /\ isbit 10 0 = Ok false
  /\ setbit 8 (-1) = Raise ValueError.
Proof. vm_compute. auto. Qed.

(** ** C03: target classification is the documented priority table. *)
Theorem C03_target_table : forall m i j,
  pixel (target_classification_field m) i j
  = option_map (fun p => target_spec (fst p) (clutter (snd p))) (pixel m i j).
Proof. exact target_field_correct. Qed.
Theorem C03_target_range : forall c q, 0 <= target_classification c q <= 10.
Proof. exact target_range. Qed.
Print Assumptions C03_target_table.
Print Assumptions C03_target_range.
Example C03_nonvacuous :
  target_classification_field
    [[({| droplet := true; falling := true; freezing := true; melting := false;
          aerosol := false; insect := false |}, ex_qual)]] = [[5]].
Proof. reflexivity. Qed.

(** ** C04: a detection status value holds exactly when its meaning holds. *)
Theorem C04_detection_status : forall m i j v,
  pixel (detection_status_field m) i j = Some v <->
  exists q, pixel m i j = Some q /\ detection_meaning q v.
Proof.
  intros m i j v. unfold detection_status_field. rewrite pixel_imap.
  destruct (pixel m i j) as [q|]; simpl.
  - split.
    + intros [= H]. exists q. split; [reflexivity|]. apply detection_correct. exact H.
    + intros (q' & [= <-] & H). apply detection_correct in H. congruence.
  - split; [discriminate|]. intros (q' & H & _). discriminate.
Qed.
Print Assumptions C04_detection_status.
Example C04_nonvacuous :
  detection_status ex_qual = 2 /\ detection_meaning ex_qual 2.
Proof. split; [reflexivity|]. apply detection_correct. reflexivity. Qed.

(** ** C05: radar and lidar flags are recoverable from the signal source. *)
Theorem C05_signal_source : forall m i j v,
  pixel (signal_source_status_field m) i j = Some v ->
  exists q, pixel m i j = Some q /\ source_flags v = Some (radar q, lidar q).
Proof.
  intros m i j v. unfold signal_source_status_field. rewrite pixel_imap.
  destruct (pixel m i j) as [q|]; simpl; [|discriminate].
  intros [= <-]. exists q. split; [reflexivity|apply signal_correct].
Qed.
Print Assumptions C05_signal_source.
Example C05_nonvacuous : signal_source_status_field [[ex_qual]] = [[2]].
Proof. reflexivity. Qed.

(** ** C30: ice products. *)
(** A value exists exactly at ice pixels with radar data and no uncorrected
    attenuation, and is then the retrieved one. *)
Theorem C30_value_only_for_reliable_ice : forall p v,
  icy_data p = Some v <->
  Ice (ip_cat p) /\ ~ some_uncorrected (ip_qual p) /\ ip_z p = Some v.
Proof. exact icy_data_iff. Qed.
Theorem C30_value_iff_status_1_or_3 : forall p,
  (exists v, icy_data p = Some v) <-> ice_status p = 1 \/ ice_status p = 3.
Proof. exact ice_value_iff_status. Qed.
(** Exact meaning of every value; 5 does not occur. *)
Theorem C30_status_meaning : forall p, ice_status_meaning p (ice_status p).
Proof. exact ice_status_correct. Qed.
(** The error variable exists only at such pixels, and the status filter of the
    model evaluation therefore removes nothing. *)
Theorem C30_error_only_for_reliable_ice : forall p err v,
  iwc_error_pixel p err = Some v -> Ice (ip_cat p) /\ ~ some_uncorrected (ip_qual p).
Proof. exact iwc_error_subset. Qed.
Theorem C30_evaluation_filter_is_identity : forall p, mask_iwc p = icy_data p.
Proof. exact mask_iwc_id. Qed.
Print Assumptions C30_value_only_for_reliable_ice.
Print Assumptions C30_value_iff_status_1_or_3.
Print Assumptions C30_status_meaning.
Print Assumptions C30_error_only_for_reliable_ice.
Print Assumptions C30_evaluation_filter_is_identity.
(** The rain flag of a profile, on which status 6 here and status 5 of the
    drizzle products depend: taken from the first of the three variables that is
    present, and set exactly where the value is masked or not zero. *)
Theorem C30_rain_flag : forall detected rainfall rate l,
  get_is_rain detected rainfall rate = Ok l ->
  exists d,
    (detected = Some d \/ detected = None /\ rainfall = Some d \/
     detected = None /\ rainfall = None /\ rate = Some d) /\
    length l = length d /\
    forall i, nth_error l i = Some true <->
      nth_error d i = Some None \/ exists v, nth_error d i = Some (Some v) /\ ~ (v == 0)%Q.
Proof. exact get_is_rain_spec. Qed.
Theorem C30_rain_flag_missing : forall detected rainfall rate,
  get_is_rain detected rainfall rate = Raise ValueError <->
  detected = None /\ rainfall = None /\ rate = None.
Proof. exact get_is_rain_raises. Qed.
Print Assumptions C30_rain_flag.
Print Assumptions C30_rain_flag_missing.
Example C30_rain_nonvacuous :
  get_is_rain None (Some [Some 0; None; Some (1#2)]%Q) (Some []) = Ok [false; true; true].
Proof. reflexivity. Qed.
Definition ex_ice := {| droplet := false; falling := true; freezing := true;
  melting := false; aerosol := false; insect := false |}.
Definition ex_ok := {| radar := true; lidar := true; clutter := false; molecular := false;
  attenuated_liquid := true; corrected_liquid := true; attenuated_rain := false;
  corrected_rain := false; attenuated_melting := false; corrected_melting := false |}.
Example C30_nonvacuous :
  ice_status {| ip_rain := true; ip_cat := ex_ice; ip_qual := ex_ok; ip_z := Some (1#2)%Q |} = 3
  /\ icy_data {| ip_rain := true; ip_cat := ex_ice; ip_qual := ex_ok; ip_z := Some (1#2)%Q |} = Some (1#2)%Q
  /\ ice_status {| ip_rain := true; ip_cat := ex_ice; ip_qual := ex_qual; ip_z := Some (1#2)%Q |} = 2
  /\ ice_status {| ip_rain := true; ip_cat := ex_cat; ip_qual := ex_ok; ip_z := None |} = 6.
Proof. vm_compute. auto. Qed.

(** ** C33: drizzle status. *)
(** Full statement wherever the velocity variance is not masked: profiles, any
    number of gates.  [cold] is "the profile has a melting layer". *)
Theorem C33_status_unmasked_partial : forall rows i j v,
  pixel (drizzle_status_field rows) i j = Some v ->
  exists rain profile p,
    nth_error rows i = Some (rain, profile) /\ nth_error profile j = Some p /\
    let has_melting := exists p', In p' profile /\ melting (dz_cat p') = true in
    (vs_masked (dz_v p) = false ->
     (v = 5 <-> rain = true) /\
     (v = 1 <-> drizzle_retrieved rain p = true /\ ~ has_melting) /\
     (v = 2 <-> drizzle_retrieved rain p = true /\ has_melting) /\
     (v = 3 <-> WouldBeDrizzle rain (dz_cat p) (dz_qual p)) /\
     (v = 4 <-> rain = false /\ droplet (dz_cat p) = true /\ freezing (dz_cat p) = false /\
                ~ WouldBeDrizzle rain (dz_cat p) (dz_qual p)) /\
     0 <= v <= 5 /\
     (drizzle_retrieved rain p = true <->
        DrizzleFlags rain (dz_cat p) (dz_qual p) /\ vs_finite (dz_v p) = true)).
Proof.
  intros rows i j v. rewrite drizzle_field_pixel.
  destruct (nth_error rows i) as [[rain profile]|] eqn:E1; [|discriminate].
  destruct (nth_error profile j) as [p|] eqn:E2; [|discriminate].
  simpl. intros [= <-]. exists rain, profile, p. split; [reflexivity|]. split; [exact E2|].
  intros Hm. rewrite <- cold_rain_iff.
  pose proof (drizzle_status_spec rain (cold_rain profile) p Hm) as H. cbv zeta in H.
  rewrite not_true_iff_false. exact H.
Qed.
(** Without the restriction the clauses about rain, would-be drizzle and warm
    liquid still hold, and retrieved pixels are 1 or 2. *)
Theorem C33_status_any_mask : forall rain cold p,
  let v := drizzle_status_pixel rain cold p in
  let c := dz_cat p in let q := dz_qual p in
  (v = 5 <-> rain = true) /\ (v = 3 <-> WouldBeDrizzle rain c q) /\
  (v = 4 <-> rain = false /\ droplet c = true /\ freezing c = false /\ ~ WouldBeDrizzle rain c q) /\
  (v = 2 -> drizzle_retrieved rain p = true) /\
  (drizzle_retrieved rain p = true -> v = 1 \/ v = 2) /\
  0 <= v <= 5.
Proof. exact drizzle_status_any. Qed.
Theorem C33_rainy_profiles_masked : forall v, drizzle_output true v = None.
Proof. exact drizzle_output_rain. Qed.
(** Refuted: status 1 (and never 2) is reported where v_sigma is masked although
    nothing is retrieved there, because the mask of the drizzle array is dropped
    when the status array is copied from it. *)
Theorem C33_status_refuted : exists rain cold p,
  drizzle_status_pixel rain cold p = 1 /\ drizzle_retrieved rain p = false.
Proof.
  exists false, false, {| dz_cat := {| droplet := false; falling := true; freezing := false;
      melting := false; aerosol := false; insect := false |};
    dz_qual := {| radar := true; lidar := true; clutter := false; molecular := false;
      attenuated_liquid := false; corrected_liquid := false; attenuated_rain := false;
      corrected_rain := false; attenuated_melting := false; corrected_melting := false |};
    dz_v := {| vs_masked := true; vs_finite := true |} |}.
  split; reflexivity.
Qed.
Print Assumptions C33_status_unmasked_partial.
Print Assumptions C33_status_any_mask.
Print Assumptions C33_rainy_profiles_masked.
Print Assumptions C33_status_refuted.
Example C33_nonvacuous :
  let q := {| radar := true; lidar := true; clutter := false; molecular := false;
      attenuated_liquid := false; corrected_liquid := false; attenuated_rain := false;
      corrected_rain := false; attenuated_melting := false; corrected_melting := false |} in
  let d := {| dz_cat := {| droplet := false; falling := true; freezing := false;
      melting := false; aerosol := false; insect := false |}; dz_qual := q;
      dz_v := {| vs_masked := false; vs_finite := true |} |} in
  let m := {| dz_cat := {| droplet := false; falling := true; freezing := false;
      melting := true; aerosol := false; insect := false |}; dz_qual := q;
      dz_v := {| vs_masked := false; vs_finite := true |} |} in
  let w := {| dz_cat := {| droplet := true; falling := true; freezing := false;
      melting := false; aerosol := false; insect := false |}; dz_qual := q;
      dz_v := {| vs_masked := false; vs_finite := true |} |} in
  drizzle_status_field [(false, [d; w]); (false, [d; m]); (true, [d; w])]
  = [[1; 3]; [2; 0]; [5; 5]].
Proof. reflexivity. Qed.

(** ** C35: droplet effective radius status. *)
Theorem C35_status : forall rain c retrieved,
  let v := der_status rain c retrieved in
  (v = 3 <-> retrieved = true /\ rain = true) /\
  (v = 2 <-> retrieved = true /\ rain = false /\ falling c = true /\ droplet c = true) /\
  (v = 1 <-> retrieved = true /\ rain = false /\ ~ (falling c = true /\ droplet c = true)) /\
  (v = 4 <-> retrieved = false /\ Ice c /\ droplet c = false) /\
  (v = 0 <-> retrieved = false /\ ~ (Ice c /\ droplet c = false)) /\
  0 <= v <= 4.
Proof. exact der_status_correct. Qed.
Print Assumptions C35_status.
Example C35_nonvacuous :
  der_status false ex_cat true = 1 /\ der_status false ex_ice false = 4 /\ der_status true ex_cat true = 3.
Proof. vm_compute. auto. Qed.

(** ** C49: observed cloud mask of the model evaluation. *)
Theorem C49_cloud_mask : forall m i j v,
  pixel (cloud_fraction_field m) i j = Some v ->
  exists c, pixel m i j = Some c /\ (v = 1 <-> Cloudy c) /\ (v = 0 <-> ~ Cloudy c).
Proof.
  intros m i j v. unfold cloud_fraction_field. rewrite pixel_imap.
  destruct (pixel m i j) as [c|]; simpl; [|discriminate].
  intros [= <-]. exists c. split; [reflexivity|apply cloud_fraction_correct].
Qed.
Theorem C49_binary : forall c, cloud_fraction_mask c = 0 \/ cloud_fraction_mask c = 1.
Proof. exact cloud_fraction_range. Qed.
Print Assumptions C49_cloud_mask.
Print Assumptions C49_binary.
Example C49_nonvacuous : cloud_fraction_field [[ex_ice; ex_cat]] = [[1; 0]].
Proof. reflexivity. Qed.
