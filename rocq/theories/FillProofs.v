From Verif Require Import Base BitsModel StatusModel StatusSpec StatusProofs ArrayModel ArraySpec
  ArrayProofs FillModel FillSpec LayerModel.
From Coq Require Import Lqa Qabs.
Open Scope nat_scope.

Lemma qgt_iff a b : qgt a b = true <-> (b < a)%Q.
Proof.
  unfold qgt. rewrite negb_true_iff. split.
  - intros H. destruct (Qlt_le_dec b a) as [|Hle]; [assumption|].
    apply Qle_bool_iff in Hle. congruence.
  - intros H. apply not_true_iff_false. intros Hc. apply Qle_bool_iff in Hc. lra.
Qed.
Lemma qgt_false a b : qgt a b = false <-> (a <= b)%Q.
Proof.
  unfold qgt. rewrite negb_false_iff. apply Qle_bool_iff.
Qed.

(** ** Radar attenuation status *)
Definition sev_of (p : att_profile) (px : att_pixel) : Z := att_severity (prof_lwp p) (prof_rain p) px.

Lemma att_status_length p :
  length (radar_attenuation_status_profile p) = length (pr_pixels p).
Proof.
  unfold radar_attenuation_status_profile. rewrite map2_length, combine_length, ffill_bool_length,
    !map_length. lia.
Qed.

Lemma att_status_pixel p j v :
  nth_error (radar_attenuation_status_profile p) j = Some v <->
  exists px, nth_error (pr_pixels p) j = Some px /\
    ((v = 6%Z /\ sev_of p px <> 4%Z /\
      exists k pk, k <= j /\ nth_error (pr_pixels p) k = Some pk /\ sev_of p pk = 4%Z)
     \/ (v = sev_of p px /\
         (sev_of p px = 4%Z \/
          forall k pk, k <= j -> nth_error (pr_pixels p) k = Some pk -> sev_of p pk <> 4%Z))).
Proof.
  unfold radar_attenuation_status_profile.
  set (sevs := map (att_severity (prof_lwp p) (prof_rain p)) (pr_pixels p)).
  set (issev := map (fun s => (s =? 4)%Z) sevs).
  rewrite nth_error_map2, nth_error_combine.
  assert (Hs : nth_error sevs j = option_map (sev_of p) (nth_error (pr_pixels p) j)).
  { unfold sevs. rewrite nth_error_map'. reflexivity. }
  assert (Hi : forall k, nth_error issev k = option_map (fun px => (sev_of p px =? 4)%Z) (nth_error (pr_pixels p) k)).
  { intros k. unfold issev, sevs. rewrite !nth_error_map'. destruct (nth_error (pr_pixels p) k); reflexivity. }
  rewrite Hs, (Hi j).
  destruct (nth_error (pr_pixels p) j) as [px|] eqn:Ej; simpl.
  2:{ split; [discriminate|]. intros (px & H & _). discriminate. }
  assert (Hlen : length issev = length (pr_pixels p)) by (unfold issev, sevs; rewrite !map_length; reflexivity).
  assert (Hjl : j < length issev) by (rewrite Hlen; eapply nth_error_Some_lt; exact Ej).
  destruct (nth_error_lt_Some (ffill_bool issev) j) as [ab Hab]; [rewrite ffill_bool_length; exact Hjl|].
  rewrite Hab. simpl.
  assert (Habt : ab = true <-> exists k pk, k <= j /\ nth_error (pr_pixels p) k = Some pk /\ sev_of p pk = 4%Z).
  { pose proof (ffill_bool_true issev j) as H. rewrite Hab in H. split.
    - intros ->. destruct (proj1 H eq_refl) as (_ & k & Hk & Hx). rewrite Hi in Hx.
      destruct (nth_error (pr_pixels p) k) as [pk|] eqn:Ek; [|discriminate]. simpl in Hx. injection Hx as Hx.
      exists k, pk. split; [exact Hk|]. split; [exact Ek|]. apply Z.eqb_eq. exact Hx.
    - intros (k & pk & Hk & Ek & Hx). assert (Hb : Some ab = Some true); [|congruence].
      apply H. split; [exact Hjl|]. exists k. split; [exact Hk|]. rewrite Hi, Ek. simpl. rewrite Hx. reflexivity. }
  unfold assign. destruct (Z.eqb_spec (sev_of p px) 4) as [E4|E4].
  - rewrite andb_false_r. split.
    + intros [= <-]. exists px. split; [reflexivity|]. right. auto.
    + intros (px' & [= <-] & [(_ & H & _)|(-> & _)]); [congruence|reflexivity].
  - rewrite andb_true_r. destruct ab.
    + split.
      * intros [= <-]. exists px. split; [reflexivity|]. left. split; [reflexivity|]. split; [exact E4|].
        apply Habt. reflexivity.
      * intros (px' & [= <-] & [(-> & _)|(_ & [H|H])]); [reflexivity|congruence|].
        exfalso. destruct (proj1 Habt eq_refl) as (k & pk & Hk & Ek & Hx). exact (H k pk Hk Ek Hx).
    + split.
      * intros [= <-]. exists px. split; [reflexivity|]. right. split; [reflexivity|]. right.
        intros k pk Hk Ek Hx. assert (false = true); [|discriminate]. apply Habt. eauto.
      * intros (px' & [= <-] & [(_ & _ & Hex)|(-> & _)]); [|reflexivity].
        exfalso. assert (false = true); [|discriminate]. apply Habt. exact Hex.
Qed.

Lemma severity_correct p px : severity_meaning p px (sev_of p px).
Proof.
  unfold sev_of, severity_meaning, att_severity, assign. cbv zeta.
  change (or_zero (ap_liquid px) + or_zero (ap_rain px) + or_zero (ap_melting px))%Q with (total_atten px).
  change (if pr_w_band p then or_zero (pr_lwp p) else 0)%Q with (prof_lwp p).
  change (if pr_w_band p then or_zero (pr_rain_rate p) else 0)%Q with (prof_rain p).
  set (t := total_atten px). set (lw := prof_lwp p). set (ra := prof_rain p).
  assert (Hu : negb (is_corrected_mask (ap_qual px)) && is_attenuated_mask (ap_qual px) = true
          <-> some_uncorrected (ap_qual px)).
  { rewrite some_uncorrected_iff, andb_true_iff, negb_true_iff. tauto. }
  destruct (radar (ap_qual px)); rewrite ?andb_true_r, ?andb_false_r; [right; split; [reflexivity|]|left; auto].
  destruct (negb (is_corrected_mask (ap_qual px)) && is_attenuated_mask (ap_qual px)).
  { left. split; [reflexivity|]. apply Hu. reflexivity. }
  right. split; [rewrite <- Hu; discriminate|].
  unfold att_severe, att_moderate, att_small.
  destruct (qgt t 15 || qgt lw 1 || qgt ra 3) eqn:Es.
  { left. split; [reflexivity|]. rewrite !orb_true_iff, !qgt_iff in Es. tauto. }
  right. rewrite !orb_false_iff, !qgt_false in Es. destruct Es as [[E1 E2] E3].
  assert (Hn : ~ (15 < t \/ 1 < lw \/ 3 < ra)%Q) by (intros [H|[H|H]]; lra).
  destruct (Qle_bool 10 t) eqn:Em.
  { left. apply Qle_bool_iff in Em. auto. }
  right. assert (t < 10)%Q.
  { destruct (Qlt_le_dec t 10) as [|Hle]; [assumption|]. apply Qle_bool_iff in Hle. congruence. }
  destruct (qgt t 0) eqn:E0.
  - left. apply qgt_iff in E0. auto.
  - right. apply qgt_false in E0. auto.
Qed.

Lemma sev_range p px : (0 <= sev_of p px <= 5)%Z /\ (sev_of p px <> 0%Z <-> radar (ap_qual px) = true).
Proof.
  pose proof (severity_correct p px) as H. unfold severity_meaning in H. cbv zeta in H.
  destruct H as [[-> Hr]|[Hr H]].
  - split; [lia|]. rewrite Hr. split; [congruence|discriminate].
  - assert (Hx : (1 <= sev_of p px <= 5)%Z) by (intuition lia). split; [lia|]. split; [auto|lia].
Qed.

(** What is true of the reported status. *)
Lemma att_status_sound p j v :
  nth_error (radar_attenuation_status_profile p) j = Some v ->
  exists px, nth_error (pr_pixels p) j = Some px /\
    (0 <= v <= 6)%Z /\
    ((1 <= v <= 5)%Z -> radar (ap_qual px) = true) /\
    (v = 0%Z -> radar (ap_qual px) = false) /\
    (v <> 6%Z -> severity_meaning p px v) /\
    (v = 6%Z <-> ~ severity_meaning p px 4%Z /\
       exists k, k < j /\ nth_error (radar_attenuation_status_profile p) k = Some 4%Z).
Proof.
  intros H. pose proof H as H0. apply att_status_pixel in H as (px & Ej & Hc). exists px. split; [exact Ej|].
  pose proof (sev_range p px) as [Hr1 Hr2]. pose proof (severity_correct p px) as Hm.
  assert (H4 : forall px', severity_meaning p px' 4%Z <-> sev_of p px' = 4%Z).
  { intros px'. pose proof (severity_correct p px') as Hm'. split; intros Hx.
    - unfold severity_meaning in Hx, Hm'. cbv zeta in *.
      destruct Hx as [[Hx _]|[Hrx [[Hx _]|(Hu & [(_ & Hs)|[(Hx & _)|[(Hx & _)|(Hx & _)]]])]]]; try discriminate.
      destruct Hm' as [[_ Hx]|[_ [[_ Hx]|(_ & [(Hx & _)|[(_ & Hx & _)|[(_ & Hx & _)|(_ & Hx & _)]]])]]];
        try congruence; tauto.
    - rewrite Hx in Hm'. exact Hm'. }
  assert (Hk4 : forall k pk, nth_error (pr_pixels p) k = Some pk -> sev_of p pk = 4%Z ->
      nth_error (radar_attenuation_status_profile p) k = Some 4%Z).
  { intros k pk Ek Hx. apply att_status_pixel. exists pk. split; [exact Ek|]. right. rewrite Hx. auto. }
  assert (H4k : forall k, nth_error (radar_attenuation_status_profile p) k = Some 4%Z ->
      exists pk, nth_error (pr_pixels p) k = Some pk /\ sev_of p pk = 4%Z).
  { intros k Hx. apply att_status_pixel in Hx as (pk & Ek & [(Hx & _)|(Hx & _)]); [discriminate|]. eauto. }
  destruct Hc as [(-> & Hn & k & pk & Hk & Ek & Hx)|(-> & Hd)].
  - split; [lia|]. split; [lia|]. split; [lia|]. split; [congruence|].
    split; [|reflexivity]. intros _. rewrite H4. split; [exact Hn|]. exists k. split.
    + destruct (Nat.eq_dec k j) as [->|]; [|lia]. rewrite Ej in Ek. injection Ek as <-. congruence.
    + eapply Hk4; eauto.
  - split; [lia|]. split; [intros; apply Hr2; lia|].
    split. { intros Hz. apply not_true_iff_false. intros Hc. apply Hr2 in Hc. congruence. }
    split; [intros _; exact Hm|]. split; [lia|].
    intros (Hn & k & Hk & Hx). exfalso. rewrite H4 in Hn. destruct Hd as [Hd|Hd]; [congruence|].
    apply H4k in Hx as (pk & Ek & Hx). apply (Hd k pk); auto. lia.
Qed.

(** ** Cloud top height status *)
Lemma argmin_from_spec l : forall pre best bestv,
  nth_error pre best = Some bestv -> (forall k w, nth_error pre k = Some w -> (bestv <= w)%Q) ->
  exists v, nth_error (pre ++ l) (argmin_from (length pre) best bestv l) = Some v /\
    forall k w, nth_error (pre ++ l) k = Some w -> (v <= w)%Q.
Proof.
  induction l as [|x l IH]; intros pre best bestv Hb Hmin; simpl.
  - exists bestv. rewrite app_nil_r. auto.
  - assert (Happ : pre ++ x :: l = (pre ++ [x]) ++ l) by (rewrite <- app_assoc; reflexivity).
    assert (Hlen : S (length pre) = length (pre ++ [x])) by (rewrite app_length; simpl; lia).
    assert (Hx : nth_error (pre ++ [x]) (length pre) = Some x).
    { rewrite nth_error_app2, Nat.sub_diag by lia. reflexivity. }
    rewrite Happ. destruct (qgt bestv x) eqn:E; rewrite Hlen; apply IH.
    + exact Hx.
    + apply qgt_iff in E. intros k w Hk. destruct (Nat.lt_ge_cases k (length pre)) as [Hlt|Hge].
      * rewrite nth_error_app1 in Hk by exact Hlt. apply Hmin in Hk. lra.
      * rewrite nth_error_app2 in Hk by exact Hge. destruct (k - length pre) as [|[|?]]; simpl in Hk; try discriminate.
        injection Hk as <-. lra.
    + rewrite nth_error_app1; [exact Hb|]. eapply nth_error_Some_lt. exact Hb.
    + apply qgt_false in E. intros k w Hk. destruct (Nat.lt_ge_cases k (length pre)) as [Hlt|Hge].
      * rewrite nth_error_app1 in Hk by exact Hlt. apply Hmin in Hk. lra.
      * rewrite nth_error_app2 in Hk by exact Hge. destruct (k - length pre) as [|[|?]]; simpl in Hk; try discriminate.
        injection Hk as <-. lra.
Qed.

Lemma argmin_spec l i : argmin l = Ok i ->
  exists v, nth_error l i = Some v /\ forall k w, nth_error l k = Some w -> (v <= w)%Q.
Proof.
  destruct l as [|x l]; simpl; [discriminate|]. intros [= <-].
  apply (argmin_from_spec l [x] 0 x); [reflexivity|].
  intros [|[|k]] w; simpl; try discriminate. intros [= <-]. lra.
Qed.

Lemma increasing_inj l i j a b : increasing l -> nth_error l i = Some a -> nth_error l j = Some b ->
  (a == b)%Q -> i = j.
Proof.
  intros H Hi Hj E. destruct (Nat.lt_trichotomy i j) as [Hl|[->|Hl]]; [|reflexivity|].
  - pose proof (H i j a b Hl Hi Hj). lra.
  - pose proof (H j i b a Hl Hj Hi). lra.
Qed.

Lemma top_status_at_gate height att_row k t a :
  increasing height -> nth_error height k = Some t -> nth_error att_row k = Some a ->
  top_status height att_row (Some t) =
    Ok (if Nat.eqb (S k) (length height) then 4
        else if a =? 5 then 2 else if a =? 4 then 3 else if a =? 3 then 1 else 0)%Z.
Proof.
  intros Hinc Hk Ha. unfold top_status.
  destruct (argmin (map (fun h => Qabs (h - t)) height)) as [i|e] eqn:E.
  2:{ destruct height; [destruct k; discriminate|discriminate]. }
  pose proof (argmin_spec _ _ E) as (v & Hv & Hmin). rewrite nth_error_map' in Hv.
  destruct (nth_error height i) as [h|] eqn:Eh; [|discriminate]. cbn [option_map] in Hv.
  assert (Hv' : v = Qabs (h - t)) by congruence. subst v. clear Hv.
  specialize (Hmin k (Qabs (t - t))). rewrite nth_error_map', Hk in Hmin. specialize (Hmin eq_refl).
  assert (Hq : (h == t)%Q).
  { assert (H0 : (Qabs (t - t) == 0)%Q) by (setoid_replace (t - t)%Q with 0%Q by ring; reflexivity).
    pose proof (Qle_Qabs (h - t)) as H1. pose proof (Qle_Qabs (- (h - t))) as H2. rewrite Qabs_opp in H2. lra. }
  assert (i = k) by (eapply increasing_inj; eauto). subst i. cbn [bind]. rewrite Ha. f_equal.
  assert (Hlast : Qle_bool (last height 0%Q) t = Nat.eqb (S k) (length height)).
  { assert (Hl : nth_error height (pred (length height)) = Some (last height 0%Q)).
    { clear - Hk. destruct height as [|x r]; [destruct k; discriminate|]. clear k Hk. revert x.
      induction r as [|y r IH]; intros x; [reflexivity|]. exact (IH y). }
    pose proof (nth_error_Some_lt _ _ _ Hk) as Hkl.
    destruct (Nat.eqb_spec (S k) (length height)) as [E1|E1].
    - replace (pred (length height)) with k in Hl by lia. rewrite Hk in Hl. injection Hl as <-.
      apply Qle_bool_iff. lra.
    - apply not_true_iff_false. intros Hc. apply Qle_bool_iff in Hc.
      pose proof (Hinc k (pred (length height)) _ _ ltac:(lia) Hk Hl). lra. }
  unfold assign, filled0. rewrite Hlast. destruct (Nat.eqb (S k) (length height)); [reflexivity|].
  destruct (a =? 5)%Z; [reflexivity|]. destruct (a =? 4)%Z; reflexivity.
Qed.

(** ** Insects *)
Lemma find_insects_screened lim prob prob2 melt liq rain j :
  (0 <= lim)%Q ->
  nth_error (find_insects_row lim prob prob2 melt liq rain) j = Some true ->
  rain = false /\ nth_error liq j = Some false /\
  (forall k, k <= j -> nth_error melt k <> Some true) /\
  (forall x k, nth_error prob2 j = Some x -> (0 < x)%Q -> k <= j -> nth_error liq k <> Some true) /\
  exists p, nth_error prob j = Some p /\ (lim < p)%Q.
Proof.
  intros Hlim. unfold find_insects_row, screen_insects_row.
  rewrite !nth_error_map', !nth_error_map2, !nth_error_combine.
  destruct (nth_error (ffill_bool liq) j) as [al|] eqn:Eal; [|discriminate].
  destruct (nth_error prob2 j) as [p2|] eqn:Ep2; [|discriminate].
  destruct (nth_error (ffill_bool melt) j) as [am|] eqn:Eam; [|discriminate].
  destruct (nth_error liq j) as [l|] eqn:El; [|discriminate].
  destruct (nth_error prob j) as [p|] eqn:Ep; [|discriminate].
  simpl. intros [= H]. apply qgt_iff in H. unfold assign in H.
  destruct rain; [lra|]. split; [reflexivity|].
  destruct (al && qgt p2 0) eqn:Ea; [lra|]. destruct am; [lra|]. destruct l; [lra|].
  split; [reflexivity|]. split; [|split].
  - intros k Hk Hc. assert (Hx : nth_error (ffill_bool melt) j = Some true).
    { apply ffill_bool_true. split; [|eauto]. apply nth_error_Some_lt in Eam.
      rewrite ffill_bool_length in Eam. exact Eam. }
    congruence.
  - intros x k [= <-] Hx Hk Hc.
    assert (Hy : nth_error (ffill_bool liq) j = Some true).
    { apply ffill_bool_true. split; [|eauto]. eapply nth_error_Some_lt. exact El. }
    rewrite Eal in Hy. injection Hy as ->. apply qgt_iff in Hx. rewrite Hx in Ea. discriminate.
  - exists p. auto.
Qed.

Lemma find_insects_complete lim prob prob2 melt liq j p x :
  (0 <= lim)%Q -> length prob = length liq -> length prob2 = length liq -> length melt = length liq ->
  nth_error prob j = Some p -> (lim < p)%Q ->
  nth_error liq j = Some false -> (forall k, k <= j -> nth_error melt k <> Some true) ->
  nth_error prob2 j = Some x ->
  ((x <= 0)%Q \/ forall k, k <= j -> nth_error liq k <> Some true) ->
  nth_error (find_insects_row lim prob prob2 melt liq false) j = Some true.
Proof.
  intros Hlim L1 L2 L3 Hp Hgt Hl Hm Hx Hal. unfold find_insects_row, screen_insects_row.
  rewrite !nth_error_map', !nth_error_map2, !nth_error_combine, Hx, Hl, Hp.
  pose proof (nth_error_Some_lt _ _ _ Hl) as Hj.
  destruct (nth_error_lt_Some (ffill_bool melt) j) as [am Eam]; [rewrite ffill_bool_length; lia|].
  destruct (nth_error_lt_Some (ffill_bool liq) j) as [al Eal]; [rewrite ffill_bool_length; lia|].
  rewrite Eam, Eal. simpl.
  assert (am = false).
  { destruct am; [|reflexivity]. apply ffill_bool_true in Eam as (_ & k & Hk & Hc). exfalso. exact (Hm k Hk Hc). }
  assert (al && qgt x 0 = false).
  { destruct al; [|reflexivity]. destruct Hal as [Hal|Hal].
    - simpl. apply qgt_false. exact Hal.
    - apply ffill_bool_true in Eal as (_ & k & Hk & Hc). exfalso. exact (Hal k Hk Hc). }
  rewrite H0. subst am. simpl. f_equal. apply qgt_iff. exact Hgt.
Qed.

(** ** Effective radius loop *)
Lemma set_nth_spec {A} (l : list A) j v : j < length l ->
  exists l', set_nth l j v = Ok l' /\ length l' = length l /\
    forall k, nth_error l' k = if Nat.eqb k j then Some v else nth_error l k.
Proof.
  revert j. induction l as [|x l IH]; intros j Hj; simpl in *; [lia|].
  destruct j as [|j].
  - exists (v :: l). split; [reflexivity|]. split; [reflexivity|]. intros [|k]; reflexivity.
  - destruct (IH j ltac:(lia)) as (l' & E & Hl & Hn). rewrite E. simpl. exists (x :: l').
    split; [reflexivity|]. split; [simpl; lia|]. intros [|k]; simpl; [reflexivity|apply Hn].
Qed.

Definition same_shape {A B} (m : image A) (n : image B) : Prop :=
  map (@length A) m = map (@length B) n.

Lemma same_shape_pixel {A B} (m : image A) (n : image B) i j :
  same_shape m n -> (exists x, pixel m i j = Some x) -> exists y, pixel n i j = Some y.
Proof.
  unfold same_shape, pixel. intros H [x Hx].
  destruct (nth_error m i) as [r|] eqn:E; [|discriminate].
  apply (f_equal (fun l => nth_error l i)) in H. rewrite !nth_error_map', E in H. simpl in H.
  destruct (nth_error n i) as [r'|]; [|discriminate]. injection H as H.
  apply nth_error_Some_lt in Hx. apply nth_error_lt_Some. lia.
Qed.

Lemma set_pixel_spec {A} (m : image A) i j v : (exists x, pixel m i j = Some x) ->
  exists m', set_pixel m i j v = Ok m' /\ same_shape m' m /\
    forall a b, pixel m' a b = if Nat.eqb a i && Nat.eqb b j then Some v else pixel m a b.
Proof.
  intros [x Hx]. unfold pixel in Hx. unfold set_pixel.
  destruct (nth_error m i) as [row|] eqn:Ei; [|discriminate].
  destruct (set_nth_spec row j v) as (row' & E & Hl & Hn); [eapply nth_error_Some_lt; exact Hx|].
  rewrite E. simpl.
  destruct (set_nth_spec m i row') as (m' & E' & Hl' & Hn'); [eapply nth_error_Some_lt; exact Ei|].
  exists m'. split; [exact E'|]. split.
  - unfold same_shape. apply nth_error_ext. intros a. rewrite !nth_error_map', Hn'.
    destruct (Nat.eqb_spec a i) as [->|]; [|reflexivity]. rewrite Ei. simpl. rewrite Hl. reflexivity.
  - intros a b. unfold pixel. rewrite Hn'. destruct (Nat.eqb_spec a i) as [->|]; simpl; [|reflexivity].
    rewrite Hn, Ei. reflexivity.
Qed.

Section DerProofs.
  Variable radius : Q -> Q.
  Variable z : image (masked Q).

  Lemma der_inner i idx : forall d, same_shape d z ->
    (forall j, In j idx -> exists x, pixel z i j = Some x) ->
    exists d', fold_result (fun d j =>
      match pixel z i j with
      | None => Raise IndexError
      | Some None => Ok d
      | Some (Some zz) => set_pixel d i j (radius zz)
      end) idx d = Ok d' /\ same_shape d' z /\
      forall a b, pixel d' a b =
        match pixel z a b with
        | Some (Some zz) => if Nat.eqb a i && existsb (Nat.eqb b) idx then Some (radius zz) else pixel d a b
        | _ => pixel d a b end.
  Proof.
    induction idx as [|j idx IH]; intros d Hd Hin; simpl.
    - exists d. split; [reflexivity|]. split; [exact Hd|]. intros a b.
      destruct (pixel z a b) as [[zz|]|]; try reflexivity. rewrite andb_false_r. reflexivity.
    - destruct (Hin j (or_introl eq_refl)) as [x Hx]. rewrite Hx.
      assert (Hin' : forall k, In k idx -> exists y, pixel z i k = Some y) by (intros; apply Hin; right; assumption).
      destruct x as [zz|]; simpl.
      + destruct (set_pixel_spec d i j (radius zz)) as (d1 & E1 & Hs1 & Hp1).
        { eapply same_shape_pixel; [symmetry; exact Hd|]. eauto. }
        rewrite E1. simpl. destruct (IH d1) as (d' & E & Hs & Hp); [congruence|exact Hin'|].
        exists d'. split; [exact E|]. split; [exact Hs|]. intros a b. rewrite Hp, Hp1.
        destruct (pixel z a b) as [[z'|]|] eqn:Ez.
        * destruct (Nat.eqb_spec a i) as [->|]; simpl; [|reflexivity].
          destruct (Nat.eqb_spec b j) as [->|]; simpl; [|reflexivity].
          rewrite Hx in Ez. injection Ez as ->. destruct (existsb (Nat.eqb j) idx); reflexivity.
        * destruct (Nat.eqb_spec a i) as [->|]; simpl; [|reflexivity].
          destruct (Nat.eqb_spec b j) as [->|]; simpl; [congruence|reflexivity].
        * destruct (Nat.eqb_spec a i) as [->|]; simpl; [|reflexivity].
          destruct (Nat.eqb_spec b j) as [->|]; simpl; [congruence|reflexivity].
      + destruct (IH d Hd Hin') as (d' & E & Hs & Hp). exists d'. split; [exact E|]. split; [exact Hs|].
        intros a b. rewrite Hp. destruct (pixel z a b) as [[z'|]|] eqn:Ez; try reflexivity.
        destruct (Nat.eqb_spec a i) as [->|]; simpl; [|reflexivity].
        destruct (Nat.eqb_spec b j) as [->|]; simpl; [congruence|reflexivity].
  Qed.

  Definition in_layer (a b : nat) (l : (nat * nat) * (nat * nat)) : bool :=
    Nat.eqb a (fst (fst l)) && (Nat.leb (snd (fst l)) b && Nat.leb b (snd (snd l))).

  Lemma existsb_seq b lo n : existsb (Nat.eqb b) (seq lo n) = Nat.leb lo b && Nat.ltb b (lo + n).
  Proof.
    destruct (existsb (Nat.eqb b) (seq lo n)) eqn:E.
    - apply existsb_exists in E as (x & Hx & Hb). apply Nat.eqb_eq in Hb. subst x. apply in_seq in Hx.
      symmetry. apply andb_true_iff. split; [apply Nat.leb_le|apply Nat.ltb_lt]; lia.
    - symmetry. apply not_true_iff_false. intros H. apply andb_true_iff in H as [H1 H2].
      apply Nat.leb_le in H1. apply Nat.ltb_lt in H2. apply not_true_iff_false in E. apply E.
      apply existsb_exists. exists b. split; [apply in_seq; lia|apply Nat.eqb_refl].
  Qed.

  Lemma der_loop layers : forall d, same_shape d z ->
    (forall l, In l layers -> snd (fst l) <= snd (snd l) /\
       forall j, snd (fst l) <= j -> j <= snd (snd l) -> exists x, pixel z (fst (fst l)) j = Some x) ->
    exists d', fold_result (der_layer radius z) layers d = Ok d' /\ same_shape d' z /\
      forall a b, pixel d' a b =
        match pixel z a b with
        | Some (Some zz) => if existsb (in_layer a b) layers then Some (radius zz) else pixel d a b
        | _ => pixel d a b end.
  Proof.
    induction layers as [|l layers IH]; intros d Hd Hin; simpl.
    - exists d. split; [reflexivity|]. split; [exact Hd|]. intros a b. destruct (pixel z a b) as [[zz|]|]; reflexivity.
    - destruct (Hin l (or_introl eq_refl)) as [Hle Hpix].
      destruct (der_inner (fst (fst l)) (seq (snd (fst l)) (S (snd (snd l)) - snd (fst l))) d Hd) as (d1 & E1 & Hs1 & Hp1).
      { intros j Hj. apply in_seq in Hj. apply Hpix; lia. }
      change (der_layer radius z d l) with (fold_result (fun d j =>
        match pixel z (fst (fst l)) j with
        | None => Raise IndexError | Some None => Ok d
        | Some (Some zz) => set_pixel d (fst (fst l)) j (radius zz) end)
        (seq (snd (fst l)) (S (snd (snd l)) - snd (fst l))) d).
      rewrite E1. simpl. destruct (IH d1 Hs1) as (d' & E & Hs & Hp); [intros; apply Hin; right; assumption|].
      exists d'. split; [exact E|]. split; [exact Hs|]. intros a b. rewrite Hp, Hp1.
      destruct (pixel z a b) as [[zz|]|]; try reflexivity.
      unfold in_layer at 2. rewrite existsb_seq.
      replace (Nat.ltb b (snd (fst l) + (S (snd (snd l)) - snd (fst l)))) with (Nat.leb b (snd (snd l))).
      2:{ destruct (Nat.leb_spec b (snd (snd l))), (Nat.ltb_spec b (snd (fst l) + (S (snd (snd l)) - snd (fst l)))); try reflexivity; lia. }
      destruct (Nat.eqb a (fst (fst l)) && (Nat.leb (snd (fst l)) b && Nat.leb b (snd (snd l)))); simpl;
        destruct (existsb (in_layer a b) layers); reflexivity.
  Qed.

  Lemma in_layers_droplet droplets a b :
    existsb (in_layer a b) (layers_from 0 droplets) = true <-> pixel droplets a b = Some true.
  Proof.
    rewrite existsb_exists. split.
    - intros ([[bi bb] [ti tt]] & Hin & H). apply in_layers in Hin as (-> & _ & row & Hr & Hrun).
      rewrite Nat.sub_0_r in Hr. unfold in_layer in H. simpl in H.
      apply andb_true_iff in H as [H1 H2]. apply andb_true_iff in H2 as [H2 H3].
      apply Nat.eqb_eq in H1. apply Nat.leb_le in H2, H3. subst a. unfold pixel. rewrite Hr.
      apply runs_max_run in Hrun as (_ & H & _). apply H; lia.
    - intros H. unfold pixel in H. destruct (nth_error droplets a) as [row|] eqn:E; [|discriminate].
      destruct (runs_cover row b H) as (bb & tt & Hin & Hb). exists ((a, bb), (a, tt)). split.
      + apply in_layers. split; [reflexivity|]. split; [lia|]. exists row. rewrite Nat.sub_0_r. auto.
      + unfold in_layer. simpl. rewrite Nat.eqb_refl. simpl. apply andb_true_iff. split; apply Nat.leb_le; lia.
  Qed.

  Lemma append_der_spec droplets : same_shape droplets z ->
    exists out, append_der radius droplets z = Ok out /\ same_shape out z /\
      forall a b r, pixel out a b = Some (Some r) <->
        pixel droplets a b = Some true /\
        exists zz, pixel z a b = Some (Some zz) /\ (0 < radius zz)%Q /\ r = (radius zz * (1 # 1000))%Q.
  Proof.
    intros Hsh. unfold append_der. rewrite zip_layers_eq. simpl.
    destruct (der_loop (layers_from 0 droplets) (imap (fun _ => 0%Q) z)) as (d & E & Hs & Hp).
    { unfold same_shape, imap. rewrite map_map. apply map_ext. intros r. apply map_length. }
    { intros [[bi bb] [ti tt]] Hin. apply in_layers in Hin as (-> & _ & row & Hr & Hrun).
      rewrite Nat.sub_0_r in Hr. apply runs_max_run in Hrun as (Hle & H & _). simpl. split; [exact Hle|].
      intros j Hj1 Hj2. eapply same_shape_pixel; [exact Hsh|]. exists true. unfold pixel. rewrite Hr. apply H; assumption. }
    rewrite E. simpl. eexists. split; [reflexivity|]. split.
    { unfold same_shape in *. rewrite <- Hs. unfold imap. rewrite map_map. apply map_ext. intros; apply map_length. }
    intros a b r. rewrite pixel_imap, Hp, pixel_imap.
    pose proof (in_layers_droplet droplets a b) as Hl.
    destruct (pixel z a b) as [[zz|]|] eqn:Ez; simpl.
    - destruct (existsb (in_layer a b) (layers_from 0 droplets)); simpl.
      + destruct (Qle_bool (radius zz) 0) eqn:Er.
        * apply Qle_bool_iff in Er. split; [discriminate|]. intros (_ & z' & [= <-] & Hpos & _). lra.
        * assert (Hpos : (0 < radius zz)%Q).
          { destruct (Qlt_le_dec 0 (radius zz)) as [|Hle]; [assumption|]. apply Qle_bool_iff in Hle. congruence. }
          split.
          -- intros [= <-]. split; [apply Hl; reflexivity|]. exists zz. auto.
          -- intros (_ & z' & [= <-] & _ & ->). reflexivity.
      + split; [discriminate|]. intros (Hd & _). apply Hl in Hd. discriminate.
    - split; [discriminate|]. intros (_ & z' & H & _). discriminate.
    - split; [discriminate|]. intros (_ & z' & H & _). discriminate.
  Qed.
End DerProofs.
