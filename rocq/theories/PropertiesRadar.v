(** Properties C85 to C90: the rain flag of the categorize file, and the screening of
    cloud radar and weather radar data. *)
From Verif Require Import Base ArrayModel ArrayProofs FillModel TimeModel GridModel OutputModel ClassifyModel ImageModel RadarModel
  TimeSpec TimeProofs GridSpec GridProofs FillProofs ImageProofs DropletProofs OutputProofs RadarSpec RadarProofs RadarScreenProofs WeatherRadarProofs.
From Coq Require Import Qabs Qround String Lqa.
Open Scope string_scope.
Open Scope nat_scope.
Open Scope list_scope.
Local Notation length := List.length (only parsing).

(** ** C85: rain *)
(** A profile is rainy exactly if the precipitation is liquid there and the disdrometer
    measures rain or, where it measures nothing, the radar sees rain three gates above
    the lowest gate with data.  The flag is masked exactly where the present weather
    code is. *)
Theorem C85_rain_exact : forall nt n z v ldr sldr tw d k, sized nt n z -> sized nt n v ->
  (forall m, depol ldr sldr = Some m -> sized nt n m) -> sized nt n tw -> fits nt d ->
  lowest_gate n z k -> k + 3 < n ->
  ((exists d' w, d = Some d' /\ d_wawa d' = Some w) \/ exists k, k < n /\ full_gate tw k) ->
  exists out, find_profiles_with_rain n z v ldr sldr tw d = Ok out /\ length out = nt /\
    forall i, i < nt -> exists b l, nth_error out i = Some b /\ liquid_at n tw d i l /\
      (b = None <-> l = None) /\
      (b = Some true <-> l = Some true /\
         ((exists r p, measures d i r p /\ measured_rain r p) \/
          ((forall r p, ~ measures d i r p) /\ echo_of_rain z v (depol ldr sldr) (k + 3) i))).
Proof. exact rain_exact. Qed.
Print Assumptions C85_rain_exact.

(** Without a present weather code and without a gate with all temperatures the flag
    fails. *)
Theorem C85_no_temperature : forall nt n z v ldr sldr tw d k, sized nt n z -> sized nt n v ->
  (forall m, depol ldr sldr = Some m -> sized nt n m) -> sized nt n tw ->
  lowest_gate n z k -> k + 3 < n -> (forall d', d = Some d' -> d_wawa d' = None) -> (forall k, k < n -> ~ full_gate tw k) ->
  find_profiles_with_rain n z v ldr sldr tw d = Raise IndexError.
Proof.
  intros nt n z v ldr sldr tw d k Sz Sv Sl St Lk Hk Nd Nf. unfold find_profiles_with_rain.
  destruct (echo_ok nt n z v ldr sldr k Sz Sv Sl Lk Hk) as (echo & -> & _). cbn [bind].
  assert (E : liquid_rain_only n tw d = Raise IndexError).
  { unfold liquid_rain_only.
    set (valid := map (fun j => forallb (fun row => negb (is_masked (nth j row None))) tw) (seq 0 n)).
    assert (F : first_true valid = None).
    { pose proof (first_true_spec valid) as Sp. destruct (first_true valid) as [j|]; [|reflexivity].
      destruct Sp as [T _]. exfalso.
      assert (Hj : j < n) by (apply nth_error_Some_lt in T; unfold valid in T; rewrite map_length, seq_length in T; exact T).
      apply (Nf j Hj). unfold valid in T. rewrite nth_seq_map in T by exact Hj. injection T as T. rewrite forallb_forall in T.
      intros i Hi. destruct (nth_error_lt_Some tw i Hi) as [row R]. specialize (T row (nth_error_In _ _ R)).
      destruct (nth_error_lt_Some row j) as [x X]; [rewrite (proj2 St i row R); exact Hj|].
      rewrite (nth_error_nth _ _ None X) in T. destruct x as [t|]; [|discriminate T]. exists t. unfold pixel. rewrite R. exact X. }
    rewrite F. destruct d as [[r p [w|]]|]; try reflexivity. specialize (Nd _ eq_refl). discriminate Nd. }
  rewrite E. reflexivity.
Qed.
Print Assumptions C85_no_temperature.

(** The lowest gate with data must not be among the highest three. *)
Theorem C85_too_high : forall nt n z v ldr sldr tw d k, sized nt n z -> lowest_gate n z k -> n <= k + 3 ->
  find_profiles_with_rain n z v ldr sldr tw d = Raise IndexError.
Proof.
  intros nt n z v ldr sldr tw d k Sz Lk Hk. unfold find_profiles_with_rain.
  rewrite (echo_too_high nt n z v ldr sldr k Sz Lk Hk). reflexivity.
Qed.
Print Assumptions C85_too_high.

Definition ex_z : image (Q * bool) :=
  [ [(0, true); (10, false); (10, false); (10, false); (10, false)];
    [(0, true); (0, true); (0, true); (0, true); (10, true)] ]%Q.
Definition ex_v : image (Q * bool) := List.repeat (List.repeat (-(3), false)%Q 5) 2.
Definition ex_tw : image (masked Q) := List.repeat (List.repeat (Some 290%Q) 5) 2.
Lemma repeat_sized {A} (x : A) nt n : sized nt n (List.repeat (List.repeat x n) nt).
Proof.
  split; [apply repeat_length|]. intros i row H. apply nth_error_In, repeat_spec in H. subst row. apply repeat_length.
Qed.
Lemma ex_z_sized : sized 2 5 ex_z.
Proof. split; [reflexivity|]. intros [|[|i]] row H; cbn in H; try (destruct i; discriminate H); assert (length row = 5) by (injection H as <-; reflexivity); assumption. Qed.
Lemma ex_z_lowest : lowest_gate 5 ex_z 1.
Proof.
  split; [lia|]. left. split.
  - intros H. apply (H 0 10%Q). reflexivity.
  - intros [|j] L; [|lia]. intros [|[|i]] x H; cbn in H; try discriminate H. destruct i; discriminate H.
Qed.
Lemma ex_tw_full : full_gate ex_tw 0.
Proof. intros [|[|i]] H; [exists 290%Q; reflexivity|exists 290%Q; reflexivity|cbn in H; lia]. Qed.
Example C85_nonvacuous :
  sized 2 5 ex_z /\ sized 2 5 ex_v /\ sized 2 5 ex_tw /\ lowest_gate 5 ex_z 1 /\ full_gate ex_tw 0 /\ fits 2 None /\
  find_profiles_with_rain 5 ex_z ex_v None None ex_tw None = Ok [Some true; Some false].
Proof.
  split; [apply ex_z_sized|]. split; [apply repeat_sized|]. split; [apply repeat_sized|]. split; [apply ex_z_lowest|].
  split; [apply ex_tw_full|]. split; [intros d' X; discriminate X|]. reflexivity.
Qed.

(** Refuted: every image is accepted.  Echo only near the top of the image fails. *)
Theorem C85_every_image_refuted : exists nt n z v tw,
  sized nt n z /\ sized nt n v /\ sized nt n tw /\ 3 < n /\ (exists k, k < n /\ full_gate tw k) /\ lowest_gate n z 2 /\
  find_profiles_with_rain n z v None None tw None = Raise IndexError.
Proof.
  exists 1, 5, [[(0, true); (0, true); (10, false); (10, false); (10, false)]%Q], [List.repeat (-(3), false)%Q 5], [List.repeat (Some 290%Q) 5].
  assert (Sz : sized 1 5 [[(0, true); (0, true); (10, false); (10, false); (10, false)]%Q]).
  { split; [reflexivity|]. intros [|i] row H; cbn in H; [injection H as <-; reflexivity|destruct i; discriminate H]. }
  assert (Lg : lowest_gate 5 [[(0, true); (0, true); (10, false); (10, false); (10, false)]%Q] 2).
  { split; [lia|]. left. split; [intros H; apply (H 0 10%Q); reflexivity|].
    intros [|[|j]] L; [| |lia]; intros [|i] x H; cbn in H; try discriminate H; destruct i; discriminate H. }
  split; [exact Sz|]. split; [exact (repeat_sized (-(3), false)%Q 1 5)|]. split; [exact (repeat_sized (Some 290%Q) 1 5)|].
  split; [lia|]. split; [exists 0; split; [lia|]; intros [|i] H; [exists 290%Q; reflexivity|cbn in H; lia]|].
  split; [exact Lg|]. reflexivity.
Qed.
Print Assumptions C85_every_image_refuted.

(** Refuted: the flag does not depend on data under a mask.  Two Doppler velocities
    that differ only under their mask give different flags. *)
Theorem C85_hidden_data_refuted : exists nt n z v v' tw,
  sized nt n z /\ sized nt n v /\ sized nt n v' /\ sized nt n tw /\
  (forall i j x b, pixel v i j = Some (x, b) -> exists x', pixel v' i j = Some (x', b) /\ (b = false -> x' = x)) /\
  find_profiles_with_rain n z v None None tw None = Ok [Some true] /\
  find_profiles_with_rain n z v' None None tw None = Ok [Some false].
Proof.
  exists 1, 4, [List.repeat (10, false)%Q 4], [List.repeat (-(3), true)%Q 4], [List.repeat (3, true)%Q 4], [List.repeat (Some 290%Q) 4].
  split; [exact (repeat_sized (10, false)%Q 1 4)|]. split; [exact (repeat_sized (-(3), true)%Q 1 4)|].
  split; [exact (repeat_sized (3, true)%Q 1 4)|]. split; [exact (repeat_sized (Some 290%Q) 1 4)|].
  split; [|split; reflexivity]. intros [|i] j x b H; cbn in H; [|destruct i; discriminate H].
  do 4 (destruct j as [|j]; [exists 3%Q; cbn in H |- *; assert (b = true) by congruence; subst b; split; [reflexivity|discriminate]|]).
  destruct j; discriminate H.
Qed.
Print Assumptions C85_hidden_data_refuted.

(** Refuted: the filter for snow keeps liquid rain and removes snow.  A measured rain
    shower (code 82) at 290 K is no rain; measured rain with snow (code 68) is. *)
Theorem C85_snow_filter_refuted : exists rate particles shower sleet,
  measured_rain rate particles /\ liquid_code shower /\ snow_code sleet /\
  find_profiles_with_rain 5 ex_z ex_v None None ex_tw
    (Some {| d_rate := [Some rate; Some rate]; d_particles := [Some particles; Some particles];
             d_wawa := Some [Some shower; Some sleet] |}) = Ok [Some false; Some true].
Proof.
  exists (1 # 1000000)%Q, 100%Q, (inject_Z 82), (inject_Z 68). split; [split; reflexivity|].
  split; [cbn; tauto|]. split; [cbn; tauto|]. reflexivity.
Qed.
Print Assumptions C85_snow_filter_refuted.

(** ** C86: pointing *)
Lemma changed_trans f g h l l1 l2 : changed_by f l l1 -> changed_by g l1 l2 -> (forall x y, x == f y -> g x == h y)%Q ->
  changed_by h l l2.
Proof.
  intros [L1 C1] [L2 C2] E. split; [congruence|]. intros i. split.
  - intros H. apply (proj1 (C2 i)), (proj1 (C1 i)), H.
  - intros x H. destruct (proj2 (C1 i) x H) as (y & Y & Qy). destruct (proj2 (C2 i) y Y) as (w & W & Qw).
    exists w. split; [exact W|]. rewrite Qw. apply E. exact Qy.
Qed.
(** For at least two profiles with elevation and azimuth: the zenith and azimuth angles
    contain the offsets; the selection succeeds exactly if at least two profiles are
    kept.  A profile whose angles, and those of the profile before (for the first
    profile, after) are known is kept exactly if the radar points to the zenith within
    the threshold and did not move.  Where angles are missing the profile is kept. *)
Theorem C86_pointing : forall t1 t2 t3 zo ao elevation azimuth,
  2 <= length elevation -> length azimuth = length elevation -> (t3 <= 180)%Q ->
  exists zen az keep,
    changed_by (fun e => 90 - (e - offset zo))%Q elevation zen /\ changed_by (fun a => a + offset ao)%Q azimuth az /\
    length keep = length elevation /\
    (2 <= length (filter (fun b => b) keep) -> add_zenith_and_azimuth_angles t1 t2 t3 zo ao elevation azimuth = Ok (zen, az, keep)) /\
    (length (filter (fun b => b) keep) < 2 ->
       add_zenith_and_azimuth_angles t1 t2 t3 zo ao elevation azimuth = Raise ValidTimeStampError) /\
    (forall i e p a q, nth_error elevation i = Some (Some e) -> before elevation i = Some (Some p) ->
       nth_error azimuth i = Some (Some a) -> before azimuth i = Some (Some q) -> (Qabs (a - q) <= 540)%Q ->
       (nth_error keep i = Some true <-> (Qabs (e - offset zo - 90) < t1 /\ Qabs (e - p) < t2)%Q /\ turned_less a q t3)) /\
    (forall i e p, nth_error elevation i = Some (Some e) -> before elevation i = Some (Some p) ->
       (forall j a, nth_error azimuth j <> Some (Some a)) ->
       (nth_error keep i = Some true <-> (Qabs (e - offset zo - 90) < t1 /\ Qabs (e - p) < t2)%Q)) /\
    (forall i, i < length elevation ->
       (nth_error elevation i = Some None \/ (0 < i /\ nth_error elevation (i - 1) = Some None) \/
        ((exists j a, nth_error azimuth j = Some (Some a)) /\
         (nth_error azimuth i = Some None \/ (0 < i /\ nth_error azimuth (i - 1) = Some None)))) ->
       nth_error keep i = Some true).
Proof.
  intros t1 t2 t3 zo ao elevation azimuth L2 La T3.
  destruct (angles_total t1 t2 t3 zo ao elevation azimuth L2 La) as (el & az & zen & keep & Ce & Ca & Cz & Lk & K & E).
  exists zen, az, keep.
  assert (Split : length (filter (fun b => b) keep) + length (filter negb keep) = length elevation).
  { rewrite <- Lk. apply (filter_split (fun b : bool => b)). }
  assert (Lt : forall i x, nth_error elevation i = Some x -> i < length elevation) by (intros i x; apply nth_error_Some_lt).
  split; [apply (changed_trans _ _ _ _ _ _ Ce Cz); cbv beta; intros x y X; rewrite X; reflexivity|]. split; [exact Ca|]. split; [exact Lk|].
  split; [intros H; rewrite E; destruct (Nat.leb_spec (length elevation - 1) (length (filter negb keep))); [lia|reflexivity]|].
  split; [intros H; rewrite E; destruct (Nat.leb_spec (length elevation - 1) (length (filter negb keep))); [reflexivity|lia]|].
  split; [|split].
  - intros i e p a q He Hp Ha Hq B. destruct (stable_known t1 t2 t3 zo ao elevation azimuth el az i Ce Ca e p a q He Hp Ha Hq T3 B) as (b & Sb & Ib).
    rewrite (K i (Lt i _ He)), Sb, <- Ib. split; intros X; congruence.
  - intros i e p He Hp N. destruct (stable_no_azimuth t1 t2 t3 zo ao elevation azimuth el az i Ce Ca e p He Hp N) as (b & Sb & Ib).
    rewrite (K i (Lt i _ He)), Sb, <- Ib. split; intros X; congruence.
  - intros i Hi M. rewrite (K i Hi), (stable_missing t1 t2 t3 zo ao elevation azimuth el az i Ce Ca M). reflexivity.
Qed.
Print Assumptions C86_pointing.

(** Fewer than two profiles are refused. *)
Theorem C86_too_few : forall t1 t2 t3 zo ao elevation azimuth, length elevation < 2 \/ length azimuth < 2 ->
  add_zenith_and_azimuth_angles t1 t2 t3 zo ao elevation azimuth = Raise ValidTimeStampError.
Proof.
  intros t1 t2 t3 zo ao elevation azimuth H. unfold add_zenith_and_azimuth_angles.
  assert (E : (length (match zo with Some o => map (option_map (fun e => (e - o)%Q)) elevation | None => elevation end) <? 2)
     || (length (match ao with Some o => map (option_map (fun a => (a + o)%Q)) azimuth | None => azimuth end) <? 2) = true).
  { apply orb_true_iff. destruct H as [H|H]; [left|right]; apply Nat.ltb_lt; [destruct zo|destruct ao]; rewrite ?map_length; exact H. }
  rewrite E. reflexivity.
Qed.
Print Assumptions C86_too_few.

(** Bad angles of the Mira radar are masked: elevations below -9 or above 189 degrees
    and azimuth angles beyond 396 degrees, nothing else. *)
Theorem C86_bad_angles : forall l i x, nth_error l i = Some (Some x) ->
  nth_error (mask_bad_angle 0 180 l) i = Some (if Qle_bool (-(9)) x && Qle_bool x 189 then Some x else None) /\
  nth_error (mask_bad_angle (-360) 360 l) i = Some (if Qle_bool (-(396)) x && Qle_bool x 396 then Some x else None).
Proof.
  assert (G : forall lo hi lo' hi' l i x, (lo - (hi - lo) * (5 # 100) == lo')%Q -> (hi + (hi - lo) * (5 # 100) == hi')%Q ->
    nth_error l i = Some (Some x) ->
    nth_error (mask_bad_angle lo hi l) i = Some (if Qle_bool lo' x && Qle_bool x hi' then Some x else None)).
  { intros lo hi lo' hi' l i x E1 E2 X. unfold mask_bad_angle. rewrite nth_error_map', X. cbn [option_map]. f_equal.
    destruct (qlt x (lo - (hi - lo) * (5 # 100))) eqn:A; [apply qlt_iff in A|apply qlt_false in A]; cbn [orb].
    - assert (N : Qle_bool lo' x = false) by (apply Bool.not_true_iff_false; rewrite Qle_bool_iff; lra). rewrite N. reflexivity.
    - assert (N : Qle_bool lo' x = true) by (apply Qle_bool_iff; lra). rewrite N. cbn [andb].
      destruct (qgt x (hi + (hi - lo) * (5 # 100))) eqn:B; [apply qgt_iff in B|apply qgt_false in B].
      + assert (N2 : Qle_bool x hi' = false) by (apply Bool.not_true_iff_false; rewrite Qle_bool_iff; lra). rewrite N2. reflexivity.
      + assert (N2 : Qle_bool x hi' = true) by (apply Qle_bool_iff; lra). rewrite N2. reflexivity. }
  intros l i x X. split; apply G; try exact X; reflexivity.
Qed.
Print Assumptions C86_bad_angles.

Example C86_nonvacuous :
  mira_angles (Some 1%Q) None [Some 91; Some 91; Some 60; Some 91; Some 91]%Q [Some 359; Some (-(1)); Some 0; Some 0; Some 0]%Q
    = Ok (map (fun e => Some (90 - (e - 1))%Q) [91; 91; 60; 91; 91]%Q, [Some 359; Some (-(1)); Some 0; Some 0; Some 0]%Q,
          [true; true; false; false; true]) /\
  before [Some 91; Some 91; Some 60; Some 91; Some 91]%Q 1 = Some (Some 91%Q) /\ turned_less (-(1)) 359 (1 # 1000) /\
  mira_angles None None [Some 90; Some 45; Some 60]%Q [Some 0; Some 0; Some 0]%Q = Raise ValidTimeStampError.
Proof.
  split; [reflexivity|]. split; [reflexivity|]. split; [exists (-1)%Z; reflexivity|]. reflexivity.
Qed.

(** Refuted: a profile measured far from the zenith is never kept.  After a profile
    with a bad elevation (-50 degrees) one at 45 degrees is kept. *)
Theorem C86_scanning_kept_refuted : exists elevation azimuth zen az keep,
  mira_angles None None elevation azimuth = Ok (zen, az, keep) /\
  exists i, nth_error elevation i = Some (Some 45%Q) /\ nth_error keep i = Some true.
Proof.
  exists [Some 90; Some 90; Some (-(50)); Some 45; Some 90; Some 90]%Q, (List.repeat (Some 0%Q) 6).
  do 3 eexists. split; [reflexivity|]. exists 3. split; reflexivity.
Qed.
Print Assumptions C86_scanning_kept_refuted.

(** Refuted: a profile in the direction of the profile before is kept.  From -360 to
    360 degrees the direction is the same, but the profile is removed. *)
Theorem C86_two_turns_refuted : exists azimuth zen az keep i a q,
  mira_angles None None (List.repeat (Some 90%Q) 4) azimuth = Ok (zen, az, keep) /\
  nth_error azimuth i = Some (Some a) /\ before azimuth i = Some (Some q) /\ turned_less a q (1 # 1000000) /\
  nth_error keep i = Some false.
Proof.
  exists [Some (-(360)); Some 360; Some 360; Some 360]%Q. do 3 eexists. exists 1, 360%Q, (-(360))%Q.
  split; [reflexivity|]. split; [reflexivity|]. split; [reflexivity|]. split; [exists 2%Z; reflexivity|]. reflexivity.
Qed.
Print Assumptions C86_two_turns_refuted.

(** Refuted: a profile at the zenith is kept if no movement is known.  The first
    profile is removed when the elevation of the second is missing. *)
Theorem C86_first_profile_refuted : exists elevation azimuth zen az keep,
  mira_angles None None elevation azimuth = Ok (zen, az, keep) /\
  nth_error elevation 0 = Some (Some 90%Q) /\ (forall i e, nth_error elevation i = Some (Some e) -> e = 90%Q) /\
  (forall i a, nth_error azimuth i <> Some (Some a)) /\ nth_error keep 0 = Some false.
Proof.
  exists [Some 90; None; Some 90; Some 90]%Q, (List.repeat None 4). do 3 eexists. split; [reflexivity|]. split; [reflexivity|].
  split; [|split; [|reflexivity]].
  - intros [|[|[|[|i]]]] e H; cbn in H; try congruence. destruct i; discriminate H.
  - intros [|[|[|[|i]]]] a H; cbn in H; try congruence. destruct i; discriminate H.
Qed.
Print Assumptions C86_first_profile_refuted.

(** ** C87: masks of the radar variables *)
(** After the screening by signal-to-noise ratio every two-dimensional variable has its
    data, and is masked exactly where it was, where the ratio is below the limit, or
    where reflectivity or velocity were masked; other variables are unchanged. *)
Theorem C87_masks : forall t d snr z v, rimage d "SNR" = Ok snr -> rimage d "Zh" = Ok z -> rimage d "v" = Ok v ->
  same_pixels z snr ->
  exists d', screen_radar t d = Ok d' /\
    dict_masked (fun i j => below_at snr t i j \/ hidden_at z i j \/ hidden_at v i j) d d'.
Proof. exact screen_radar_ok. Qed.
Print Assumptions C87_masks.

(** In the result reflectivity and velocity are masked at the same pixels, and so is
    every other variable that has these pixels. *)
Theorem C87_same_mask : forall t d snr z v d' z' v', rimage d "SNR" = Ok snr -> rimage d "Zh" = Ok z -> rimage d "v" = Ok v ->
  same_pixels z snr -> same_pixels z v -> screen_radar t d = Ok d' -> rimage d' "Zh" = Ok z' -> rimage d' "v" = Ok v' ->
  forall i j, hidden_at z' i j <-> hidden_at v' i j.
Proof.
  intros t d snr z v d' z' v' Es Ez Ev Sz Szv E Ez' Ev' i j.
  destruct (screen_radar_ok t d snr z v Es Ez Ev Sz) as (d2 & E2 & D). assert (d2 = d') by congruence. subst d2.
  destruct (dict_masked_image _ _ _ _ _ D Ez) as (z2 & Ez2 & Mz). destruct (dict_masked_image _ _ _ _ _ D Ev) as (v2 & Ev2 & Mv).
  assert (z2 = z') by congruence. assert (v2 = v') by congruence. subst z2 v2.
  rewrite (hidden_also _ _ _ i j Mz), (hidden_also _ _ _ i j Mv).
  assert (P : (exists x, pixel z i j = Some x) <-> exists x, pixel v i j = Some x).
  { specialize (Szv i j). destruct (pixel z i j) as [x|], (pixel v i j) as [y|]; split; intros [w W]; try discriminate W; eauto.
    - discriminate (proj2 Szv eq_refl).
    - discriminate (proj1 Szv eq_refl). }
  assert (Hz : hidden_at z i j -> exists x, pixel z i j = Some x) by (intros [x X]; eauto).
  assert (Hv : hidden_at v i j -> exists x, pixel v i j = Some x) by (intros [x X]; eauto).
  split.
  - intros [X|[X Y]]; right; (split; [apply P; auto|]); [right; left; exact X|exact Y].
  - intros [X|[X Y]]; right; (split; [apply P; auto|]); [right; right; exact X|exact Y].
Qed.
Print Assumptions C87_same_mask.

(** A file without one of the three variables is refused. *)
Theorem C87_missing : forall t d, (lookup "SNR" d = None \/ lookup "Zh" d = None \/ (exists z, rimage d "Zh" = Ok z) /\ lookup "v" d = None) ->
  (forall k m, In (k, m) d -> exists i, m = Two i) -> screen_radar t d = Raise KeyError.
Proof.
  intros t d H T. unfold screen_radar, screen_by_snr.
  assert (R : forall k, rimage d k = Raise KeyError \/ exists m, rimage d k = Ok m).
  { intros k. unfold rimage. destruct (lookup k d) as [x|] eqn:L; [|left; reflexivity]. right.
    assert (I : In (k, x) d).
    { clear - L. induction d as [|[k' y] d IH]; [discriminate L|]. cbn [lookup] in L. destruct (String.eqb k k') eqn:E.
      - apply String.eqb_eq in E. subst k'. left. congruence.
      - right. exact (IH L). }
    destruct (T k x I) as [i ->]. eauto. }
  assert (N : forall ind k, lookup k d = None -> rimage (mask_all ind d) k = Raise KeyError).
  { intros ind k L. unfold rimage, mask_all. clear - L. induction d as [|[k' x] d IH]; [reflexivity|].
    cbn [map fst snd lookup] in *. destruct (String.eqb k k'); [discriminate L|]. exact (IH L). }
  assert (Sm : forall ind k m, rimage d k = Ok m -> exists m', rimage (mask_all ind d) k = Ok m').
  { intros ind k m E. destruct (dict_masked_image _ _ _ _ _ (mask_all_dict ind d) E) as (m' & E' & _). eauto. }
  destruct (R "SNR") as [E|[snr E]]; rewrite E; [reflexivity|]. destruct H as [H|H].
  { unfold rimage in E. rewrite H in E. discriminate E. }
  cbn [bind]. unfold mask_invalid_data. destruct H as [H|[[z Z] H]].
  - rewrite (N _ "Zh" H). reflexivity.
  - destruct (Sm (imap (fun x => qlt (raw x) t) snr) "Zh" z Z) as [z' ->]. cbn [bind]. rewrite (N _ "v" H). reflexivity.
Qed.
Print Assumptions C87_missing.

Definition ex_rdict : rdict :=
  [ ("Zh", Two [[(1, false); (2, true); (3, false)]]%Q); ("v", Two [[(1, false); (1, false); (1, true)]]%Q);
    ("SNR", Two [[(-(20), false); (0, false); (0, false)]]%Q); ("ldr", Two [[(5, false); (6, false); (7, false)]]%Q); ("range", Other [100; 200; 300]%Q) ].
Lemma same_row (a b : list (Q * bool)) : length a = length b -> same_pixels [a] [b].
Proof.
  intros L [|i] j; unfold pixel; cbn [nth_error]; [rewrite !nth_error_None, L; reflexivity|]. destruct i; reflexivity.
Qed.
Example C87_nonvacuous : exists z v snr, rimage ex_rdict "SNR" = Ok snr /\ rimage ex_rdict "Zh" = Ok z /\ rimage ex_rdict "v" = Ok v /\
  same_pixels z snr /\ same_pixels z v /\
  screen_radar (-(17)) ex_rdict = Ok
    [ ("Zh", Two [[(1, true); (2, true); (3, true)]]%Q); ("v", Two [[(1, true); (1, true); (1, true)]]%Q);
      ("SNR", Two [[(-(20), true); (0, true); (0, true)]]%Q); ("ldr", Two [[(5, true); (6, true); (7, true)]]%Q); ("range", Other [100; 200; 300]%Q) ].
Proof.
  do 3 eexists. do 3 (split; [reflexivity|]). split; [apply same_row; reflexivity|]. split; [apply same_row; reflexivity|]. reflexivity.
Qed.

(** Refuted: a pixel without a known ratio is judged the same whatever is stored under
    the mask of the ratio. *)
Theorem C87_hidden_ratio_refuted : exists t d1 d2 z v s1 s2,
  rimage d1 "Zh" = Ok z /\ rimage d2 "Zh" = Ok z /\ rimage d1 "v" = Ok v /\ rimage d2 "v" = Ok v /\
  rimage d1 "SNR" = Ok [[(s1, true)]] /\ rimage d2 "SNR" = Ok [[(s2, true)]] /\
  exists d1' d2', screen_radar t d1 = Ok d1' /\ screen_radar t d2 = Ok d2' /\
    exists z1 z2, rimage d1' "Zh" = Ok z1 /\ rimage d2' "Zh" = Ok z2 /\ hidden_at z1 0 0 /\ ~ hidden_at z2 0 0.
Proof.
  exists (-(17))%Q, [("Zh", Two [[(1, false)]]%Q); ("v", Two [[(1, false)]]%Q); ("SNR", Two [[(-(99), true)]]%Q)],
    [("Zh", Two [[(1, false)]]%Q); ("v", Two [[(1, false)]]%Q); ("SNR", Two [[(0, true)]]%Q)].
  do 4 eexists. do 6 (split; [reflexivity|]). do 2 eexists. do 2 (split; [reflexivity|]). do 2 eexists. do 2 (split; [reflexivity|]).
  split; [exists 1%Q; reflexivity|]. intros [x X]. cbn in X. discriminate X.
Qed.
Print Assumptions C87_hidden_ratio_refuted.

(** ** C88: transmit power *)
(** With a transmit power for every profile: if no profile has low power nothing
    changes; otherwise exactly the profiles with enough power are kept, in order, and
    if there are none the file is refused.  Powers of the instrument "fzk" are a
    hundred times too small unless their scale is given. *)
Theorem C88_power : forall P c sn has tpow (r : instrument P), length tpow = length (i_time r) ->
  ((forall k, k < length tpow -> strong_enough c sn has tpow k) -> screen_low_power c sn has (Some tpow) r = Ok r) /\
  ((exists k, k < length tpow /\ ~ strong_enough c sn has tpow k) ->
   exists ind, StronglySorted lt ind /\ (forall k, In k ind <-> strong_enough c sn has tpow k) /\
    (ind = [] -> screen_low_power c sn has (Some tpow) r = Raise ValidTimeStampError) /\
    (ind <> [] -> exists r', screen_low_power c sn has (Some tpow) r = Ok r' /\
       rows_of ind (i_time r) (i_time r') /\ dict_follows 3 (length (i_time r)) ind (i_data r) (i_data r'))).
Proof.
  intros P c sn has tpow r L. split; [exact (low_power_ok c sn has tpow r L)|exact (low_power_some c sn has tpow r L)].
Qed.
Print Assumptions C88_power.
Theorem C88_unknown_power : forall P c sn has (r : instrument P), screen_low_power c sn has None r = Ok r.
Proof. reflexivity. Qed.
Print Assumptions C88_unknown_power.

Definition ex_instr : instrument nat := Build_instrument [1; 2; 3]%Q [("Zh", VArr 2 [10; 20; 30]); ("range", VArr 1 [1; 2])].
Example C88_nonvacuous :
  screen_low_power false "joyrad" false (Some [(6, false); (1, false); (7, false)]%Q) ex_instr
    = Ok (Build_instrument [1; 3]%Q [("Zh", VArr 2 [10; 30]); ("range", VArr 1 [1; 2])]) /\
  screen_low_power false "fzk" false (Some [(6, false); (1, false); (7, false)]%Q) ex_instr = Ok ex_instr /\
  screen_low_power false "fzk" true (Some [(1, false); (1, false); (1, false)]%Q) ex_instr = Raise ValidTimeStampError /\
  ~ strong_enough false "joyrad" false [(6, false); (1, false); (7, false)]%Q 1 /\
  strong_enough true "joyrad" false [(6, false); (1, false); (7, false)]%Q 1.
Proof.
  split; [reflexivity|]. split; [reflexivity|]. split; [reflexivity|]. split.
  - intros (x & b & E & L). cbn in E. assert (x = 1%Q) by congruence. subst x. cbn in L. unfold Qle in L. cbn in L. lia.
  - exists 1%Q, false. split; [reflexivity|]. cbn. unfold Qle. cbn. lia.
Qed.
(** Refuted: only the profiles are selected.  With as many gates as profiles the
    heights are cut as well. *)
Theorem C88_heights_refuted : exists (r r' : instrument nat) tpow heights heights',
  length tpow = length (i_time r) /\ In ("range", VArr 1 heights) (i_data r) /\
  screen_low_power false "joyrad" false (Some tpow) r = Ok r' /\
  In ("range", VArr 1 heights') (i_data r') /\ length heights' < length heights.
Proof.
  exists (Build_instrument [1; 2; 3]%Q [("range", VArr 1 [100; 200; 300])]), (Build_instrument [1; 3]%Q [("range", VArr 1 [100; 300])]),
    [(6, false); (1, false); (7, false)]%Q, [100; 200; 300], [100; 300].
  split; [reflexivity|]. split; [left; reflexivity|]. split; [reflexivity|]. split; [left; reflexivity|]. cbn. lia.
Qed.
Print Assumptions C88_heights_refuted.

(** ** C89: reading of weather radar files *)
(** From files of which at least one is readable and whose ranges ascend: the profiles
    are those of the wanted day, each time once (the first file), in order of time; each
    row contains the nearest measured values on the range of the file that reaches
    highest, and nothing where the file has no data. *)
Theorem C89_load : forall S date (files : list (option (wr_file S))) valid,
  valid = unmasked files -> valid <> [] -> Forall good_file valid ->
  exists hours r day ind, wr_load date files = Ok (hours, r, day) /\
    match date with Some d => day = d | None => forall f, nth_error valid 0 = Some f -> of_day day (w_time f) end /\
    rows_of ind (map w_time valid) (r_time r) /\ strictly_increasing (r_time r) /\
    kept_files date (map w_time valid) ind /\
    length hours = length (r_time r) /\
    (forall i t, nth_error (r_time r) i = Some t -> exists h, nth_error hours i = Some h /\ (h * 3600 == t - inject_Z day * 86400)%Q) /\
    (exists f, In f valid /\ r_range r = w_range f /\ forall g, In g valid -> last (w_range g) 0 <= last (w_range f) 0)%Q /\
    (exists f, nth_error valid (length valid - 1) = Some f /\ r_scalars r = w_scalars f) /\
    NoDup (map fst (r_data r)) /\
    (forall k, In k (map fst (r_data r)) <-> exists f, In f valid /\ lookup k (w_data f) <> None) /\
    (forall k rows, In (k, rows) (r_data r) -> length rows = length ind /\
       forall i j f, nth_error ind i = Some j -> nth_error valid j = Some f ->
         exists row, nth_error rows i = Some row /\ profile_of (r_range r) k f row).
Proof. intros S. exact (@wr_load_ok S). Qed.
Print Assumptions C89_load.
(** With a date all hours lie within the day. *)
Theorem C89_hours : forall S day (files : list (option (wr_file S))) valid hours r day',
  valid = unmasked files -> valid <> [] -> Forall good_file valid -> wr_load (Some day) files = Ok (hours, r, day') ->
  forall h, In h hours -> (0 <= h /\ h < 24)%Q.
Proof.
  intros S day files valid hours r day' V Ne G E h I.
  destruct (wr_load_ok (Some day) files valid V Ne G) as (hours2 & r2 & day2 & ind & E2 & D & Ro & _ & K & Lh & H & _).
  rewrite E in E2. assert (hours2 = hours) by congruence. assert (r2 = r) by congruence. subst day2 hours2 r2.
  apply In_nth_error in I as [i I]. destruct (nth_error_lt_Some (r_time r) i) as [t T]; [apply nth_error_Some_lt in I; lia|].
  destruct (H i t T) as (h' & H' & Q). rewrite I in H'. assert (h' = h) by congruence. subst h'.
  destruct (rows_of_back _ _ _ _ _ Ro T) as (k & Ik & Tk). apply nth_error_In in Ik. apply K in Ik as [_ Ik].
  destruct (Ik day t eq_refl Tk) as [A B]. rewrite inject_Z_plus in B. change (inject_Z 1) with 1%Q in B. split; lra.
Qed.
Print Assumptions C89_hours.
(** Without a readable file the files are refused. *)
Theorem C89_unreadable : forall S date (files : list (option (wr_file S))), (forall f, ~ In (Some f) files) ->
  wr_load date files = Raise ValidTimeStampError.
Proof.
  intros S date files H. unfold wr_load, wr_read. assert (E : unmasked files = []).
  { induction files as [|[f|] files IH]; [reflexivity|destruct (H f); left; reflexivity|]. cbn [unmasked]. apply IH.
    intros f I. apply (H f). right. exact I. }
  rewrite E. reflexivity.
Qed.
Print Assumptions C89_unreadable.

Definition ex_file (t : Q) (range : list Q) (z : list (masked Q)) (s : nat) : wr_file nat :=
  {| w_time := t; w_range := range; w_data := [("Zh", z)]; w_scalars := s |}.
Lemma ex_file_good t a b x y s : (a <= b)%Q -> good_file (ex_file t [a; b] [x; y] s).
Proof.
  intros L. split; [|split; [discriminate|]].
  - repeat constructor. exact L.
  - intros k values H. cbn in H. destruct (String.eqb k "Zh"); [|discriminate H]. assert (values = [x; y]) by congruence. subst values. reflexivity.
Qed.
Definition ex_files : list (option (wr_file nat)) :=
  [ Some (ex_file 90000 [100; 200] [Some 1; Some 2] 1); None; Some (ex_file 86400 [100; 300] [Some 3; None] 2);
    Some (ex_file 180000 [100; 200] [Some 5; Some 6] 3) ]%Q.
Lemma ex_files_good : Forall good_file (unmasked ex_files).
Proof. do 3 (apply Forall_cons; [apply ex_file_good; unfold Qle; cbn; lia|]). apply Forall_nil. Qed.
Example C89_nonvacuous : unmasked ex_files <> [] /\ Forall good_file (unmasked ex_files) /\
  wr_load (Some 1%Z) ex_files = Ok ([(86400 - inject_Z 1 * 86400) / 3600; (90000 - inject_Z 1 * 86400) / 3600]%Q,
    Build_wr_raw [86400; 90000]%Q [100; 300]%Q [("Zh", [[Some 3; None]; [Some 1; None]]%Q)] 3, 1%Z).
Proof.
  split; [discriminate|]. split; [exact ex_files_good|]. reflexivity.
Qed.

(** Refuted: no profile of the wanted day is an error.  The result is empty. *)
Theorem C89_empty_day_refuted : exists day (files : list (option (wr_file nat))),
  unmasked files <> [] /\ Forall good_file (unmasked files) /\
  (forall f, In (Some f) files -> ~ of_day day (w_time f)) /\
  exists r, wr_load (Some day) files = Ok ([], r, day) /\ r_time r = [].
Proof.
  exists 5%Z, ex_files. split; [discriminate|]. split; [exact ex_files_good|]. split.
  - intros f I. cbn [ex_files In] in I. repeat (destruct I as [I|I]; [try discriminate I; assert (X : w_time f = w_time f) by reflexivity; injection I as <-; intros [A _]; unfold Qle in A; cbn in A; lia|]). exact (False_ind _ I).
  - eexists. split; reflexivity.
Qed.
Print Assumptions C89_empty_day_refuted.
(** Refuted: the output holds one day.  Without a date other days are kept. *)
Theorem C89_other_day_refuted : exists (files : list (option (wr_file nat))) hours r day h,
  Forall good_file (unmasked files) /\ wr_load None files = Ok (hours, r, day) /\ In h hours /\ (24 < h)%Q.
Proof.
  exists ex_files. do 3 eexists. exists ((180000 - inject_Z 1 * 86400) / 3600)%Q.
  split; [exact ex_files_good|]. split; [reflexivity|]. split; [cbn; tauto|reflexivity].
Qed.
Print Assumptions C89_other_day_refuted.
(** Refuted: the scalars (as the Nyquist velocity) belong to the wanted day. *)
Theorem C89_scalars_refuted : exists day (files : list (option (wr_file nat))) hours r,
  Forall good_file (unmasked files) /\ wr_load (Some day) files = Ok (hours, r, day) /\ hours <> [] /\
  forall f, In (Some f) files -> of_day day (w_time f) -> w_scalars f <> r_scalars r.
Proof.
  exists 1%Z, ex_files. do 2 eexists. split; [exact ex_files_good|].
  split; [reflexivity|]. split; [discriminate|]. intros f I. cbn [ex_files In] in I.
  repeat (destruct I as [I|I]; [try discriminate I; injection I as <-; intros [_ A]; cbn; try discriminate; unfold Qlt in A; cbn in A; lia|]).
  exact (False_ind _ I).
Qed.
Print Assumptions C89_scalars_refuted.

(** ** C90: clutter and noise of weather radars *)
(** Masked, in all two-dimensional variables: every gate up to the highest of the
    lowest ten gates where the mean reflectivity without falling rain is above -10 dBZ,
    and pixels whose signal-to-noise ratio is negative; nothing else. *)
Theorem C90_clutter : forall n nt d z v snr, rimage d "Zh" = Ok z -> rimage d "v" = Ok v -> rimage d "SNR" = Ok snr ->
  sized nt n z -> sized nt n v ->
  exists d', screen_weather_radar n d = Ok d' /\
    dict_masked (fun i j => (exists x, pixel z i j = Some x) /\ (exists top, j <= top /\ top < 10 /\ top < n /\ clutter_gate z v top)
      \/ below_at snr 0 i j) d d'.
Proof. exact screen_weather_radar_ok. Qed.
Print Assumptions C90_clutter.
(** Clutter is searched only when both variables are there. *)
Theorem C90_missing : forall n d, lookup "Zh" d = None \/ (exists z, rimage d "Zh" = Ok z) /\ lookup "v" d = None ->
  screen_weather_radar n d = Raise KeyError.
Proof.
  intros n d H. unfold screen_weather_radar, screen_clutter. destruct H as [H|[[z Z] H]].
  - unfold rimage at 1. rewrite H. reflexivity.
  - rewrite Z. cbn [bind]. unfold rimage. rewrite H. reflexivity.
Qed.
Print Assumptions C90_missing.

Definition ex_wr : rdict :=
  [ ("Zh", Two [[(-(20), false); (20, false); (30, false); (5, false)]; [(-(20), false); (20, false); (30, false); (5, false)]]%Q);
    ("v", Two [[(0, false); (0, false); (-(5), false); (0, true)]; [(0, false); (-(5), false); (-(5), false); (0, true)]]%Q);
    ("SNR", Two [[(9, false); (9, false); (9, false); (9, false)]; [(9, false); (9, false); (9, false); (-(1), false)]]%Q) ].
Example C90_nonvacuous : exists z v snr, rimage ex_wr "Zh" = Ok z /\ rimage ex_wr "v" = Ok v /\ rimage ex_wr "SNR" = Ok snr /\
  sized 2 4 z /\ sized 2 4 v /\ clutter_gate z v 1 /\ ~ clutter_gate z v 2 /\ ~ clutter_gate z v 0 /\
  exists d', screen_weather_radar 4 ex_wr = Ok d' /\
    rimage d' "Zh" = Ok [[(-(20), true); (20, true); (30, false); (5, false)]; [(-(20), true); (20, true); (30, false); (5, true)]]%Q.
Proof.
  do 3 eexists. do 3 (split; [reflexivity|]).
  assert (S4 : forall a b c d e f g h : Q * bool, sized 2 4 [[a; b; c; d]; [e; f; g; h]]).
  { intros a b c d e f g h. split; [reflexivity|]. intros [|[|i]] row H; cbn in H; [| |destruct i; discriminate H];
      injection H as <-; reflexivity. }
  split; [apply S4|]. split; [apply S4|]. split; [split; [discriminate|reflexivity]|].
  split; [intros [X _]; apply X; reflexivity|]. split; [intros [_ X]; unfold Qlt in X; cbn in X; lia|].
  eexists. split; reflexivity.
Qed.
(** Refuted: echo of visible precipitation that falls faster than 1 m/s is kept.  It is
    masked with the clutter above it. *)
Theorem C90_rain_below_refuted : exists n nt d z v d' z' i j x y,
  rimage d "Zh" = Ok z /\ rimage d "v" = Ok v /\ sized nt n z /\ sized nt n v /\
  pixel z i j = Some (x, false) /\ pixel v i j = Some (y, false) /\ (y < -1)%Q /\
  screen_weather_radar n d = Ok d' /\ rimage d' "Zh" = Ok z' /\ hidden_at z' i j.
Proof.
  exists 2, 1, [("Zh", Two [[(30, false); (20, false)]]%Q); ("v", Two [[(-(5), false); (0, false)]]%Q); ("SNR", Two [[(9, false); (9, false)]]%Q)].
  do 4 eexists. exists 0, 0. do 2 eexists. split; [reflexivity|]. split; [reflexivity|].
  assert (S2 : forall a b : Q * bool, sized 1 2 [[a; b]]).
  { intros a b. split; [reflexivity|]. intros [|i] row H; cbn in H; [injection H as <-; reflexivity|destruct i; discriminate H]. }
  split; [apply S2|]. split; [apply S2|]. split; [reflexivity|]. split; [reflexivity|]. split; [reflexivity|].
  split; [reflexivity|]. split; [reflexivity|]. exists 30%Q. reflexivity.
Qed.
Print Assumptions C90_rain_below_refuted.
