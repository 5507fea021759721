(** Properties C91 to C94: noise screening of ceilometer profiles. *)
From Verif Require Import Base ArrayModel TimeModel TimeSpec GridModel FillModel GridProofs OutputModel MeltModel RadarModel RadarSpec RadarProofs
  CeiloModel CeiloSpec CeiloProofs.
From Coq Require Import Qabs String Lqa.
Open Scope string_scope.
Open Scope nat_scope.
Open Scope list_scope.
Local Notation length := List.length (only parsing).

(** * C91: exactly the weak gates are hidden *)
(** For profiles without masked values and ranges that are not 0: a value stays exactly
    if it is not weak (below 8e-6) at or above a run of more negatives than allowed, not
    weak (below 2e-6) at or above the peak of a saturated profile, and not below the
    limit times the noise.  Values that stay do not change. *)
Theorem C91_exact c range beta_raw xs : length range = length xs -> length beta_raw = length xs -> xs <> [] ->
  Forall (fun r => ~ r == 0)%Q range ->
  exists out, screen_profile c range beta_raw xs = Ok out /\ screened c range beta_raw xs out.
Proof.
  intros Lr Lb Nx Nz. apply profile_screened; [exact Lr|exact Nx| |exact Nz].
  intros ->. destruct xs; [congruence|discriminate Lb].
Qed.
Print Assumptions C91_exact.

(** Profiles of an image are screened one by one. *)
Theorem C91_image c range nt n beta_raw data : 0 < n -> length range = n -> Forall (fun r => ~ r == 0)%Q range ->
  sized nt n beta_raw -> sized nt n data ->
  exists out, screen_data c range beta_raw data = Ok out /\ sized nt n out /\
    forall i b x, nth_error beta_raw i = Some b -> nth_error data i = Some x ->
      exists o, nth_error out i = Some o /\ screened c range b x o.
Proof. exact (image_screened c range nt n beta_raw data). Qed.
Print Assumptions C91_image.

(** With range corrected data, without runs of negatives and fog, and if the noise of the
    top gates is the number [sigma], not below the minimum: a value stays exactly if its
    signal is at least the limit times [sigma]. *)
Theorem C91_ratio c range beta_raw xs : length range = length xs -> length beta_raw = length xs -> xs <> [] ->
  Forall (fun r => ~ r == 0)%Q range ->
  y_snr c = true -> y_keep_negative c = false -> y_range_corrected c = true ->
  exists us out, screen_profile c range beta_raw xs = Ok out /\ signals c range xs us /\
    forall sigma, (0 < sigma)%Q -> top_variance us (sigma * sigma) ->
      (0 <= (if y_smoothed c then y_noise_smooth_min c else y_noise_min c) <= sigma)%Q ->
      (forall k, ~ negatives_end c us k) -> ~ foggy c beta_raw ->
      forall i u, nth_error us i = Some u ->
        exists v b, nth_error out i = Some (v, b) /\ (b = false <-> y_limit c * sigma <= u)%Q.
Proof.
  intros Lr Lb Nx Nz Sn Kn Rc. destruct (C91_exact c range beta_raw xs Lr Lb Nx Nz) as (out & E & Lo & us & q & Sg & Ns & H).
  exists us, out. split; [exact E|]. split; [exact Sg|]. intros sigma Ps Tv [Lo0 Lo1] Nn Nf i u U.
  assert (Lu : length us = length xs) by apply Sg.
  destruct (nth_error_lt_Some xs i) as (x & X); [rewrite <- Lu; apply (nth_error_Some_lt _ _ _ U)|].
  destruct (nth_error_lt_Some range i) as (r & R); [rewrite Lr; apply (nth_error_Some_lt _ _ _ X)|].
  destruct (H i x u X U) as (v & b & Ev & B & _). exists v, b. split; [exact Ev|].
  assert (Nu : us <> []) by (intros Z; rewrite Z in U; destruct i; discriminate U).
  assert (Q : (sigma * sigma == q)%Q).
  { destruct Ns as [_ Ns]. destruct Ns as (w & W & D); [intros [(k & K)|F]; [exact (Nn k K)|exact (Nf F)]|].
    assert (Ew := top_variance_unique us _ _ Nu Tv W).
    revert Lo0 Lo1 D. set (lo := if y_smoothed c then y_noise_smooth_min c else y_noise_min c). clearbody lo. intros Lo0 Lo1 [[D1 D2]|[D1 D2]]; [lra|].
    exfalso. assert (lo * lo <= sigma * sigma)%Q; [|lra].
    apply (Qle_trans _ (sigma * lo)); [apply Qmult_le_compat_r; assumption|]. setoid_replace (sigma * lo)%Q with (lo * sigma)%Q by ring. apply Qmult_le_compat_r; lra. }
  rewrite B. unfold survives. pose proof (weak_sigma (y_limit c) sigma q u Ps Q) as Wk. split.
  - intros (_ & _ & Hn). specialize (Hn r u R U). destruct (Qlt_le_dec u (y_limit c * sigma)) as [G|G]; [|exact G].
    exfalso. apply Hn. split; [exact Sn|]. exists u. split; [right; split; [intros [Y _]; congruence|reflexivity]|]. left. split; [exact Kn|]. apply Wk. exact G.
  - intros G. split; [|split].
    + intros ((k & _ & K) & _). exact (Nn k K).
    + intros (F & _). exact (Nf F).
    + intros r' u' R' U' (_ & y & Y & D). assert (u' = u) by congruence. subst u'.
      destruct Y as [(Y & _)|[_ Y]]; [congruence|]. destruct D as [[_ D]|[D _]]; [|congruence].
      apply (weak_eq (y_limit c) q q y u) in D; [|reflexivity|exact Y]. apply Wk in D. lra.
Qed.
Print Assumptions C91_ratio.

(** The settings of most instruments. *)
Definition plain : noisy :=
  {| y_limit := 5; y_negatives := 5; y_smoothed := false; y_keep_negative := false; y_fog := true;
     y_filter_negatives := true; y_snr := true; y_range_corrected := true; y_model := Some "CHM15k";
     y_noise_min := 1 # 1000000000; y_noise_smooth_min := 4 # 1000000000 |}.
(** 20 gates at 1 km, where signal and value agree. *)
Definition at_1km : list Q := List.repeat 1000%Q 20.
Definition micro (z : Z) : Q := (inject_Z z * (1 # 1000000))%Q.
(** Noise of 1e-6 in the top two gates, signals of 4e-6 in gate 0 and 20e-6 in gate 12. *)
Definition calm : list Q := map micro [4; 3; 0; 0; 0; 0; 0; 0; 0; 0; 0; 3; 20; 6; 0; 0; 0; 0; 1; -1]%Z.
(** The same with six negative values. *)
Definition dips : list Q := map micro [4; 3; 0; 0; 0; -1; -1; -1; -1; -1; -1; 3; 20; 6; 0; 0; 0; 0; 1; -1]%Z.
Definition shown (r : result (list (Q * bool))) : list nat :=
  match r with Ok l => where1 (map (fun e => negb (snd e)) l) | Raise _ => [] end.

(** The gate is hidden ([Some true]) or shown ([Some false]). *)
Definition hidden_gate (r : result (list (Q * bool))) (i : nat) : option bool :=
  match r with Ok l => option_map snd (nth_error l i) | Raise _ => None end.
Lemma hidden_gate_at r i b : hidden_gate r i = Some b -> exists out v, r = Ok out /\ nth_error out i = Some (v, b).
Proof.
  destruct r as [out|]; cbn [hidden_gate]; [|discriminate]. destruct (nth_error out i) as [[v b']|] eqn:E; cbn [option_map snd]; [|discriminate].
  intros H. assert (b' = b) by congruence. subst b'. exists out, v. auto.
Qed.

Example C91_nonvacuous :
  shown (screen_profile plain at_1km calm calm) = [12; 13] /\
  shown (screen_profile plain at_1km dips dips) = [0; 1; 12] /\
  length at_1km = length dips /\ Forall (fun r => ~ r == 0)%Q at_1km /\ negatives_end plain dips 10.
Proof.
  split; [reflexivity|]. split; [reflexivity|]. split; [reflexivity|]. split.
  { apply Forall_forall. intros x I. apply repeat_spec in I. subst x. intros Z. lra. }
  split; [reflexivity|]. split; [cbn; lia|]. split; [lia|]. cbn [y_negatives plain]. intros j A B.
  assert (j = 5 \/ j = 6 \/ j = 7 \/ j = 8 \/ j = 9 \/ j = 10) as [->|[->|[->|[->|[->| ->]]]]] by lia;
  (exists (micro (-1)); split; [reflexivity|]; reflexivity).
Qed.

(** * C92: what screening keeps *)
(** A signal of at least 8e-6 that is at least the limit times any upper bound of the
    noise stays. *)
Theorem C92_strong_kept c range beta_raw xs : length range = length xs -> length beta_raw = length xs -> xs <> [] ->
  Forall (fun r => ~ r == 0)%Q range ->
  exists us q out, screen_profile c range beta_raw xs = Ok out /\ signals c range xs us /\ noise_square c beta_raw us q /\
    forall i x u sigma, nth_error xs i = Some x -> nth_error us i = Some u ->
      (8 # 1000000 <= u)%Q -> (0 < sigma)%Q -> (q <= sigma * sigma)%Q -> (y_limit c * sigma <= u)%Q ->
      exists v, nth_error out i = Some (v, false) /\ (v == x)%Q.
Proof.
  intros Lr Lb Nx Nz. destruct (C91_exact c range beta_raw xs Lr Lb Nx Nz) as (out & E & Lo & us & q & Sg & Ns & H).
  exists us, q, out. split; [exact E|]. split; [exact Sg|]. split; [exact Ns|]. intros i x u sigma X U Hu Ps Hq Hs.
  destruct (H i x u X U) as (v & b & Ev & B & V1 & _).
  assert (Sv : survives c range beta_raw us q i).
  { split; [|split].
    - intros (_ & u' & U' & L). assert (u' = u) by congruence. subst u'. lra.
    - intros (_ & _ & u' & U' & L). assert (u' = u) by congruence. subst u'. lra.
    - intros r u' R U' (_ & y & Y & D). assert (u' = u) by congruence. subst u'.
      assert (Yu : (u <= y)%Q) by (destruct Y as [(_ & _ & Y)|[_ Y]]; lra).
      assert (K : (0 <= y_limit c -> ~ y * y < y_limit c * y_limit c * q)%Q).
      { intros Lp A.
        assert (A1 : (y_limit c * y_limit c * q <= (y_limit c * sigma) * (y_limit c * sigma))%Q).
        { setoid_replace ((y_limit c * sigma) * (y_limit c * sigma))%Q with (sigma * sigma * (y_limit c * y_limit c))%Q by ring.
          setoid_replace (y_limit c * y_limit c * q)%Q with (q * (y_limit c * y_limit c))%Q by ring.
          apply Qmult_le_compat_r; [exact Hq|apply Qmult_le_0_compat; exact Lp]. }
        assert (Z0 : (0 <= y_limit c * sigma)%Q) by (apply Qmult_le_0_compat; lra).
        set (z := (y_limit c * sigma)%Q) in *. clearbody z.
        assert (A2 : (z * z <= y * y)%Q); [|lra].
        apply (Qle_trans _ (y * z)); [apply Qmult_le_compat_r; lra|]. setoid_replace (y * z)%Q with (z * y)%Q by ring. apply Qmult_le_compat_r; lra. }
      destruct D as [[_ [(Lp & [D|D])|(_ & D & _)]]|[_ (Lp & D)]]; [lra|exact (K Lp D)|lra|exact (K Lp D)]. }
  assert (b = false) by (apply B; exact Sv). subst b. exists v. split; [exact Ev|]. apply V1. reflexivity.
Qed.
Print Assumptions C92_strong_kept.

(** No negative value stays unless negative values are wanted. *)
Theorem C92_no_negative c range beta_raw xs out : length range = length xs -> length beta_raw = length xs -> xs <> [] ->
  Forall (fun r => ~ r == 0)%Q range ->
  y_snr c = true -> y_keep_negative c = false -> (0 <= y_limit c)%Q ->
  screen_profile c range beta_raw xs = Ok out ->
  forall i v, nth_error out i = Some (v, false) -> (0 <= v)%Q.
Proof.
  intros Lr Lb Nx Nz Sn Kn Lp E i v Ev. destruct (C91_exact c range beta_raw xs Lr Lb Nx Nz) as (out' & E' & Lo & us & q & Sg & Ns & H).
  assert (out' = out) by congruence. subst out'.
  destruct (nth_error_lt_Some xs i) as (x & X); [rewrite <- Lo; apply (nth_error_Some_lt _ _ _ Ev)|].
  destruct (nth_error_lt_Some range i) as (r & R); [rewrite Lr; apply (nth_error_Some_lt _ _ _ X)|].
  destruct (proj2 Sg i r x R X) as (u & U & D1 & D2).
  destruct (H i x u X U) as (v' & b & Ev' & B & V1 & _). assert (b = false) by congruence. assert (v' = v) by congruence. subst b v'.
  rewrite (V1 eq_refl). destruct (Qlt_le_dec x 0) as [Neg|P]; [exfalso|exact P].
  destruct (proj1 B eq_refl) as (_ & _ & Hn). apply (Hn r u R U).
  assert (Un : (u < 0)%Q).
  { destruct (qlt r (alt_limit c)) eqn:G.
    - apply alt_limit_iff in G. specialize (D1 G). rewrite Forall_forall in Nz. specialize (Nz r (nth_error_In _ _ R)).
      assert (0 < r * r)%Q.
      { destruct (Qlt_le_dec r 0) as [L|L]; [|apply Qmult_lt_0_compat; lra].
        setoid_replace (r * r)%Q with (- r * - r)%Q by ring. apply Qmult_lt_0_compat; lra. }
      destruct (Qlt_le_dec u 0) as [L|L]; [exact L|]. exfalso. assert (0 <= u * (r * r))%Q by (apply Qmult_le_0_compat; lra). lra.
    - apply alt_limit_not in G. rewrite (D2 G). exact Neg. }
  split; [exact Sn|].
  destruct (qlt r (alt_limit c)) eqn:G.
  - destruct (y_range_corrected c) eqn:Rc.
    + exists u. split; [right; split; [intros [Y _]; congruence|reflexivity]|]. left. split; [exact Kn|]. left. split; [exact Lp|left; exact Un].
    + exists (6 * u)%Q. split; [left; split; [exact Rc|]; split; [apply alt_limit_iff; exact G|reflexivity]|]. left. split; [exact Kn|]. left. split; [exact Lp|left; lra].
  - exists u. split; [right; split; [intros [_ Y]; apply alt_limit_not in G; contradiction|reflexivity]|]. left. split; [exact Kn|]. left. split; [exact Lp|left; exact Un].
Qed.
Print Assumptions C92_no_negative.

Example C92_nonvacuous : hidden_gate (screen_profile plain at_1km calm calm) 12 = Some false /\
  top_variance calm (micro 1 * micro 1).
Proof.
  split; [reflexivity|]. pose proof (top_variance_ok calm ltac:(discriminate)) as T. destruct T as (top & G & (m & M & V)).
  exists top. split; [exact G|]. exists m. split; [exact M|].
  rewrite <- V. assert (calc_var_from_top_gates calm == micro 1 * micro 1)%Q as ->; [|reflexivity].
  apply Qeq_bool_iff. reflexivity.
Qed.

(** Weaker input never shows more: refuted.  Six negative values in a profile lower its
    noise to 1e-12, and the unchanged value of gate 0 appears. *)
Theorem C92_lower_reveals_refuted :
  exists c range xs ys i out out' v v', length range = length xs /\ length ys = length xs /\
    (forall k x y, nth_error xs k = Some x -> nth_error ys k = Some y -> (y <= x)%Q) /\
    nth_error xs i = nth_error ys i /\
    screen_profile c range xs xs = Ok out /\ screen_profile c range ys ys = Ok out' /\
    nth_error out i = Some (v, true) /\ nth_error out' i = Some (v', false).
Proof.
  destruct (hidden_gate_at (screen_profile plain at_1km calm calm) 0 true) as (out & v & E & V); [reflexivity|].
  destruct (hidden_gate_at (screen_profile plain at_1km dips dips) 0 false) as (out' & v' & E' & V'); [reflexivity|].
  exists plain, at_1km, calm, dips, 0, out, out', v, v'. split; [reflexivity|]. split; [reflexivity|]. split.
  { intros k x y X Y. do 20 (destruct k as [|k]; [cbn [nth_error calm dips map] in X, Y; revert X Y; intros [= <-] [= <-]; unfold Qle; cbn; lia|]).
    destruct k; discriminate X. }
  split; [reflexivity|]. auto.
Qed.
Print Assumptions C92_lower_reveals_refuted.

(** The noise is that of the highest tenth of the gates, so a strong signal below it
    stays: refuted for profiles of up to five gates, where all gates count as noise. *)
Definition five : list Q := map micro [100; 0; 0; 0; 0]%Z.
Theorem C92_few_gates_refuted :
  exists c range xs i x v out, length range = length xs /\ nth_error xs i = Some x /\ (100 * (1 # 1000000) <= x)%Q /\
    (forall k y, k <> i -> nth_error xs k = Some y -> y == 0)%Q /\
    screen_profile c range xs xs = Ok out /\ nth_error out i = Some (v, true).
Proof.
  destruct (hidden_gate_at (screen_profile plain (List.repeat 1000%Q 5) five five) 0 true) as (out & v & E & V); [reflexivity|].
  exists plain, (List.repeat 1000%Q 5), five, 0, (micro 100), v, out.
  split; [reflexivity|]. split; [reflexivity|]. split; [unfold micro; change (inject_Z 100) with 100%Q; lra|]. split.
  { intros k y N Y. destruct k as [|k]; [congruence|]. do 4 (destruct k as [|k]; [cbn [nth_error five map] in Y; revert Y; intros [= <-]; reflexivity|]). destruct k; discriminate Y. }
  auto.
Qed.
Print Assumptions C92_few_gates_refuted.

(** * C93: profiles hit by the sun *)
(** If there are gates above 10 km: exactly the profiles with values in at least 15 of 20
    height bins there are removed, from the time vector and from all images; other
    variables stay. *)
Theorem C93_exact data range beta gates nt : lookup "range" data = Some (CVec range) -> lookup "beta" data = Some (CImage beta) ->
  sized nt (length range) beta -> high_gates range gates -> gates <> [] ->
  exists data' keep, screen_sunbeam data = Ok data' /\ StronglySorted lt keep /\
    (forall i, In i keep <-> exists row, nth_error beta i = Some row /\ ~ sunbeam gates row) /\
    Forall2 (cut_to keep nt) data data'.
Proof. exact (sunbeam_exact data range beta gates nt). Qed.
Print Assumptions C93_exact.

(** Without gates above 10 km nothing changes; missing variables raise KeyError. *)
Theorem C93_low_range data range : lookup "range" data = Some (CVec range) -> (forall r, In r range -> r <= 10000)%Q ->
  screen_sunbeam data = Ok data.
Proof. exact (sunbeam_low data range). Qed.
Print Assumptions C93_low_range.
Theorem C93_missing data range gates : high_gates range gates -> gates <> [] ->
  (lookup "range" data = None -> screen_sunbeam data = Raise KeyError) /\
  (lookup "range" data = Some (CVec range) -> lookup "beta" data = None -> screen_sunbeam data = Raise KeyError).
Proof.
  intros Hg Ng. unfold screen_sunbeam. split; [intros ->; reflexivity|]. intros -> ->.
  assert (existsb (fun r => qgt r 10000) range = true) as ->; [|reflexivity].
  destruct gates as [|g gates]; [congruence|]. destruct (proj1 (proj2 Hg g) (or_introl eq_refl)) as (r & R & G).
  apply existsb_exists. exists r. split; [apply (nth_error_In _ _ R)|apply FillProofs.qgt_iff; exact G].
Qed.
Print Assumptions C93_missing.

(** 41 gates above 10 km. *)
Definition high_range : list Q := map (fun k => (9999 + inject_Z (Z.of_nat k))%Q) (seq 0 43).
Definition row_of (f : nat -> bool) : list (Q * bool) := map (fun k => (1%Q, negb (f k))) (seq 0 43).
(** The first profile is clear, the second has a value in every second gate. *)
Definition two_profiles : cdict :=
  [("time", CVec [1; 2]%Q); ("range", CVec high_range);
   ("beta", CImage [row_of (fun k => k <? 20); row_of (fun k => k mod 2 =? 0)]); ("zenith_angle", COther 3%Q)].
Definition times_left (r : result cdict) : option (list Q) :=
  match r with Ok d => match lookup "time" d with Some (CVec l) => Some l | _ => None end | _ => None end.
Example C93_nonvacuous : times_left (screen_sunbeam two_profiles) = Some [1]%Q /\
  sized 2 (length high_range) [row_of (fun k => k <? 20); row_of (fun k => k mod 2 =? 0)].
Proof.
  split; [reflexivity|]. split; [reflexivity|]. intros i row E. destruct i as [|[|i]]; [| |destruct i; discriminate E]; cbn [nth_error] in E; injection E as <-; reflexivity.
Qed.

(** Some profiles are left or an error is raised: refuted, all profiles can go. *)
Theorem C93_nothing_left_refuted :
  exists data range beta data', lookup "range" data = Some (CVec range) /\ lookup "beta" data = Some (CImage beta) /\
    sized 1 (length range) beta /\ screen_sunbeam data = Ok data' /\ lookup "time" data' = Some (CVec []).
Proof.
  exists [("time", CVec [1]%Q); ("range", CVec high_range); ("beta", CImage [row_of (fun _ => true)])], high_range, [row_of (fun _ => true)].
  eexists. split; [reflexivity|]. split; [reflexivity|]. split.
  { split; [reflexivity|]. intros i row E. destruct i as [|i]; [cbn in E; injection E as <-; reflexivity|destruct i; discriminate E]. }
  split; [reflexivity|]. reflexivity.
Qed.
Print Assumptions C93_nothing_left_refuted.

(** A profile with values in all gates above 10 km is removed: refuted with fewer than 20
    such gates, the bins then are empty. *)
Theorem C93_few_gates_refuted :
  exists data range beta, lookup "range" data = Some (CVec range) /\ lookup "beta" data = Some (CImage beta) /\
    sized 1 (length range) beta /\ (exists g r, nth_error range g = Some r /\ 10000 < r)%Q /\
    (forall g r, nth_error range g = Some r -> (10000 < r)%Q -> exists x, pixel beta 0 g = Some (x, false)) /\
    screen_sunbeam data = Ok data.
Proof.
  exists [("time", CVec [1]%Q); ("range", CVec (List.repeat 12000%Q 19)); ("beta", CImage [List.repeat (1%Q, false) 19])],
    (List.repeat 12000%Q 19), [List.repeat (1%Q, false) 19].
  split; [reflexivity|]. split; [reflexivity|]. split.
  { split; [reflexivity|]. intros i row E. destruct i as [|i]; [cbn in E; injection E as <-; reflexivity|destruct i; discriminate E]. }
  split; [exists 0, 12000%Q; split; [reflexivity|lra]|]. split; [|reflexivity].
  intros g r G _. assert (Lt := nth_error_Some_lt _ _ _ G). cbn in Lt. exists 1%Q. unfold pixel. cbn [nth_error].
  do 19 (destruct g as [|g]; [reflexivity|]). lia.
Qed.
Print Assumptions C93_few_gates_refuted.

(** * C94: final backscatter and depolarisation *)
(** Backscatter is screened; pixels above 1e-6 are limited to 1e-6 before smoothing and
    put back afterwards; the result is screened again.  For the well known models and
    range corrected data the final backscatter is the raw one, hidden exactly where the
    smoothed one is hidden or it is not positive; for the others it is the screened one.
    [smooth] is the Gaussian filter. *)
Theorem C94_beta smooth old model corrected m1 m2 range nt n raw_beta :
  0 < n -> length range = n -> Forall (fun r => ~ r == 0)%Q range -> sized nt n raw_beta ->
  (forall m, sized nt n m -> sized nt n (smooth m)) ->
  exists c1 c2 first limited smoothed beta beta_smooth,
    ceilo_beta smooth old model corrected m1 m2 range raw_beta = Ok (beta, beta_smooth) /\
    usual old model corrected false m1 m2 c1 /\ usual old model corrected true m1 m2 c2 /\
    sized nt n first /\ sized nt n limited /\ sized nt n smoothed /\ sized nt n beta /\ sized nt n beta_smooth /\
    (forall i b, nth_error raw_beta i = Some b -> exists o, nth_error first i = Some o /\ screened c1 range b b o) /\
    (forall i j v h x, pixel first i j = Some (v, h) -> pixel raw_beta i j = Some x ->
       (1 # 1000000 < v -> pixel limited i j = Some (1 # 1000000))%Q /\ (v <= 1 # 1000000 -> pixel limited i j = Some x)%Q) /\
    (forall i j v h y, pixel first i j = Some (v, h) -> pixel (smooth limited) i j = Some y ->
       (1 # 1000000 < v -> pixel smoothed i j = Some v)%Q /\ (v <= 1 # 1000000 -> pixel smoothed i j = Some y)%Q) /\
    (forall i b x, nth_error raw_beta i = Some b -> nth_error smoothed i = Some x ->
       exists o, nth_error beta_smooth i = Some o /\ screened c2 range b x o) /\
    (corrected = true -> well_known model -> forall i j x w h,
       pixel raw_beta i j = Some x -> pixel beta_smooth i j = Some (w, h) ->
       exists h', pixel beta i j = Some (x, h') /\ (h' = false <-> h = false /\ 0 < x)%Q) /\
    (~ (corrected = true /\ well_known model) -> beta = first).
Proof. exact (ceilo_beta_ok smooth old model corrected m1 m2 range nt n raw_beta). Qed.
Print Assumptions C94_beta.

(** Depolarisation is the ratio of the two polarisations, visible exactly where the
    backscatter is visible and the ratio is above 0 and at most 1; where the divisor is 0
    it is the dividend. *)
Theorem C94_depolarisation_partial beta x_pol p_pol i j v h x p :
  pixel beta i j = Some (v, h) -> pixel x_pol i j = Some x -> pixel p_pol i j = Some p ->
  exists d h', pixel (cl61_depolarisation beta x_pol p_pol) i j = Some (d, h') /\
    (~ p == 0 -> d * p == x)%Q /\ (p == 0 -> d == x)%Q /\ (h' = false <-> h = false /\ 0 < d /\ d <= 1)%Q.
Proof. exact (depolarisation_ok beta x_pol p_pol i j v h x p). Qed.
Print Assumptions C94_depolarisation_partial.

(** Two profiles at 2 km; smoothing is the mean of both in each gate. *)
Definition at_2km : list Q := List.repeat 2000%Q 20.
Definition nano (z : Z) : Q := (inject_Z z * (1 # 1000000000))%Q.
Definition first_profile : list Q := map nano [0; 0; 0; 0; 0; -400; -400; -400; -400; -400; -400; 0; 8000; 0; 0; 0; 0; 0; 100; -100]%Z.
Definition second_profile : list Q := map nano [0; 0; 0; 0; 0; 600; 600; 600; 600; 600; 600; 0; 0; 0; 0; 0; 0; 0; -100; 100]%Z.
Definition mean_of_both (m : image Q) : image Q :=
  match m with [a; b] => let c := map2 (fun x y => (x + y) / 2)%Q a b in [c; c] | _ => m end.
Definition smooth_at (i j : nat) : option (Q * bool) :=
  match ceilo_beta mean_of_both false "CHM15k" true (1 # 1000000000) (4 # 1000000000) at_2km [first_profile; second_profile] with
  | Ok (_, s) => pixel s i j
  | Raise _ => None
  end.
Example C94_nonvacuous :
  match smooth_at 0 8 with Some (v, h) => Qeq_bool v (nano 100) && negb h | None => false end = true /\
  well_known "CHM15k" /\ sized 2 20 [first_profile; second_profile].
Proof.
  split; [reflexivity|]. split; [exists "", "", "chm15k"; split; [reflexivity|cbn; auto]|].
  split; [reflexivity|]. intros i row E. destruct i as [|[|i]]; [| |destruct i; discriminate E]; cbn [nth_error] in E; injection E as <-; reflexivity.
Qed.

(** The smoothed backscatter is the smoothed field or, in strong clouds, the backscatter
    itself: refuted.  A strong echo that the first screening hides (here above six
    negative values) is put into the smoothed field without range correction: 2e-6 instead
    of 8e-6 at 2 km. *)
Theorem C94_cloud_value_refuted :
  exists smooth model m1 m2 range beta_raw i j x y beta beta_smooth v,
    ceilo_beta smooth false model true m1 m2 range beta_raw = Ok (beta, beta_smooth) /\
    pixel beta_raw i j = Some x /\ pixel (smooth beta_raw) i j = Some y /\
    pixel beta_smooth i j = Some (v, false) /\ (v < x /\ v < y)%Q.
Proof.
  exists mean_of_both, "CHM15k", (1 # 1000000000), (4 # 1000000000), at_2km, [first_profile; second_profile], 0, 12, (nano 8000).
  set (r := ceilo_beta mean_of_both false "CHM15k" true (1 # 1000000000) (4 # 1000000000) at_2km [first_profile; second_profile]).
  assert (T : match smooth_at 0 12 with Some (v, h) => Qeq_bool v (nano 2000) && negb h | None => false end = true) by reflexivity.
  unfold smooth_at in T. fold r in T. destruct r as [[beta bs]|]; [|discriminate T].
  destruct (pixel bs 0 12) as [[v h]|] eqn:P; [|discriminate T]. apply andb_true_iff in T. destruct T as [T H]. apply Qeq_bool_iff in T.
  destruct h; [discriminate H|]. eexists. exists beta, bs, v. split; [reflexivity|]. split; [reflexivity|]. split; [reflexivity|]. split; [exact P|].
  rewrite T. split; reflexivity.
Qed.
Print Assumptions C94_cloud_value_refuted.

(** Where the parallel polarisation is 0 there is no depolarisation: refuted, the mask of
    the division is replaced and the other polarisation appears as ratio. *)
Theorem C94_zero_divisor_refuted :
  exists beta x_pol p_pol i j d, pixel p_pol i j = Some 0%Q /\
    pixel (depolarisation x_pol p_pol) i j = Some (d, true) /\
    pixel (cl61_depolarisation beta x_pol p_pol) i j = Some (d, false).
Proof. exists [[(1%Q, false)]], [[1 # 2]], [[0%Q]], 0, 0, (1 # 2). split; [reflexivity|]. split; reflexivity. Qed.
Print Assumptions C94_zero_divisor_refuted.
