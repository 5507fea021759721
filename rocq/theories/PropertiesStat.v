(** Properties of the day statistics of the model evaluation. *)
From Coq Require Import List Bool Arith ZArith QArith String Lia Lqa.
From Verif Require Import Base TelegramSpec StatModel StatSpec StatProofs.
Import ListNotations.
Open Scope string_scope. Open Scope nat_scope. Open Scope list_scope.
Local Notation length := List.length (only parsing).

(** ** C143: errors of the model *)

(** The relative error in percent, rounded to hundredths, is shown where model and
    observation have numbers, the model is not below all observations and the
    observation is not zero; nothing is shown elsewhere. *)
Theorem C143_relative : forall model obs i c, length model = length obs ->
  nth_error (fst (relative_error model obs)) i = Some c ->
  (forall m o, comparable model obs i m o -> ~ (o == 0)%Q ->
     exists v, c = Some (Num v) /\ hundredths ((m - o) / o * 100) v) /\
  ((forall m o, comparable model obs i m o -> (o == 0)%Q) -> c = None).
Proof. intros model obs i c L H. exact (relative_pixel model obs i c L H). Qed.
Print Assumptions C143_relative.

(** The absolute error of the cloud fraction in percent. *)
Theorem C143_absolute : forall model obs i c, length model = length obs ->
  nth_error (fst (absolute_error model obs)) i = Some c ->
  (forall m o, comparable model obs i m o -> exists v, c = Some (Num v) /\ hundredths ((o - m) * 100) v) /\
  (nth_error model i = Some (Some NaN) -> has_obs obs i -> c = Some NaN) /\
  ((forall m o, ~ comparable model obs i m o) -> ~ (nth_error model i = Some (Some NaN) /\ has_obs obs i) -> c = None).
Proof. intros model obs i c L H. exact (absolute_pixel model obs i c L H). Qed.
Print Assumptions C143_absolute.

(** Both have one value per pixel. *)
Theorem C143_shape : forall model obs, length model = length obs ->
  length (fst (relative_error model obs)) = length model /\ length (fst (absolute_error model obs)) = length model.
Proof. intros model obs L. split; [apply relative_length|apply absolute_length]; exact L. Qed.
Print Assumptions C143_shape.

Definition qcell (z : Z) : cell := Some (Num (inject_Z z)).

Example C143_nonvacuous :
  comparable [qcell 3; qcell 1; None] [qcell 2; qcell 4; qcell 5] 0 3 2 /\
  fst (relative_error [qcell 3; qcell 1; None] [qcell 2; qcell 4; qcell 5]) = [Some (Num (inject_Z 5000 / 100)); None; None]%Q.
Proof.
  split; [|reflexivity]. split; [reflexivity|]. split; [reflexivity|]. exists 2%Q.
  split; [left; reflexivity|]. lra.
Qed.

(** A NaN of the model is not hidden in the absolute error. *)
Theorem C143_nan_refuted : exists model obs, length model = length obs /\
  In (Some NaN) (fst (absolute_error model obs)).
Proof. exists [Some NaN], [qcell 1]. split; [reflexivity|]. left. reflexivity. Qed.
Print Assumptions C143_nan_refuted.

(** For the water contents a positive error means that the model has more than the
    observation. *)
Theorem C143_sign : forall product model obs i m o v, product <> "cf" -> length model = length obs ->
  comparable model obs i m o -> (0 < o)%Q ->
  nth_error (fst (error_statistic product model obs)) i = Some (Some (Num v)) ->
  ((o <= m)%Q -> (0 <= v)%Q) /\ ((m <= o)%Q -> (v <= 0)%Q).
Proof.
  intros product model obs i m o v N L C P H. rewrite (relative_statistic product N) in H.
  destruct (proj1 (relative_pixel model obs i _ L H) m o C ltac:(lra)) as (w & E & R). injection E as <-.
  assert (D : forall y, (0 <= y)%Q -> (0 <= y / o)%Q)
    by (intros y Y; apply Qle_shift_div_l; [exact P|lra]).
  assert (D' : forall y, (y <= 0)%Q -> (y / o <= 0)%Q)
    by (intros y Y; apply Qle_shift_div_r; [exact P|lra]).
  split; intros Hm.
  - apply (rounded_nonneg 100 ((m - o) / o * 100)); [lia|exact R|]. specialize (D (m - o)%Q ltac:(lra)).
    set (y := ((m - o) / o)%Q) in *. clearbody y. lra.
  - apply (rounded_nonpos 100 ((m - o) / o * 100)); [lia|exact R|]. specialize (D' (m - o)%Q ltac:(lra)).
    set (y := ((m - o) / o)%Q) in *. clearbody y. lra.
Qed.
Print Assumptions C143_sign.
(** For the cloud fraction it means the opposite. *)
Theorem C143_sign_refuted : exists product model obs i m o v, length model = length obs /\
  comparable model obs i m o /\ (0 < o)%Q /\ (o < m)%Q /\
  nth_error (fst (error_statistic product model obs)) i = Some (Some (Num v)) /\ (v < 0)%Q.
Proof.
  exists "cf", [Some (Num (3 # 4))], [Some (Num (1 # 2))], 0, (3 # 4)%Q, (1 # 2)%Q, (inject_Z (-2500) / 100)%Q.
  split; [reflexivity|]. split.
  { split; [reflexivity|]. split; [reflexivity|]. exists (1 # 2)%Q. split; [left; reflexivity|lra]. }
  split; [lra|]. split; [lra|]. split; reflexivity.
Qed.
Print Assumptions C143_sign_refuted.

(** With several observations in one figure, a pixel of a panel is shown only where the
    model can also be compared with all the observations before it. *)
Theorem C143_panels : forall product model obss k p o i c, product <> "cf" ->
  Forall (fun obs : list cell => length obs = length model) obss ->
  nth_error (error_panels product model obss) k = Some p -> nth_error obss k = Some o ->
  nth_error p i = Some c ->
  (forall m x, comparable_all model (firstn (S k) obss) i m -> number_at o i x -> ~ (x == 0)%Q ->
     exists v, c = Some (Num v) /\ hundredths ((m - x) / x * 100) v) /\
  ((forall m x, comparable_all model (firstn (S k) obss) i m -> number_at o i x -> (x == 0)%Q) -> c = None).
Proof.
  intros product model obss k p o i c N F Hp Ho Hc. apply panels_loop in Hp.
  rewrite (loop_panel product obss model k p o F Hp Ho) in Hc. rewrite (relative_statistic product N) in Hc.
  destruct (relative_pixel _ _ _ _ (after_len model obss k o F Ho) Hc) as [H1 H2]. split.
  - intros m x C X. apply H1. apply comparable_after; [exact F|exact Ho|split; assumption].
  - intros Z. apply H2. intros m x C. apply comparable_after in C; [|exact F|exact Ho].
    apply (Z m x); apply C.
Qed.
Print Assumptions C143_panels.

(** The same for the cloud fraction. *)
Theorem C143_panels_cf : forall model obss k p o i c,
  Forall (fun obs : list cell => length obs = length model) obss ->
  nth_error (error_panels "cf" model obss) k = Some p -> nth_error obss k = Some o ->
  nth_error p i = Some c ->
  (forall m x, comparable_all model (firstn (S k) obss) i m -> number_at o i x ->
     exists v, c = Some (Num v) /\ hundredths ((x - m) * 100) v) /\
  (forall v, c = Some (Num v) -> exists m x, comparable_all model (firstn (S k) obss) i m /\ number_at o i x).
Proof.
  intros model obss k p o i c F Hp Ho Hc. apply panels_loop in Hp.
  rewrite (loop_panel "cf" obss model k p o F Hp Ho) in Hc.
  change (error_statistic "cf") with absolute_error in Hc. pose proof (after_len model obss k o F Ho) as L. split.
  - intros m x C X. apply (proj1 (absolute_pixel _ _ _ _ L Hc)).
    apply comparable_after; [exact F|exact Ho|split; assumption].
  - intros v ->. destruct (absolute_pixel _ _ _ _ L Hc) as (_ & H2 & H3).
    destruct (nth_error (after model (firstn k obss)) i) as [[[m|]|]|] eqn:Em.
    + rewrite (proj1 (absolute_eq _ _ L)), ArrayProofs.nth_error_map2, Em in Hc.
      destruct (nth_error o i) as [co|] eqn:Eo; [|discriminate]. injection Hc as Hc.
      destruct (keep_obs o (Some (Num m)) co) as [y|] eqn:Ko;
        [|unfold absolute_cell in Hc; destruct (keep_model o (Some (Num m)) co) as [[]|]; discriminate].
      destruct (keep_obs_num _ _ _ _ Ko) as [-> Ny]. destruct y as [x|]; [|destruct (Ny eq_refl)].
      exists m, x. apply (comparable_after model obss k o i m x F Ho). split; [exact Em|]. split; [exact Eo|].
      destruct (keep_model_num o m x (nth_has _ _ _ Eo)) as [[_ K]|[K _]]; [exact K|].
      rewrite K in Hc. discriminate.
    + exfalso. rewrite (proj1 (absolute_eq _ _ L)), ArrayProofs.nth_error_map2, Em in Hc.
      destruct (nth_error o i) as [co|] eqn:Eo; [|discriminate]. injection Hc as Hc.
      unfold absolute_cell in Hc. destruct (keep_model o (Some NaN) co) as [x|] eqn:K; [|discriminate].
      apply keep_model_some in K. injection K as <-. destruct (keep_obs o (Some NaN) co); discriminate.
    + exfalso. rewrite (proj1 (absolute_eq _ _ L)), ArrayProofs.nth_error_map2, Em in Hc.
      destruct (nth_error o i) as [co|]; discriminate.
    + exfalso. rewrite (proj1 (absolute_eq _ _ L)), ArrayProofs.nth_error_map2, Em in Hc. discriminate.
Qed.
Print Assumptions C143_panels_cf.

(** A panel is missing only if it, or one before it, has nothing to show. *)
Theorem C143_missing : forall product model obss k, product <> "cf" ->
  Forall (fun obs : list cell => length obs = length model) obss ->
  nth_error (error_panels product model obss) k = None -> k < length obss ->
  exists j o, j <= k /\ nth_error obss j = Some o /\
    forall i m x, comparable_all model (firstn (S j) obss) i m -> number_at o i x -> (x == 0)%Q.
Proof. exact panels_missing. Qed.
Print Assumptions C143_missing.

Example C143_panels_nonvacuous :
  error_panels "lwc" [qcell 3; qcell 4] [[qcell 2; qcell 2]; [qcell 1; qcell 2]] =
    [[Some (Num (inject_Z 5000 / 100)); Some (Num (inject_Z 10000 / 100))];
     [Some (Num (inject_Z 20000 / 100)); Some (Num (inject_Z 10000 / 100))]]%Q /\
  comparable_all [qcell 3; qcell 4] [[qcell 2; qcell 2]; [qcell 1; qcell 2]] 0 3 /\
  error_panels "lwc" [qcell 3; None] [[None; qcell 2]; [qcell 1; qcell 2]] = [].
Proof.
  split; [reflexivity|]. split; [|reflexivity]. split; [reflexivity|].
  constructor; [|constructor; [|constructor]].
  - split; [exists 2%Q; reflexivity|]. exists 2%Q. split; [left; reflexivity|lra].
  - split; [exists 1%Q; reflexivity|]. exists 1%Q. split; [left; reflexivity|lra].
Qed.

(** The panel of an observation depends on the observations drawn before it. *)
Theorem C143_independent_refuted : exists product model o1 o2 p1 p2 p,
  error_panels product model [o1; o2] = [p1; p2] /\ error_panels product model [o2] = [p] /\ p <> p2.
Proof.
  exists "lwc", [qcell 3; qcell 4], [None; qcell 2], [qcell 2; qcell 2],
    [None; Some (Num (inject_Z 10000 / 100))]%Q, [None; Some (Num (inject_Z 10000 / 100))]%Q,
    [Some (Num (inject_Z 5000 / 100)); Some (Num (inject_Z 10000 / 100))]%Q.
  split; [reflexivity|]. split; [reflexivity|]. discriminate.
Qed.
Print Assumptions C143_independent_refuted.
(** An observation that cannot be compared hides all the following ones. *)
Theorem C143_stop_refuted : exists product model o1 o2 p,
  error_panels product model [o1; o2] = [] /\ error_panels product model [o2] = [p] /\ exists v, In (Some (Num v)) p.
Proof.
  exists "lwc", [qcell 3; None], [None; qcell 2], [qcell 2; qcell 2], [Some (Num (inject_Z 5000 / 100)); None]%Q.
  split; [reflexivity|]. split; [reflexivity|]. eexists. left. reflexivity.
Qed.
Print Assumptions C143_stop_refuted.

(** ** C144: common area *)

(** The segments of the area figure: 1 only model, 2 both, 3 only observation, 0 none. *)
Theorem C144_segments : forall model obs i v, length model = length obs ->
  nth_error (create_segment_values (fst (snd (calc_common_area_sum model obs)))
                                   (snd (snd (calc_common_area_sum model obs)))) i = Some v ->
  (v = 0 /\ ~ has_model model obs i /\ ~ has_obs obs i) \/
  (v = 1 /\ has_model model obs i /\ ~ has_obs obs i) \/
  (v = 2 /\ has_model model obs i /\ has_obs obs i) \/
  (v = 3 /\ ~ has_model model obs i /\ has_obs obs i).
Proof. intros model obs i v L H. exact (segments_at model obs i v L H). Qed.
Print Assumptions C144_segments.

(** The area in the title is the share of the pixels with both among the pixels with
    any, in percent with two decimals. *)
Theorem C144_area : forall model obs, length model = length obs ->
  let r := calc_common_area_sum model obs in
  let seg := create_segment_values (fst (snd r)) (snd (snd r)) in
  let n := length seg - count_occ Nat.eq_dec seg 0 in
  length seg = length model /\
  (n = 0 -> fst r = 0%Q) /\
  (n <> 0 -> hundredths (inject_Z (Z.of_nat (count_occ Nat.eq_dec seg 2)) / inject_Z (Z.of_nat n) * 100) (fst r)).
Proof. exact area_value. Qed.
Print Assumptions C144_area.

Theorem C144_range : forall model obs, length model = length obs ->
  (0 <= fst (calc_common_area_sum model obs) <= 100)%Q.
Proof. exact area_range. Qed.
Print Assumptions C144_range.

Example C144_nonvacuous :
  let r := calc_common_area_sum [qcell 3; qcell 1; None; qcell 5; None] [qcell 2; qcell 4; qcell 5; None; Some NaN] in
  create_segment_values (fst (snd r)) (snd (snd r)) = [2; 3; 3; 1; 0] /\ (fst r == 25)%Q /\
  has_model [qcell 3; qcell 1; None; qcell 5; None] [qcell 2; qcell 4; qcell 5; None; Some NaN] 3.
Proof.
  split; [reflexivity|]. split; [reflexivity|]. exists 5%Q. split; [reflexivity|]. left. exists 2%Q.
  split; [left; reflexivity|lra].
Qed.

(** The area of an observation depends on the observations before it. *)
Theorem C144_independent_refuted : exists model o1 o2 a1 a2 a,
  area_panels model [o1; o2] = [a1; a2] /\ area_panels model [o2] = [a] /\ ~ (a == a2)%Q.
Proof.
  exists [qcell 1; qcell 4], [qcell 3; qcell 3], [qcell 1; qcell 2],
    (inject_Z 5000 / 100)%Q, (inject_Z 5000 / 100)%Q, (inject_Z 10000 / 100)%Q.
  split; [reflexivity|]. split; [reflexivity|]. intros H. discriminate H.
Qed.
Print Assumptions C144_independent_refuted.

(** ** C145: profiles and histograms *)

(** The mean profiles: the mean of the numbers of a level, ignoring NaN for the
    observation; a NaN of the model makes its level NaN. *)
Theorem C145_vertical : forall model obs k lm lo vm vo,
  nth_error model k = Some lm -> nth_error obs k = Some lo -> visible lm vm -> visible lo vo ->
  exists m o, nth_error (fst (vertical_profile model obs)) k = Some m /\
    nth_error (snd (vertical_profile model obs)) k = Some o /\
    (vm = [] -> m = None) /\ (In NaN vm -> m = Some NaN) /\
    (vm <> [] -> ~ In NaN vm -> exists v, m = Some (Num v) /\ mean_of vm v) /\
    ((forall q, ~ In (Num q) vo) -> o = None) /\
    (forall q, In (Num q) vo -> exists v, o = Some v /\ mean_of vo v).
Proof.
  intros model obs k lm lo vm vo Hm Ho Vm Vo. exists (ma_mean lm), (nan_mean lo).
  unfold vertical_profile. cbn [fst snd]. rewrite !nth_error_map, Hm, Ho.
  split; [reflexivity|]. split; [reflexivity|].
  destruct (ma_mean_spec lm vm Vm) as (A & B & C). destruct (nan_mean_spec lo vo Vo) as (D & E).
  repeat (split; [assumption|]). assumption.
Qed.
Print Assumptions C145_vertical.

(** The smoothed profile: every value is the mean of the numbers among the next [n]
    levels beginning with its own, and NaN if there is none. *)
Theorem C145_rolling : forall n data i w, i < length data ->
  (exists pre post, data = pre ++ w ++ post /\ length pre = i /\ length w = Nat.min n (length data - i)) ->
  exists vis, visible w vis /\
    ((forall q, ~ In (Num q) vis) -> nth_error (rolling_mean n data) i = Some None) /\
    (forall q, In (Num q) vis -> exists v, nth_error (rolling_mean n data) i = Some (Some v) /\ mean_of vis v).
Proof. exact rolling_spec. Qed.
Print Assumptions C145_rolling.

(** All these means lie between the bounds of the numbers. *)
Theorem C145_bounds : forall vis v lo hi, mean_of vis v ->
  (forall q, In (Num q) vis -> (lo <= q <= hi)%Q) -> (lo <= v <= hi)%Q.
Proof. exact mean_bounds. Qed.
Print Assumptions C145_bounds.

Example C145_nonvacuous :
  visible [qcell 1; None; Some NaN; qcell 4] [Num 1; NaN; Num 4]%Q /\
  nan_mean [qcell 1; None; Some NaN; qcell 4] = Some (5 # 2)%Q /\
  nth_error (rolling_mean 2 [qcell 1; None; None; qcell 4]) 1 = Some None /\
  rolling_mean 2 [qcell 1; qcell 3; None; qcell 4] = [Some (4 # 2); Some (3 # 1); Some (4 # 1); Some (4 # 1)]%Q.
Proof. split; [repeat constructor|]. repeat split. Qed.

(** The histograms show rounded numbers; values of the model above the last edge of the
    observed histogram are put at this edge. *)
Theorem C145_histogram : forall (cloud_fraction : bool) model obs vm vo, visible model vm -> visible obs vo ->
  let d := if cloud_fraction then 10%Z else 1000000%Z in
  exists qs rs e, pick (fun x => x <> NaN) vo (map Num qs) /\ Forall2 (rounded d) qs rs /\
    snd (histogram cloud_fraction model obs) = map Num rs /\ highest rs e /\
    Forall2 (fun x y => match x with
                        | NaN => y = NaN
                        | Num q => exists r, rounded d q r /\
                            (((r <= e)%Q /\ y = Num r) \/ ((e < r)%Q /\ y = Num e))
                        end) vm (fst (histogram cloud_fraction model obs)).
Proof. exact histogram_spec. Qed.
Print Assumptions C145_histogram.

(** No value of the model up to the largest observation is moved. *)
Theorem C145_unmoved : forall obs e, highest obs e -> forall x, In x obs -> (x <= e)%Q.
Proof. exact highest_ge. Qed.
Print Assumptions C145_unmoved.

Example C145_histogram_nonvacuous :
  histogram true [Some (Num (1 # 4)); Some (Num (9 # 10)); None] [Some (Num (1 # 10)); Some (Num (1 # 2)); Some NaN] =
    ([Num (inject_Z 2 / 10); Num (inject_Z 5 / 10)], [Num (inject_Z 1 / 10); Num (inject_Z 5 / 10)])%Q.
Proof. reflexivity. Qed.

(** Without observations, values of the model above one are changed all the same. *)
Theorem C145_clip_refuted : exists model obs m v, (forall o, ~ has_number obs o) /\ model = [Some (Num m)] /\
  fst (histogram false model obs) = [Num v] /\ ~ rounded 1000000 m v.
Proof.
  exists [qcell 2], [None], 2%Q, 1%Q. split; [intros o [H|[]]; discriminate|]. split; [reflexivity|].
  split; [reflexivity|]. intros (u & E & R).
  assert (E' : (inject_Z u == 1000000)%Q).
  { assert (K : (inject_Z u / inject_Z 1000000 * inject_Z 1000000 == 1 * inject_Z 1000000)%Q) by (rewrite <- E; reflexivity).
    rewrite Qmult_comm, Qmult_div_r in K by discriminate. rewrite K. reflexivity. }
  assert (D : (2 * inject_Z 1000000 - inject_Z u == 1000000)%Q) by (rewrite E'; reflexivity).
  destruct R as [R|[R _]]; rewrite D in R; discriminate R.
Qed.
Print Assumptions C145_clip_refuted.

(** ** C146: what is drawn *)

(** The names drawn: variables of the product, the model first; those on the advection
    grid separately. *)
Theorem C146_names : forall variables product advance, NoDup variables ->
  exists names models others moving allm,
    pick (fun n => occurs product n /\ (advance = true \/ ~ occurs "cirrus" n /\ ~ occurs "snow" n)) variables names /\
    pick (fun n => ~ occurs "adv" n /\ starts_with "model_" n) names models /\
    pick (fun n => ~ occurs "adv" n /\ ~ starts_with "model_" n) names others /\
    pick (fun n => occurs "adv" n) names moving /\
    pick (fun n => starts_with "model_" n) names allm /\
    let standard := models ++ others in
    let advection := allm ++ moving in
    (length advection < length standard -> parse_wanted_names variables product advance = (standard, [])) /\
    (length standard < length advection -> parse_wanted_names variables product advance = (advection, [])) /\
    (length standard = length advection -> parse_wanted_names variables product advance = (standard, advection)).
Proof. exact wanted_spec. Qed.
Print Assumptions C146_names.

Example C146_nonvacuous :
  parse_wanted_names ["time"; "cf_V"; "cf_A"; "model_cf"; "cf_V_adv"; "cf_A_adv"; "model_cf_cirrus"] "cf" false =
    (["model_cf"; "cf_V"; "cf_A"], ["model_cf"; "cf_V_adv"; "cf_A_adv"]).
Proof. reflexivity. Qed.

(** Observations on the standard grid are left out when there are more on the advection
    grid, and the other way round. *)
Theorem C146_complete_refuted : exists variables product advance n,
  In n variables /\ occurs product n /\
  ~ In n (fst (parse_wanted_names variables product advance)) /\ ~ In n (snd (parse_wanted_names variables product advance)).
Proof.
  exists ["model_cf"; "cf_V"; "cf_V_adv"; "cf_A_adv"], "cf", false, "cf_V".
  split; [right; left; reflexivity|]. split; [exists "", "_V"; reflexivity|].
  cbn. split; [intros [H|[H|[H|[]]]]; discriminate|intros []].
Qed.
Print Assumptions C146_complete_refuted.

(** Values that are not positive, and very small water contents, are not drawn; nothing
    else is changed. *)
Theorem C146_small : forall name data i c, nth_error (mask_small_values name data) i = Some c ->
  exists c0, nth_error data i = Some c0 /\
    (forall q, c0 = Some (Num q) -> (shown_value name q -> c = c0) /\ (~ shown_value name q -> c = None)) /\
    (c0 = None -> c = None) /\ (c0 = Some NaN -> c = Some NaN).
Proof. exact mask_small_at. Qed.
Print Assumptions C146_small.

Theorem C146_small_shape : forall name data, length (mask_small_values name data) = length data.
Proof.
  intros name data. unfold mask_small_values. cbv zeta.
  destruct (TelegramModel.contains "lwc" name), (TelegramModel.contains "iwc" name); rewrite ?map_length; reflexivity.
Qed.
Print Assumptions C146_small_shape.

Example C146_small_nonvacuous :
  mask_small_values "lwc_adv" [qcell 0; Some (Num (1 # 1000000)); Some (Num (1 # 1000)); Some NaN] =
    [None; None; Some (Num (1 # 1000)); Some NaN] /\
  shown_value "iwc" (1 # 1000).
Proof. split; [reflexivity|]. split; [lra|]. split; intros _; lra. Qed.
