(** Properties C21-C23, C31, C32 and C58: liquid water content and radar attenuation. *)
From Verif Require Import Base BitsModel StatusModel ArrayModel ArraySpec ArrayProofs FillModel GridModel
  ImageModel LwcModel LwcSpec LwcProofs.
From Coq Require Import Lqa.
Open Scope nat_scope.

(** Input of the retrieval: positive gradients and a droplet mask on the height grid. *)
Definition lwc_input (gradient : image Q) (is_liquid : image bool) (height : list Q) : Prop :=
  heights_ok height /\
  Forall2 (fun g row => length g = length row /\ Forall (fun x => 0 < x)%Q g) gradient is_liquid /\
  forall i row, nth_error is_liquid i = Some row -> length row = length height.

Lemma lwc_input_row gradient liquid h i row g : lwc_input gradient liquid h ->
  nth_error liquid i = Some row -> nth_error gradient i = Some g ->
  length g = length row /\ length h = length row /\ heights_ok h /\ Forall (fun x => 0 < x)%Q g.
Proof.
  intros (Hh & H2 & Hl) Hr Hg. pose proof (Hl i row Hr) as El. split; [|split; [auto|split; [exact Hh|]]].
  - clear Hl. revert i Hr Hg. induction H2 as [|g' r' gs rs [H _] _ IH]; intros [|i] Hr Hg; try discriminate.
    + cbn in Hr, Hg. congruence.
    + apply (IH i); assumption.
  - clear Hl. revert i Hr Hg. induction H2 as [|g' r' gs rs [_ H] _ IH]; intros [|i] Hr Hg; try discriminate.
    + cbn in Hr, Hg. assert (g = g') by congruence. subst g'. exact H.
    + apply (IH i); assumption.
Qed.

(** ** C21 *)
Theorem C21_integral_and_shape : forall gradient is_liquid height lwp is_rain,
  lwc_input gradient is_liquid height ->
  exists out, lwc_field gradient is_liquid height lwp is_rain = Ok out /\ length out = length is_liquid /\
  forall i row g l, nth_error is_liquid i = Some row -> nth_error gradient i = Some g ->
    nth_error lwp i = Some (Some l) -> nth_error is_rain i = Some false -> In true row ->
  exists lwc, nth_error out i = Some lwc /\ length lwc = length row /\
    (integrate height (value0 lwc) (length height) == Qmax 0 l)%Q /\
    exists c, (0 <= c)%Q /\ (0 < l -> 0 < c)%Q /\
    forall j, j < length row -> exists y, nth_error lwc j = Some (Some y) /\
      (nth_error row j = Some false -> (y == 0)%Q) /\
      (forall b t gb, max_run row b t -> b <= j -> j <= t -> nth_error g b = Some gb ->
        (y == c * gb * (level height j - below_gate height b))%Q).
Proof.
  intros gr liq h lwp rain Hi. pose proof Hi as (Hh & H2 & Hlr).
  destruct (lwc_field_rows gr liq h lwp rain H2) as (out & E & L & R).
  exists out. split; [exact E|]. split; [exact L|]. intros i row g l Hr Hg Hl Hn Ht.
  destruct (lwc_input_row _ _ _ _ _ _ Hi Hr Hg) as (L1 & L2 & _ & P).
  specialize (R i row g Hr Hg). rewrite (nth_error_nth _ _ _ Hl), (nth_error_nth _ _ _ Hn) in R.
  eexists. split; [exact R|]. split; [apply profile_len; auto|].
  destruct (profile_values row g h L1 L2 Hh P l Ht) as (c & C1 & C2 & C3 & C4).
  split; [exact C4|]. exists c. auto.
Qed.
(** Sign and growth, from the values above. *)
Theorem C21_sign_and_growth : forall gradient is_liquid height lwp is_rain out i row g l lwc,
  lwc_input gradient is_liquid height ->
  lwc_field gradient is_liquid height lwp is_rain = Ok out ->
  nth_error is_liquid i = Some row -> nth_error gradient i = Some g ->
  nth_error lwp i = Some (Some l) -> nth_error is_rain i = Some false -> In true row ->
  nth_error out i = Some lwc ->
  (forall j y, nth_error lwc j = Some (Some y) ->
     (0 <= y)%Q /\ ((0 < y)%Q -> nth_error row j = Some true) /\
     (nth_error row j = Some true -> (0 < l)%Q -> (0 < y)%Q)) /\
  (forall b t j j' y y', max_run row b t -> b <= j -> j < j' -> j' <= t -> (0 < l)%Q ->
     nth_error lwc j = Some (Some y) -> nth_error lwc j' = Some (Some y') -> (y < y')%Q).
Proof.
  intros gr liq h lwp rain out i row g l lwc Hi Ho Hr Hg Hl Hn Ht Hw.
  destruct (C21_integral_and_shape gr liq h lwp rain Hi) as (out' & E & _ & V).
  assert (out' = out) by congruence. subst out'.
  destruct (V i row g l Hr Hg Hl Hn Ht) as (lwc' & E1 & Ll & _ & c & C1 & C2 & C3). clear V.
  assert (lwc' = lwc) by congruence. subst lwc'.
  destruct (lwc_input_row _ _ _ _ _ _ Hi Hr Hg) as (L1 & L2 & Hh & P).
  rewrite Forall_forall in P.
  assert (D : forall b j, b <= j -> j < length row -> (0 < level h j - below_gate h b)%Q).
  { intros b j H1 H3. pose proof (level_mono h b j Hh H1 ltac:(lia)).
    pose proof (path_pos h b Hh ltac:(lia)). lra. }
  split.
  - intros j y Hy. assert (Hj : j < length row) by (apply nth_error_Some_lt in Hy; lia).
    destruct (C3 j Hj) as (y' & Hy' & Z & F). assert (y' = y) by congruence. subst y'.
    destruct (nth_error_lt_Some row j Hj) as [[] Er].
    + destruct (runs_cover row j Er) as (b & t & Hrun & Hb & Htt). apply runs_max_run in Hrun.
      destruct (nth_error_lt_Some g b ltac:(lia)) as [gb Hgb].
      pose proof (F b t gb Hrun Hb Htt Hgb) as Ey. pose proof (P gb (nth_error_In _ _ Hgb)) as Pg.
      pose proof (D b j Hb Hj) as Pd. split; [|split].
      * rewrite Ey. apply Qmult_le_0_compat; [|lra]. apply Qmult_le_0_compat; lra.
      * intros _. exact Er.
      * intros _ Hlp. rewrite Ey. apply Qmult_lt_0_compat; [|lra]. apply Qmult_lt_0_compat; [apply C2, Hlp|lra].
    + specialize (Z Er). split; [lra|]. split; [intros; lra|]. intros C. congruence.
  - intros b t j j' y y' Hrun Hb Hjj Ht' Hlp Hy Hy'. pose proof Hrun as (Hbt & Hin & _).
    assert (Ht2 : t < length row) by (eapply nth_error_Some_lt; apply (Hin t); lia).
    destruct (C3 j ltac:(lia)) as (z & Hz & _ & F). assert (z = y) by congruence. subst z.
    destruct (C3 j' ltac:(lia)) as (z & Hz' & _ & F'). assert (z = y') by congruence. subst z.
    destruct (nth_error_lt_Some g b ltac:(lia)) as [gb Hgb].
    rewrite (F b t gb Hrun Hb ltac:(lia) Hgb), (F' b t gb Hrun ltac:(lia) Ht' Hgb).
    apply Qmult_lt_l.
    + apply Qmult_lt_0_compat; [apply C2, Hlp|]. apply P. eapply nth_error_In, Hgb.
    + pose proof (level_mono h (S j) j' Hh ltac:(lia) ltac:(lia)).
      pose proof (path_pos h (S j) Hh ltac:(lia)) as Pp. cbn [below_gate] in Pp. lra.
Qed.
(** No value at all in rain, without lwp and without liquid. *)
Theorem C21_no_retrieval : forall gradient is_liquid height lwp is_rain out i row g,
  lwc_input gradient is_liquid height ->
  lwc_field gradient is_liquid height lwp is_rain = Ok out ->
  nth_error is_liquid i = Some row -> nth_error gradient i = Some g ->
  nth_error is_rain i = Some true \/ nth_error lwp i = Some None \/ (forall b, In b row -> b = false) ->
  forall lwc j x, nth_error out i = Some lwc -> nth_error lwc j = Some x -> x = None.
Proof.
  intros gr liq h lwp rain out i row g Hi Ho Hr Hg Hc lwc j x Hw Hx.
  pose proof Hi as (Hh & H2 & Hlr). destruct (lwc_field_rows gr liq h lwp rain H2) as (out' & E & _ & R).
  assert (out' = out) by congruence. subst out'. specialize (R i row g Hr Hg).
  destruct (lwc_input_row _ _ _ _ _ _ Hi Hr Hg) as (L1 & L2 & _ & P).
  assert (lwc = lwc_profile (filled_row None row g) h (nth i lwp None) (nth i rain false)) by congruence. subst lwc.
  refine (profile_masked row g h L1 L2 P _ _ _ j x Hx).
  destruct Hc as [Hc|[Hc|Hc]]; [left|right; left|right; right; exact Hc]; apply (nth_error_nth _ _ _ Hc).
Qed.
Example C21_nonvacuous :
  lwc_input [[1; 2; 2; 2; 3]; [1; 1; 1; 1; 1]]%Q
            [[true; false; true; true; false]; [false; true; true; false; false]] [100; 200; 300; 400; 500]%Q /\
  option_map (map (fun x => option_map Qred x))
    (match lwc_field [[1; 2; 2; 2; 3]; [1; 1; 1; 1; 1]]%Q
            [[true; false; true; true; false]; [false; true; true; false; false]] [100; 200; 300; 400; 500]%Q
            [Some 1400; None]%Q [false; false] with Ok o => nth_error o 0 | Raise _ => None end)
  = Some [Some 2; Some 0; Some 4; Some 8; Some 0]%Q.
Proof.
  split; [|reflexivity]. split; [|split].
  - split.
    + intros x H. injection H as <-. reflexivity.
    + intros i x y. do 5 (destruct i as [|i]; [cbn; intros H H'; try discriminate; injection H as <-; injection H' as <-; reflexivity|]).
      cbn. destruct i; discriminate.
  - repeat constructor.
  - intros i row. do 2 (destruct i as [|i]; [cbn; intros H; injection H as <-; reflexivity|]). destruct i; discriminate.
Qed.
Print Assumptions C21_integral_and_shape.
Print Assumptions C21_sign_and_growth.
Print Assumptions C21_no_retrieval.

(** ** C22 *)
Theorem C22_path_integral : forall height specific j a,
  length specific = length height -> nth_error (map to_masked specific) j = Some a ->
  exists y, nth_error (map to_masked (calc_two_way_attenuation height specific)) j = Some y /\
    match a with
    | None => y = None
    | Some _ => exists v, y = Some v /\
        (v == 2 * integrate height (value0 (map to_masked specific)) (S j) / 1000)%Q
    end.
Proof. intros. apply two_way_value; assumption. Qed.
Theorem C22_never_decreases : forall height specific i j x y,
  heights_ok height -> length specific = length height ->
  (forall k a, nth_error (map to_masked specific) k = Some (Some a) -> (0 <= a)%Q) -> i <= j ->
  nth_error (map to_masked (calc_two_way_attenuation height specific)) i = Some (Some x) ->
  nth_error (map to_masked (calc_two_way_attenuation height specific)) j = Some (Some y) ->
  (0 <= x /\ x <= y)%Q.
Proof. intros h s i j x y. apply two_way_mono. Qed.
(** Attenuation by gases: the saturated value counts in droplet pixels. *)
Theorem C22_gas : forall height specific saturated droplet chosen j a,
  length specific = length height -> length saturated = length height -> length droplet = length height ->
  length chosen = length height ->
  (forall k, nth_error droplet k = Some true -> nth_error chosen k = nth_error saturated k) ->
  (forall k, nth_error droplet k = Some false -> nth_error chosen k = nth_error specific k) ->
  nth_error (map to_masked chosen) j = Some a ->
  exists y, nth_error (amount (calc_gas_attenuation height specific saturated droplet)) j = Some y /\
    match a with
    | None => y = None
    | Some _ => exists v, y = Some v /\
        (v == 2 * integrate height (value0 (map to_masked chosen)) (S j) / 1000)%Q
    end.
Proof.
  intros h sp sat dr ch j a L1 L2 L3 L4 H1 H2 Ha. unfold calc_gas_attenuation. cbn [amount].
  match goal with |- context [calc_two_way_attenuation h ?X] => assert (E : X = ch) end.
  { apply nth_error_ext. intros k. rewrite nth_error_map2, nth_error_combine.
    destruct (Nat.lt_ge_cases k (length h)) as [Hk|Hk].
    - destruct (nth_error_lt_Some dr k ltac:(lia)) as [d Ed]. destruct (nth_error_lt_Some sp k ltac:(lia)) as [x Ex].
      destruct (nth_error_lt_Some sat k ltac:(lia)) as [y Ey]. rewrite Ed, Ex, Ey. destruct d; cbn [assign fst snd].
      + rewrite (H1 k Ed). congruence.
      + rewrite (H2 k Ed). congruence.
    - rewrite (proj2 (nth_error_None dr k)) by lia. symmetry. apply nth_error_None. lia. }
  rewrite E. apply two_way_value; assumption.
Qed.
Example C22_nonvacuous :
  map (option_map Qred) (map to_masked (calc_two_way_attenuation [500; 1000; 1500; 2500]%Q
    [(2%Q, false); (7%Q, true); (1%Q, false); (3%Q, false)])) = [Some 2; None; Some 3; Some 9]%Q.
Proof. reflexivity. Qed.
Print Assumptions C22_path_integral.
Print Assumptions C22_never_decreases.
Print Assumptions C22_gas.

(** ** C23 *)
Theorem C23_corrected_implies_attenuated : forall rain liquid melting j,
  (nth_error (corrected (screen_liquid rain liquid)) j = Some true ->
   nth_error (attenuated (screen_liquid rain liquid)) j = Some true) /\
  (nth_error (corrected rain) j = Some true -> nth_error (attenuated rain) j = Some true) /\
  (nth_error (corrected melting) j = Some true -> nth_error (attenuated melting) j = Some true).
Proof. intros. repeat split; intros H; apply nth_corrected in H; apply H. Qed.
Theorem C23_liquid_corrected_has_value : forall rate height lwc_dz lwp droplet rain j,
  let liquid := screen_liquid rain (calc_liquid_attenuation rate height lwc_dz lwp droplet) in
  nth_error (corrected liquid) j = Some true ->
  exists y, nth_error (amount liquid) j = Some (Some y).
Proof. intros rate h dz lwp row rain j. apply liquid_corrected. Qed.
(** For liquid, the three fields agree: a value only where attenuated, uncorrected
    exactly where attenuated without a value; nothing where rain attenuates. *)
Theorem C23_liquid_fields : forall rate height lwc_dz lwp droplet rain j,
  let liquid := screen_liquid rain (calc_liquid_attenuation rate height lwc_dz lwp droplet) in
  (forall y, nth_error (amount liquid) j = Some (Some y) ->
     nth_error (attenuated liquid) j = Some true /\ nth_error (attenuated rain) j = Some false) /\
  (nth_error (uncorrected liquid) j = Some true ->
     nth_error (attenuated liquid) j = Some true /\ nth_error (amount liquid) j = Some None) /\
  (nth_error (attenuated liquid) j = Some true -> nth_error (amount liquid) j = Some None ->
     nth_error (uncorrected liquid) j = Some true).
Proof. intros rate h dz lwp row rain j. apply liquid_fields. Qed.
Theorem C23_melting_corrected_has_value : forall formula b rate is_rain freezing melting a j,
  calc_melting_attenuation formula b rate is_rain freezing melting = Ok a ->
  nth_error (corrected a) j = Some true ->
  exists y, nth_error (amount a) j = Some (Some y) /\ ~ (y == 0)%Q.
Proof. exact melting_corrected. Qed.
(** Rain with a disdrometer: where the rate is known and attenuates, the correction is
    that of the highest warm gate at or below the pixel.  Missing: pixels with the flag
    but without a value (next theorem). *)
Theorem C23_rain_value_partial : forall specific junk height is_rain freezing x j,
  heights_ok height -> length height = length freezing -> is_rain <> 0%Z -> (0 < specific x)%Q -> j < length height ->
  let rain := calc_rain_attenuation specific junk height (Some (Some x)) is_rain freezing in
  nth_error (corrected rain) j = Some true /\
  exists a, nth_error (amount rain) j = Some a /\
    match a with
    | None => forall k, k <= j -> nth_error freezing k = Some true
    | Some y => exists k, k <= j /\ nth_error freezing k = Some false /\
        (forall m, k < m -> m <= j -> nth_error freezing m = Some true) /\
        (y == 2 * (specific x * level height k) / 1000)%Q
    end.
Proof.
  intros sp junk h n fr x j Hh Hl Hn Hs Hj rain. split.
  - unfold rain, calc_rain_attenuation, corrected. cbn [attenuated uncorrected].
    rewrite nth_error_map2, !nth_error_map'. destruct (nth_error_lt_Some fr j ltac:(lia)) as [f ->].
    cbn [option_map]. apply Z.eqb_neq in Hn. rewrite Hn. reflexivity.
  - apply rain_amount_value; auto.
Qed.
(** The flag says corrected although nothing was added: the rainfall rate is missing, or
    it rains with the lowest gates below freezing. *)
Theorem C23_rain_corrected_has_value_refuted : exists specific junk height is_rain freezing,
  heights_ok height /\ length height = length freezing /\
  (let rain := calc_rain_attenuation specific junk height (Some None) is_rain freezing in
   nth_error (corrected rain) 0 = Some true /\ nth_error (amount rain) 0 = Some None) /\
  (let rain := calc_rain_attenuation specific junk height (Some (Some 1%Q)) is_rain [true; false] in
   nth_error (corrected rain) 0 = Some true /\ nth_error (amount rain) 0 = Some None).
Proof.
  exists (fun x => x), 1%Q, [100; 200]%Q, 1%Z, [false; true].
  split; [|repeat split; reflexivity]. split.
  - intros x H. injection H as <-. reflexivity.
  - intros [|i] x y H H'; cbn in H, H'; [injection H as <-; injection H' as <-; reflexivity|destruct i; discriminate].
Qed.
(** Without a disdrometer nothing is flagged as corrected, and with one whose rate is
    masked no value exists. *)
Theorem C23_rain_without_rate : forall specific junk height is_rain freezing j,
  nth_error (corrected (calc_rain_attenuation specific junk height None is_rain freezing)) j <> Some true /\
  (forall y, nth_error (amount (calc_rain_attenuation specific junk height (Some None) is_rain freezing)) j = Some y -> y = None).
Proof.
  intros sp junk h n fr j. split.
  - intros H. apply nth_corrected in H as [H1 H2]. cbn [calc_rain_attenuation attenuated uncorrected] in *. congruence.
  - intros y H. eapply rain_amount_masked; [left; reflexivity|exact H].
Qed.
(** The reflectivity: measured value plus every available amount. *)
Theorem C23_reflectivity : forall z gas liquid rain melting j,
  j < length (amount liquid) -> j < length (amount rain) -> j < length (amount melting) ->
  (forall x y, nth_error z j = Some (Some x) -> nth_error (amount gas) j = Some (Some y) ->
   exists v, nth_error (correct_atten z gas liquid rain melting) j = Some (Some v) /\
     (v == x + y + value0 (amount liquid) j + value0 (amount rain) j + value0 (amount melting) j)%Q) /\
  (forall v, nth_error (correct_atten z gas liquid rain melting) j = Some (Some v) ->
   exists x y, nth_error z j = Some (Some x) /\ nth_error (amount gas) j = Some (Some y)).
Proof.
  intros z gas liq rain melt j H1 H2 H3. split.
  - intros x y Hx Hy. apply correct_atten_nth; assumption.
  - intros v. apply correct_atten_mask.
Qed.
Example C23_nonvacuous :
  let rain := calc_rain_attenuation (fun x => x) 9%Q [500; 1000; 1500]%Q (Some (Some 4%Q)) 1%Z [false; false; true] in
  corrected rain = [true; true; true] /\ map (option_map Qred) (amount rain) = [Some 4; Some 8; Some 8]%Q /\
  (let dry := calc_rain_attenuation (fun x => x) 9%Q [500; 1000; 1500]%Q (Some (Some 4%Q)) 0%Z [false; false; true] in
   let liquid := screen_liquid dry (calc_liquid_attenuation [(1%Q, false); (1%Q, false); (1%Q, false)] [500; 1000; 1500]%Q
     [0; 1; 0]%Q (Some 1%Q) [false; true; false]) in
   corrected liquid = [false; true; true] /\ map (option_map Qred) (amount liquid) = [None; Some 2; Some 2]%Q) /\
  (exists a, calc_melting_attenuation (fun _ x => x) Ka_band (Some (Some 5%Q)) 1%Z [false; false; true] [false; true; true] = Ok a /\
     corrected a = [false; false; true] /\ map (option_map Qred) (amount a) = [None; None; Some 5]%Q).
Proof. repeat split; try reflexivity. eexists. split; [reflexivity|]. split; reflexivity. Qed.
Print Assumptions C23_corrected_implies_attenuated.
Print Assumptions C23_liquid_corrected_has_value.
Print Assumptions C23_liquid_fields.
Print Assumptions C23_melting_corrected_has_value.
Print Assumptions C23_rain_value_partial.
Print Assumptions C23_rain_corrected_has_value_refuted.
Print Assumptions C23_rain_without_rate.
Print Assumptions C23_reflectivity.

(** ** C31 *)
(** The status of every pixel.  [adjusted] and [extended] are given in LwcSpec. *)
Theorem C31_status_values : forall gradient is_liquid height dz i row g radar lidar lwp is_rain adiabatic,
  lwc_input gradient is_liquid height -> 2 <= length height ->
  fill_clouds_with_lwc_dz gradient is_liquid = Ok dz ->
  nth_error is_liquid i = Some row -> nth_error gradient i = Some g ->
  length radar = length height -> length lidar = length height ->
  is_adiabatic row g height adiabatic ->
  exists dzrow, nth_error dz i = Some dzrow /\
  let out := lwc_status_profile dzrow height row radar lidar lwp is_rain in
  ((forall b, ~ adjusted row radar lidar height adiabatic lwp is_rain b) ->
   exists st, out = Some (Ok st) /\ length st = length row /\
     forall j x s, nth_error row j = Some x -> nth_error st j = Some s ->
       s = if is_rain || is_masked lwp then 4%Z else if x then 1%Z else 0%Z) /\
  (forall b l, adjusted row radar lidar height adiabatic lwp is_rain b -> lwp = Some l -> S b < length row ->
   exists t st, out = Some (Ok st) /\ b < t /\ t < length row /\ length st = length row /\
     (forall j x s, nth_error row j = Some x -> nth_error st j = Some s ->
        s = if x then 2%Z else if (b <? j) && (j <=? t) then 3%Z else 0%Z) /\
     ((Qmax 0 l < integrate height (extended adiabatic b t) (length row))%Q \/ S t = length row) /\
     (forall t', b < t' -> t' < t -> (integrate height (extended adiabatic b t') (length row) <= Qmax 0 l)%Q)).
Proof.
  intros gr liq h dz i row g radar lidar lwp rain adi Hi Hn Hd Hr Hg Lr Ll Ha.
  destruct (lwc_input_row _ _ _ _ _ _ Hi Hr Hg) as (L1 & L2 & Hh & P). pose proof Hi as (_ & H2 & _).
  rewrite fill_clouds_rows in Hd.
  2:{ eapply forall2_impl; [|exact H2]. intros a b [Q1 Q2]. split; [exact Q1|].
      eapply Forall_impl; [|exact Q2]. intros x Hx. cbn in Hx. lra. }
  injection Hd as <-. exists (filled_row None row g). split; [rewrite nth_error_map2, Hr, Hg; reflexivity|].
  assert (Hn' : 2 <= length row) by lia. split.
  - intros N. eexists. split; [apply (status_plain row g h radar lidar lwp rain adi L1 L2 ltac:(lia) ltac:(lia) Hh P Hn' Ha N)|].
    split; [apply map_length|]. intros j x s Hx Hs. rewrite nth_error_map', Hx in Hs. cbn [option_map] in Hs. congruence.
  - intros b l A El Hb. apply (status_adjusted row g h radar lidar lwp rain adi L1 L2 ltac:(lia) ltac:(lia) Hh P Hn' Ha b l A El Hb).
Qed.
(** Values 5 and 6 never occur; 4 covers exactly the profiles with rain or without lwp. *)
Theorem C31_range : forall gradient is_liquid height dz i row dzrow radar lidar lwp is_rain st j s,
  lwc_input gradient is_liquid height -> 2 <= length height ->
  fill_clouds_with_lwc_dz gradient is_liquid = Ok dz ->
  nth_error is_liquid i = Some row -> nth_error dz i = Some dzrow ->
  length radar = length height -> length lidar = length height ->
  lwc_status_profile dzrow height row radar lidar lwp is_rain = Some (Ok st) -> nth_error st j = Some s ->
  In s [0; 1; 2; 3; 4]%Z /\ (s = 4%Z <-> is_rain = true \/ lwp = None) /\
  (s = 1 \/ s = 2 -> nth_error row j = Some true)%Z /\ (s = 0 \/ s = 3 -> nth_error row j = Some false)%Z.
Proof.
  intros gr liq h dz i row dzr radar lidar lwp rain st j s Hi Hn Hd Hr Hz Lr Ll Ho Hs.
  assert (Hg : exists g, nth_error gr i = Some g).
  { pose proof Hi as (_ & H2 & _). apply forall2_len in H2. apply nth_error_Some_lt in Hr.
    apply nth_error_lt_Some. lia. }
  destruct Hg as [g Hg]. destruct (lwc_input_row _ _ _ _ _ _ Hi Hr Hg) as (L1 & L2 & Hh & P).
  assert (Hn' : 2 <= length row) by lia.
  set (adi := fun k => nth k (calc_adiabatic_lwc (filled_row None row g) h) 0%Q).
  assert (Ha : is_adiabatic row g h adi).
  { assert (La : forall k, k < length row -> nth_error (calc_adiabatic_lwc (filled_row None row g) h) k = Some (adi k)).
    { intros k Hk. destruct (nth_error_lt_Some (calc_adiabatic_lwc (filled_row None row g) h) k) as [y Hy].
      - rewrite (adi_len row g h L1 L2). exact Hk.
      - rewrite Hy. unfold adi. rewrite (nth_error_nth _ _ _ Hy). reflexivity. }
    split.
    - intros k Hk. pose proof (nth_error_Some_lt _ _ _ Hk) as Hlt. apply (adi_clear row g h L1 L2 P k _ Hk (La k Hlt)).
    - intros b t k gb (_ & Hin & Hb & _) H1 H2 Hgb. 
      refine (adi_cloud row g h L1 L2 Hh P b k _ gb H1 _ Hb Hgb (La k _)).
      + intros m M1 M2. apply Hin; lia.
      + eapply nth_error_Some_lt. apply (Hin k); lia. }
  destruct (C31_status_values gr liq h dz i row g radar lidar lwp rain adi Hi Hn Hd Hr Hg Lr Ll Ha)
    as (dzr' & E & V1 & V2). assert (dzr' = dzr) by congruence. subst dzr'.
  destruct (adjustable_spec row g h radar lidar lwp rain adi L1 L2 ltac:(lia) ltac:(lia) Hh P Hn' Ha)
    as (m & _ & [[_ N]|(b & r & _ & Hb & A)]).
  - destruct (V1 N) as (st' & E' & Ls & V). assert (st' = st) by congruence. subst st'.
    pose proof (nth_error_Some_lt _ _ _ Hs) as Hj. destruct (nth_error_lt_Some row j ltac:(lia)) as [x Hx].
    specialize (V j x s Hx Hs). subst s. rewrite Hx.
    destruct rain; [|destruct lwp as [l|]]; destruct x; cbn [orb is_masked];
      (split; [cbn; tauto|]; split; [split; intros C; first [discriminate | reflexivity | left; reflexivity | right; reflexivity | destruct C; discriminate]|];
      split; intros [C|C]; first [discriminate | reflexivity]).
  - pose proof A as (_ & _ & Hrain & l & El & _).
    destruct (Nat.eq_dec (S b) (length row)) as [Eb|Eb].
    + pose proof (status_last row g h radar lidar lwp rain adi L1 L2 ltac:(lia) ltac:(lia) Hh P Hn' Ha b A Eb) as X.
      assert (dzr = filled_row None row g).
      { pose proof Hi as (_ & H2 & _). rewrite fill_clouds_rows in Hd.
        - injection Hd as <-. rewrite nth_error_map2, Hr, Hg in Hz. congruence.
        - eapply forall2_impl; [|exact H2]. intros a c [Q1 Q2]. split; [exact Q1|].
          eapply Forall_impl; [|exact Q2]. intros x Hx. cbn in Hx. lra. }
      subst dzr. congruence.
    + destruct (V2 b l A El ltac:(lia)) as (t & st' & E' & _ & _ & Ls & V & _).
      assert (st' = st) by congruence. subst st'.
      pose proof (nth_error_Some_lt _ _ _ Hs) as Hj. destruct (nth_error_lt_Some row j ltac:(lia)) as [x Hx].
      specialize (V j x s Hx Hs). subst s. rewrite Hx, Hrain, El.
      destruct x; [|destruct ((b <? j) && (j <=? t))];
      (split; [cbn; tauto|]; split; [split; intros C; first [discriminate | reflexivity | left; reflexivity | right; reflexivity | destruct C; discriminate]|];
      split; intros [C|C]; first [discriminate | reflexivity]).
Qed.
(** Documented value 6 for rain: it is 4. *)
Theorem C31_rain_is_6_refuted : exists gradient is_liquid height dz dzrow row radar lidar lwp st,
  lwc_input gradient is_liquid height /\ fill_clouds_with_lwc_dz gradient is_liquid = Ok dz /\
  nth_error dz 0 = Some dzrow /\ nth_error is_liquid 0 = Some row /\
  lwc_status_profile dzrow height row radar lidar lwp true = Some (Ok st) /\ st = [4; 4; 4]%Z.
Proof.
  exists [[1; 1; 1]]%Q, [[false; true; false]], [100; 200; 300]%Q, [[0; 1; 0]]%Q, [0; 1; 0]%Q,
    [false; true; false], [false; false; false], [false; true; false], (Some 1%Q), [4; 4; 4]%Z.
  split; [|repeat split; reflexivity]. split; [|split].
  - split.
    + intros x H. injection H as <-. reflexivity.
    + intros i x y. do 3 (destruct i as [|i]; [cbn; intros H H'; try discriminate; injection H as <-; injection H' as <-; reflexivity|]).
      cbn. destruct i; discriminate.
  - repeat constructor.
  - intros [|i] row H; cbn in H; [injection H as <-; reflexivity|destruct i; discriminate].
Qed.
(** New cloud pixels (value 3) carry no liquid water: the product holds 0 there, since
    the content is computed before the cloud top is moved. *)
Theorem C31_new_pixels_have_liquid_refuted : exists gradient is_liquid height dz dzrow row radar lidar lwp st out lwc y,
  lwc_input gradient is_liquid height /\ fill_clouds_with_lwc_dz gradient is_liquid = Ok dz /\
  nth_error dz 0 = Some dzrow /\ nth_error is_liquid 0 = Some row /\
  lwc_status_profile dzrow height row radar lidar (Some lwp) false = Some (Ok st) /\ nth_error st 2 = Some 3%Z /\
  lwc_field gradient is_liquid height [Some lwp] [false] = Ok out /\ nth_error out 0 = Some lwc /\
  nth_error lwc 2 = Some (Some y) /\ (y == 0)%Q.
Proof.
  exists [[1; 1; 1; 1]]%Q, [[false; true; false; false]], [100; 200; 300; 400]%Q, [[0; 1; 0; 0]]%Q, [0; 1; 0; 0]%Q,
    [false; true; false; false], [false; false; false; false], [false; true; false; false], 25000%Q, [0; 2; 3; 0]%Z.
  do 3 eexists. split; [|repeat split; reflexivity]. split; [|split].
  - split.
    + intros x H. injection H as <-. reflexivity.
    + intros i x y. do 4 (destruct i as [|i]; [cbn; intros H H'; try discriminate; injection H as <-; injection H' as <-; reflexivity|]).
      cbn. destruct i; discriminate.
  - repeat constructor.
  - intros [|i] row H; cbn in H; [injection H as <-; reflexivity|destruct i; discriminate].
Qed.
(** An adjustable cloud: base 1, top moved from 1 to 2. *)
Example C31_nonvacuous :
  let row := [false; true; false; false] in
  let adiabatic := fun k => nth k [0; 100; 0; 0]%Q 0%Q in
  is_adiabatic row [1; 1; 1; 1]%Q [100; 200; 300; 400]%Q adiabatic /\
  adjusted row [false; false; false; false] row [100; 200; 300; 400]%Q adiabatic (Some 25000%Q) false 1 /\
  lwc_status_profile [0; 1; 0; 0]%Q [100; 200; 300; 400]%Q row [false; false; false; false] row (Some 25000%Q) false
  = Some (Ok [0; 2; 3; 0]%Z).
Proof.
  intros row adi. split; [|split; [|reflexivity]].
  - split.
    + intros j. do 4 (destruct j as [|j]; [cbn; intros H; try discriminate; reflexivity|]). cbn. destruct j; discriminate.
    + intros b t j gb H H1 H2 H3. apply max_run_in_runs in H. vm_compute in H. destruct H as [H|[]].
      injection H as <- <-. replace j with 1 by lia. cbn in H3. injection H3 as <-. reflexivity.
  - split; [|split; [|split; [reflexivity|exists 25000%Q; split; reflexivity]]].
    + left. split; [repeat split; auto|]. intros k Hk (_ & _ & H).
      do 4 (destruct k as [|k]; [try lia; discriminate|]). cbn in H. destruct k; discriminate.
    + split.
      * intros k Hk H. destruct k as [|[|k]]; [discriminate|reflexivity|]. do 2 (destruct k as [|k]; [discriminate|]).
        cbn in H. destruct k; discriminate.
      * exists 1. repeat split; auto.
Qed.
Print Assumptions C31_status_values.
Print Assumptions C31_range.
Print Assumptions C31_rain_is_6_refuted.
Print Assumptions C31_new_pixels_have_liquid_refuted.

(** ** C32 *)
(** The loop is cut off nowhere: as many passes as there are gates always suffice, and
    the only error is that of a cloud whose base is the last gate. *)
Theorem C32_terminates_partial : forall row g height radar lidar lwp is_rain adiabatic,
  length g = length row -> length height = length row -> length radar = length row -> length lidar = length row ->
  heights_ok height -> Forall (fun x => 0 < x)%Q g -> 2 <= length row -> is_adiabatic row g height adiabatic ->
  exists dz, fill_clouds_with_lwc_dz [g] [row] = Ok [dz] /\
  let out := lwc_status_profile dz height row radar lidar lwp is_rain in
  out <> None /\
  (forall e, out = Some (Raise e) <->
     e = IndexError /\ exists b, adjusted row radar lidar height adiabatic lwp is_rain b /\ S b = length row).
Proof.
  intros row g h radar lidar lwp rain adi L1 L2 L3 L4 Hh P Hn Ha.
  exists (filled_row None row g). split.
  { apply (fill_clouds_rows [g] [row]). constructor; [|constructor]. split; [exact L1|].
    eapply Forall_impl; [|exact P]. intros x Hx. cbn in Hx. lra. }
  intros out. split; [apply (status_total row g h radar lidar lwp rain adi L1 L2 L3 L4 Hh P Hn Ha)|].
  intros e. split.
  - intros E. unfold out in E. destruct (adjustable_spec row g h radar lidar lwp rain adi L1 L2 L3 L4 Hh P Hn Ha)
      as (m & _ & [[_ N]|(b & r & _ & Hb & A)]).
    + rewrite (status_plain row g h radar lidar lwp rain adi L1 L2 L3 L4 Hh P Hn Ha N) in E. discriminate.
    + destruct (Nat.eq_dec (S b) (length row)) as [Eb|Eb].
      * rewrite (status_last row g h radar lidar lwp rain adi L1 L2 L3 L4 Hh P Hn Ha b A Eb) in E.
        split; [congruence|]. exists b. auto.
      * pose proof A as (_ & _ & _ & l & El & _).
        destruct (status_adjusted row g h radar lidar lwp rain adi L1 L2 L3 L4 Hh P Hn Ha b l A El ltac:(lia))
          as (t & st & E' & _). congruence.
  - intros (-> & b & A & Eb). apply (status_last row g h radar lidar lwp rain adi L1 L2 L3 L4 Hh P Hn Ha b A Eb).
Qed.
(** The number of passes: the loop started at the first gate above the base needs at
    most one pass per gate above the base. *)
Theorem C32_number_of_passes : forall path lwp base_lwc base lwc status,
  length status = length lwc -> S base < length lwc ->
  adjust_lwc (length lwc - 1 - base) path lwp base_lwc base 1 lwc status <> None /\
  forall fuel, length lwc - 1 - base <= fuel ->
    adjust_lwc fuel path lwp base_lwc base 1 lwc status =
    adjust_lwc (length lwc - 1 - base) path lwp base_lwc base 1 lwc status.
Proof.
  intros path l bl b lwc st Hs Hb.
  assert (M : forall f1 f2 d lwc st, f1 <= f2 -> adjust_lwc f1 path l bl b d lwc st <> None ->
            adjust_lwc f2 path l bl b d lwc st = adjust_lwc f1 path l bl b d lwc st).
  { induction f1 as [|f1 IH]; intros f2 d w s Hf Hne; [exfalso; apply Hne; reflexivity|].
    destruct f2 as [|f2]; [lia|]. cbn [adjust_lwc] in *.
    destruct (set_at w (b + d) _) as [w'|]; [|reflexivity]. destruct (nth_error s (b + d)); [|reflexivity].
    destruct (_ || _); [reflexivity|]. apply IH; [lia|exact Hne]. }
  assert (N : adjust_lwc (length lwc - 1 - b) path l bl b 1 lwc st <> None).
  { destruct (adjust_loop path l bl b (length lwc) (length lwc - 1 - b) 1 lwc st eq_refl Hs ltac:(lia) ltac:(lia))
      as (t & _ & _ & -> & _). discriminate. }
  split; [exact N|]. intros fuel Hf. apply M; assumption.
Qed.
(** A one-gate cloud at the top of the profile. *)
Theorem C32_stays_inside_refuted : exists row g height radar lidar lwp dz,
  length g = length row /\ length height = length row /\ heights_ok height /\ Forall (fun x => 0 < x)%Q g /\
  fill_clouds_with_lwc_dz [g] [row] = Ok [dz] /\
  lwc_status_profile dz height row radar lidar (Some lwp) false = Some (Raise IndexError).
Proof.
  exists [false; false; true], [1; 1; 1]%Q, [100; 200; 300]%Q, [false; false; false], [false; false; true], 20000%Q, [0; 0; 1]%Q.
  split; [reflexivity|]. split; [reflexivity|]. split; [|split; [repeat constructor|split; reflexivity]].
  split.
  - intros x H. injection H as <-. reflexivity.
  - intros i x y. do 3 (destruct i as [|i]; [cbn; intros H H'; try discriminate; injection H as <-; injection H' as <-; reflexivity|]).
    cbn. destruct i; discriminate.
Qed.
Example C32_nonvacuous :
  adjust_lwc 2 [100; 100; 100; 100]%Q 25000%Q 100%Q 1 1 [0; 100; 0; 0]%Q [0; 2; 0; 0]%Z
  = Some (Ok ([0; 100; 100 * inject_Z 2; 0]%Q, [0; 2; 3; 0]%Z)).
Proof. reflexivity. Qed.
Print Assumptions C32_terminates_partial.
Print Assumptions C32_number_of_passes.
Print Assumptions C32_stays_inside_refuted.

(** ** C58 *)
(** Ka and W band with a disdrometer: in rain every freezing pixel gets the value of the
    formula (nothing where that is zero or the rate is missing). *)
Theorem C58_melting_values_partial : forall formula b rate is_rain freezing melting,
  b <> X_band -> (formula b 0 == 0)%Q ->
  exists a, calc_melting_attenuation formula b (Some rate) is_rain freezing melting = Ok a /\
  forall j f, nth_error freezing j = Some f ->
    (forall r, rate = Some r -> f = true -> is_rain <> 0%Z -> ~ (formula b r == 0)%Q ->
       exists y, nth_error (amount a) j = Some (Some y) /\ (y == formula b r)%Q /\ nth_error (corrected a) j = Some true) /\
    (f = false \/ is_rain = 0%Z -> rate <> None \/ is_rain = 0%Z ->
       nth_error (amount a) j = Some None /\ nth_error (attenuated a) j = Some false) /\
    (rate = None -> is_rain <> 0%Z ->
       nth_error (amount a) j = Some None /\ nth_error (attenuated a) j = Some f /\ nth_error (uncorrected a) j = Some f).
Proof.
  intros fm b rate n fr me Hb H0. unfold calc_melting_attenuation.
  set (att := option_map (fm b) (if (n =? 0)%Z then Some 0%Q else rate)).
  match goal with |- context [match b with X_band => _ | Ka_band => Ok ?x | W_band => _ end] => exists x end.
  split; [destruct b; [congruence|reflexivity|reflexivity]|].
  intros j f Hf. unfold corrected. cbn [amount attenuated uncorrected].
  rewrite ?nth_error_map2, ?nth_error_map', ?nth_error_map2, ?nth_error_map', Hf. cbn [option_map]. split; [|split].
  - intros r -> -> Hn Hr. apply Z.eqb_neq in Hn. unfold att. rewrite Hn. cbn [option_map].
    destruct (Qeq_bool (1 * fm b r) 0) eqn:E.
    { apply Qeq_bool_iff in E. exfalso. apply Hr. rewrite <- E. ring. }
    cbn [assign]. eexists. split; [reflexivity|]. split; [ring|reflexivity].
  - intros Hc Hd. unfold att.
    assert (Z : forall a : Q, (f = false \/ (a == 0)%Q) -> Qeq_bool ((if f then 1 else 0) * a) 0 = true).
    { intros a [->|Ha]; apply Qeq_bool_iff; [ring|rewrite Ha; ring]. }
    destruct (n =? 0)%Z eqn:En; cbn [option_map].
    + rewrite Z by (right; exact H0). split; reflexivity.
    + apply Z.eqb_neq in En. destruct Hc as [->|Hc]; [|contradiction].
      destruct rate as [r|]; [|destruct Hd as [Hd|Hd]; contradiction].
      cbn [option_map]. rewrite Z by (left; reflexivity). split; reflexivity.
  - intros -> Hn. apply Z.eqb_neq in Hn. unfold att. rewrite Hn. cbn [option_map assign is_masked].
    rewrite andb_true_r. repeat split; reflexivity.
Qed.
Theorem C58_every_band_supported_refuted : exists b, forall formula rate is_rain freezing melting,
  calc_melting_attenuation formula b (Some rate) is_rain freezing melting = Raise ValueError.
Proof. exists X_band. reflexivity. Qed.
Example C58_nonvacuous :
  match calc_melting_attenuation (fun _ x => x) W_band (Some (Some 5%Q)) 1%Z [false; true] [false; false] with
  | Ok a => map (option_map Qred) (amount a) = [None; Some 5%Q] /\ corrected a = [false; true]
  | Raise _ => False
  end.
Proof. split; reflexivity. Qed.
Print Assumptions C58_melting_values_partial.
Print Assumptions C58_every_band_supported_refuted.
