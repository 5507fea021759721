(** Proofs about the retrievals. *)
From Verif Require Import Base BitsModel StatusModel ArrayModel ArraySpec ArrayProofs ImageModel ImageProofs RetrievalModel RetrievalSpec.
From Verif Require StatusSpec.
From Coq Require Import Reals String Lia Lra Permutation.
Open Scope string_scope.
Open Scope nat_scope.
Open Scope list_scope.
Open Scope R_scope.
Local Notation length := List.length (only parsing).

(** ** Powers *)

Lemma ln10_pos : 0 < ln 10.
Proof. rewrite <- ln_1. apply ln_increasing; lra. Qed.

Lemma ten_pos x : 0 < ten x.
Proof. unfold ten, Rpower. apply exp_pos. Qed.

Lemma ten_lt x y : x < y -> ten x < ten y.
Proof. intros H. unfold ten. apply Rpower_lt; lra. Qed.

Lemma ten_0 : ten 0 = 1.
Proof. unfold ten. apply Rpower_O. lra. Qed.

Lemma ten_ratio x y : decibels (ten x / ten y) = 10 * (x - y).
Proof.
  unfold decibels, ten, Rpower, Rdiv.
  replace (exp (x * ln 10) * / exp (y * ln 10)) with (exp ((x - y) * ln 10)).
  - rewrite ln_exp. pose proof ln10_pos. field. lra.
  - rewrite <- exp_Ropp, <- exp_plus. f_equal. ring.
Qed.

(** ** Ice *)

Lemma coefficients_law product band c :
  product = "iwc" \/ product = "ier" ->
  get_ice_coefficients product band = Ok c ->
  exists f, ice_law product band (k2_liquid c) f /\
    forall z t, f z t = by_zt c * z * t + by_t c * t + by_z c * z + by_one c.
Proof.
  intros P H. unfold get_ice_coefficients in H.
  destruct P as [-> | ->]; cbn [String.eqb Ascii.eqb Bool.eqb] in H;
    destruct (String.eqb_spec band "Ka") as [->|_];
    try (injection H as <-; eexists; split; [constructor|intros z t; cbn [by_zt by_t by_z by_one]; lra]);
    destruct (String.eqb_spec band "W") as [->|_]; try discriminate;
    injection H as <-; eexists; split; try constructor; intros z t; cbn [by_zt by_t by_z by_one]; lra.
Qed.

Lemma law_unique product band k f k' f' :
  ice_law product band k f -> ice_law product band k' f' -> k = k' /\ f = f'.
Proof. intros A B. inversion A; subst; inversion B; subst; try (split; reflexivity); discriminate. Qed.

Lemma usable_iff c q :
  negb (ice_is_ice c) || uncorrected_ice c q = false <-> usable_ice c q.
Proof.
  unfold usable_ice, StatusSpec.Ice, StatusSpec.some_uncorrected, StatusSpec.att, StatusSpec.corr,
    uncorrected_ice, ice_is_ice, ice_attenuated.
  split.
  - intros H. apply Bool.orb_false_elim in H as [A B]. apply Bool.negb_false_iff in A.
    rewrite A in B. repeat rewrite Bool.andb_true_iff in A. repeat rewrite Bool.negb_true_iff in A.
    destruct A as [[[A1 A2] A3] A4]. split; [auto|].
    intros [[] [X Y]]; rewrite X in B; destruct (corrected_liquid q), (corrected_rain q), (corrected_melting q),
      (attenuated_liquid q), (attenuated_rain q), (attenuated_melting q); cbn in B; congruence.
  - intros [(A & B & C & D) N]. rewrite A, B, C, D. cbn [negb andb orb].
    destruct (attenuated_liquid q) eqn:E1, (corrected_liquid q) eqn:F1;
      try (exfalso; apply N; exists StatusSpec.Liquid; split; cbv beta iota; congruence);
      (destruct (attenuated_rain q) eqn:E2, (corrected_rain q) eqn:F2;
       try (exfalso; apply N; exists StatusSpec.Rain; split; cbv beta iota; congruence);
       (destruct (attenuated_melting q) eqn:E3, (corrected_melting q) eqn:F3;
        try (exfalso; apply N; exists StatusSpec.Melting; split; cbv beta iota; congruence); reflexivity)).
Qed.

Lemma assign_none {A} (b : bool) (x : masked A) v : assign b None x = Some v <-> b = false /\ x = Some v.
Proof. unfold assign. destruct b; split; [discriminate|intros [? _]; discriminate|auto|tauto]. Qed.

Lemma ok_inj {A} (x y : A) : Ok x = Ok y <-> x = y.
Proof. split; [intros H; injection H; auto|intros ->; reflexivity]. Qed.

Lemma z_to_iwc_ten c z t :
  z_to_iwc c (z + z_factor c) t =
  ten (by_zt c * (z + decibels (k2_liquid c / (93 / 100))) * t + by_t c * t
       + by_z c * (z + decibels (k2_liquid c / (93 / 100))) + by_one c).
Proof. reflexivity. Qed.

Lemma icy_water band c cat qual z t v :
  get_ice_coefficients "iwc" band = Ok c ->
  icy "iwc" c cat qual z t = Ok (Some v) <->
  usable_ice cat qual /\ exists x, z = Some x /\ water_content band x t v.
Proof.
  intros H. destruct (coefficients_law "iwc" band c (or_introl eq_refl) H) as (f & L & F).
  unfold icy, convert_z. cbn [String.eqb Ascii.eqb Bool.eqb orb bind].
  rewrite ok_inj, assign_none, usable_iff. apply and_iff_compat_l.
  destruct z as [x|]; cbn [option_map].
  - split.
    + intros E. exists x. split; [reflexivity|]. exists (k2_liquid c), f. split; [exact L|].
      injection E as <-. rewrite z_to_iwc_ten, F. unfold Rdiv. ring.
    + intros (y & E & k & f' & L' & ->). injection E as <-. destruct (law_unique _ _ _ _ _ _ L L') as [<- <-].
      f_equal. rewrite z_to_iwc_ten, F. unfold Rdiv. ring.
  - split; [discriminate|intros (y & E & _); discriminate].
Qed.

Lemma icy_radius band c cat qual z t v :
  get_ice_coefficients "ier" band = Ok c ->
  (exists d, icy "ier" c cat qual z t = Ok d /\ ier_metres d = Some v) <->
  usable_ice cat qual /\ exists x, z = Some x /\ ice_radius band x t v.
Proof.
  intros H. destruct (coefficients_law "ier" band c (or_intror eq_refl) H) as (f & L & F).
  unfold icy, convert_z. cbn [String.eqb Ascii.eqb Bool.eqb orb bind].
  rewrite <- usable_iff. destruct (negb (ice_is_ice cat) || uncorrected_ice cat qual); cbn [assign].
  - split; [intros (d & E & M); injection E as <-; discriminate|intros [? _]; discriminate].
  - destruct z as [x|]; cbn [option_map assign].
    + split.
      * intros (d & E & M). injection E as <-. cbn [ier_metres option_map] in M. injection M as <-.
        split; [reflexivity|]. exists x. split; [reflexivity|]. exists (k2_liquid c), f. split; [exact L|].
        rewrite z_to_iwc_ten, F. field.
      * intros (_ & y & E & k & f' & L' & ->). injection E as <-. destruct (law_unique _ _ _ _ _ _ L L') as [<- <-].
        eexists. split; [reflexivity|]. cbn [ier_metres option_map]. f_equal. rewrite z_to_iwc_ten, F. field.
    + split; [intros (d & E & M); injection E as <-; discriminate|intros (_ & y & E & _); discriminate].
Qed.

Lemma bands product band :
  (exists c, get_ice_coefficients product band = Ok c) <-> band = "Ka" \/ band = "W".
Proof.
  unfold get_ice_coefficients.
  destruct (String.eqb_spec band "Ka") as [->|N1].
  - split; [auto|]. intros _. destruct (String.eqb product "ier"); eexists; reflexivity.
  - destruct (String.eqb_spec band "W") as [->|N2].
    + split; [auto|]. intros _. destruct (String.eqb product "ier"); eexists; reflexivity.
    + split; [|intros [?|?]; contradiction].
      intros (c & H). destruct (String.eqb product "ier"); discriminate.
Qed.

Lemma bands_raise product band e : get_ice_coefficients product band = Raise e -> e = ValueError.
Proof.
  unfold get_ice_coefficients. destruct (String.eqb product "ier"), (String.eqb band "Ka"), (String.eqb band "W");
    intros H; congruence.
Qed.

(** The water content grows with the reflectivity. *)
Lemma water_grows band z z' t v v' :
  -150 < t -> z < z' -> water_content band z t v -> water_content band z' t v' -> 0 < v < v'.
Proof.
  intros T Z (k & f & L & ->) (k' & f' & L' & ->). destruct (law_unique _ _ _ _ _ _ L L') as [<- <-].
  pose proof (ten_pos (f (z + decibels (k / (93 / 100))) t)).
  split; [lra|]. enough (ten (f (z + decibels (k / (93 / 100))) t) < ten (f (z' + decibels (k / (93 / 100))) t)) by lra.
  apply ten_lt. set (d := decibels (k / (93 / 100))). clearbody d.
  inversion L; subst f; nra.
Qed.

Lemma radius_grows band z z' t v v' :
  t < 0 -> z < z' -> ice_radius band z t v -> ice_radius band z' t v' -> 0 < v < v'.
Proof.
  intros T Z (k & f & L & ->) (k' & f' & L' & ->). destruct (law_unique _ _ _ _ _ _ L L') as [<- <-].
  pose proof (ten_pos (f (z + decibels (k / (93 / 100))) t)).
  split; [lra|]. enough (ten (f (z + decibels (k / (93 / 100))) t) < ten (f (z' + decibels (k / (93 / 100))) t)) by lra.
  apply ten_lt. set (d := decibels (k / (93 / 100))). clearbody d.
  inversion L; subst f; nra.
Qed.

(** The change of the water content in decibels. *)
Lemma water_change band c z e t v v' :
  get_ice_coefficients "iwc" band = Ok c ->
  water_content band z t v -> water_content band (z + e) t v' ->
  decibels (v' / v) = e * (by_zt c * t + by_z c) * 10.
Proof.
  intros H (k & f & L & ->) (k' & f' & L' & ->). destruct (law_unique _ _ _ _ _ _ L L') as [<- <-].
  destruct (coefficients_law "iwc" band c (or_introl eq_refl) H) as (g & G & F).
  destruct (law_unique _ _ _ _ _ _ L G) as [-> ->].
  set (d := decibels (k2_liquid c / (93 / 100))). clearbody d.
  replace (ten (g (z + e + d) t) / 1000 / (ten (g (z + d) t) / 1000)) with (ten (g (z + e + d) t) / ten (g (z + d) t)).
  - rewrite ten_ratio, !F. ring.
  - pose proof (ten_pos (g (z + d) t)). field. lra.
Qed.

Lemma water_exists band c z t : get_ice_coefficients "iwc" band = Ok c -> exists v, water_content band z t v.
Proof.
  intros H. destruct (coefficients_law "iwc" band c (or_introl eq_refl) H) as (g & G & F).
  eexists. exists (k2_liquid c), g. split; [exact G|reflexivity].
Qed.

Lemma mean_iff temperature gate m :
  temperature <> [] -> mean_of temperature gate m <-> m = mean_temperature temperature gate.
Proof.
  intros N. unfold mean_of, mean_temperature, rsum. rewrite map_length.
  assert (0 < INR (length temperature)).
  { apply lt_0_INR. destruct temperature; [contradiction|cbn; lia]. }
  replace (fold_right Rplus 0 (map (fun row : list R => nth gate row 0) temperature))
    with (fold_right (fun row s => nth gate row 0 + s) 0 temperature).
  - split; [intros <-|intros ->]; field; lra.
  - clear. induction temperature as [|r l IH]; [reflexivity|]. cbn [fold_right map]. rewrite IH. reflexivity.
Qed.

Lemma sequence_map_ok {A B} (f : A -> B) (l : list A) : sequence (map (fun x => Ok (f x)) l) = Ok (map f l).
Proof. induction l as [|x l IH]; [reflexivity|]. cbn [map sequence]. rewrite IH. reflexivity. Qed.

Lemma nth_error_numbered {A} (l : list A) n : nth_error (combine (seq 0 (length l)) l) n = option_map (fun x => (n, x)) (nth_error l n).
Proof.
  enough (forall k, nth_error (combine (seq k (length l)) l) n = option_map (fun x => ((k + n)%nat, x)) (nth_error l n)) by (apply H).
  revert n. induction l as [|x l IH]; intros n k.
  - destruct n; reflexivity.
  - destruct n as [|n]; cbn [length seq combine nth_error option_map].
    + rewrite Nat.add_0_r. reflexivity.
    + rewrite IH, Nat.add_succ_comm. reflexivity.
Qed.

Lemma sensitivity_spec band c zs temperature :
  get_ice_coefficients "iwc" band = Ok c -> temperature <> [] ->
  exists out, sensitivity c zs temperature = Ok out /\ length out = length zs /\
  forall g v, nth_error out g = Some (Some v) <->
    exists x m, nth_error zs g = Some (Some x) /\ mean_of temperature g m /\ water_content band x m v.
Proof.
  intros H N. destruct (coefficients_law "iwc" band c (or_introl eq_refl) H) as (f & L & F).
  unfold sensitivity, convert_z. cbn [String.eqb Ascii.eqb Bool.eqb orb].
  rewrite sequence_map_ok. eexists. split; [reflexivity|]. split.
  - rewrite map_length, combine_length, seq_length. lia.
  - intros g v. rewrite nth_error_map, nth_error_numbered. destruct (nth_error zs g) as [[x|]|]; cbn [option_map fst snd].
    + split.
      * intros E. injection E as E. exists x, (mean_temperature temperature g).
        split; [reflexivity|]. split; [apply mean_iff; auto|]. exists (k2_liquid c), f. split; [exact L|].
        rewrite <- E, z_to_iwc_ten, F. unfold Rdiv. ring.
      * intros (y & m & E & M & k & f' & L' & ->). injection E as <-. destruct (law_unique _ _ _ _ _ _ L L') as [<- <-].
        apply mean_iff in M; [|exact N]. subst m. do 2 f_equal. rewrite z_to_iwc_ten, F. unfold Rdiv. ring.
    + split; [discriminate|intros (y & m & E & _); discriminate].
    + split; [discriminate|intros (y & m & E & _); discriminate].
Qed.

Lemma iwc_error_iff band c cat qual z_error t z v v' :
  get_ice_coefficients "iwc" band = Ok c ->
  (forall e, z_error = Some e -> water_content band z t v /\ water_content band (z + e) t v') ->
  forall r, iwc_error band c cat qual z_error t = Some r <->
    usable_ice cat qual /\ z_error <> None /\ 0 <= r /\ r * r = 17 / 10 * (17 / 10) + decibels (v' / v) * decibels (v' / v).
Proof.
  intros H W r. unfold iwc_error. rewrite assign_none, usable_iff.
  assert (U : usable_ice cat qual -> uncorrected_ice cat qual = false).
  { intros U. apply usable_iff in U. apply Bool.orb_false_elim in U. apply U. }
  split.
  - intros [G E]. rewrite (U G) in E. cbn [assign] in E. split; [exact G|].
    destruct z_error as [e|]; [|discriminate]. split; [discriminate|].
    destruct (W e eq_refl) as [A B]. cbn [random_error option_map] in E.
    pose proof (water_change _ _ _ _ _ _ _ H A B) as D. rewrite D.
    injection E as <-. unfold l2. split; [apply sqrt_pos|]. apply sqrt_sqrt.
    apply Rplus_le_le_0_compat; apply Rle_0_sqr.
  - intros (G & N & P & S). split; [exact G|]. rewrite (U G). cbn [assign].
    destruct z_error as [e|]; [|contradiction]. destruct (W e eq_refl) as [A B].
    cbn [random_error option_map]. pose proof (water_change _ _ _ _ _ _ _ H A B) as D. rewrite D in S.
    f_equal. unfold l2. rewrite <- S. apply sqrt_square. exact P.
Qed.

(** ** Droplets *)

Lemma exp_pow n a : exp a ^ n = exp (INR n * a).
Proof.
  induction n as [|n IH].
  - cbn [pow INR]. rewrite Rmult_0_l, exp_0. reflexivity.
  - cbn [pow]. rewrite IH, S_INR, <- exp_plus. f_equal. ring.
Qed.

Lemma root_pos n x : 0 < x -> 0 < root n x.
Proof. intros H. unfold root. destruct (Req_EM_T x 0); [lra|]. apply exp_pos. Qed.

Lemma root_pow n x : n <> 0%nat -> 0 < x -> root (INR n) x ^ n = x.
Proof.
  intros N H. unfold root. destruct (Req_EM_T x 0); [lra|]. rewrite exp_pow.
  replace (INR n * (ln x / INR n)) with (ln x); [apply exp_ln; exact H|].
  field. apply not_0_INR. exact N.
Qed.

Lemma root6 x : 0 < x -> root 6 x ^ 6 = x.
Proof. intros H. replace 6 with (INR 6) by (cbn; ring). apply root_pow; [lia|exact H]. Qed.

Lemma root3 x : 0 < x -> root 3 x ^ 3 = x.
Proof. intros H. replace 3 with (INR 3) by (cbn; ring). apply root_pow; [lia|exact H]. Qed.

Lemma gate_der p z integral lwp :
  0 < p_n p -> 0 < z ->
  exists r, o_der (gate_droplets p z integral lwp) = Some r /\ 0 < r /\
    p_n p * (2 * r) ^ 6 * exp (3 * (p_sigma p * p_sigma p)) = z /\
    o_error (gate_droplets p z integral lwp) = Some (r * sqrt (
      p_dn p / (6 * p_n p) * (p_dn p / (6 * p_n p)) + p_sigma p * p_dsigma p * (p_sigma p * p_dsigma p)
      + ten (p_ddbz p / 10) / 6 * (ten (p_ddbz p / 10) / 6))).
Proof.
  intros N Z. eexists. split; [reflexivity|]. split.
  - pose proof (root_pos 6 (z / p_n p) (Rdiv_lt_0_compat _ _ Z N)).
    pose proof (exp_pos (- / 2 * (p_sigma p * p_sigma p))). nra.
  - split.
    + replace ((2 * (/ 2 * root 6 (z / p_n p) * exp (- / 2 * (p_sigma p * p_sigma p)))) ^ 6)
        with (root 6 (z / p_n p) ^ 6 * exp (- / 2 * (p_sigma p * p_sigma p)) ^ 6) by field.
      rewrite root6, exp_pow; [|apply Rdiv_lt_0_compat; assumption].
      replace (p_n p * (z / p_n p * exp (INR 6 * (- / 2 * (p_sigma p * p_sigma p)))) * exp (3 * (p_sigma p * p_sigma p)))
        with (z * (exp (INR 6 * (- / 2 * (p_sigma p * p_sigma p))) * exp (3 * (p_sigma p * p_sigma p)))) by (field; lra).
      rewrite <- exp_plus. replace (INR 6 * (- / 2 * (p_sigma p * p_sigma p)) + 3 * (p_sigma p * p_sigma p)) with 0.
      * rewrite exp_0. ring.
      * cbn [INR]. field.
    + unfold gate_droplets. cbn [o_error]. do 3 f_equal.
      fold (exp10 (p_ddbz p / 10)). change (exp10 (p_ddbz p / 10)) with (ten (p_ddbz p / 10)).
      rewrite Rabs_right; [|pose proof (ten_pos (p_ddbz p / 10)); lra].
      replace (ten (p_ddbz p / 10) * z / (6 * z)) with (ten (p_ddbz p / 10) / 6) by (field; lra). reflexivity.
Qed.

Lemma gate_scaled p z integral l :
  0 < z -> 0 < integral -> 0 < l ->
  exists s n, o_scaled (gate_droplets p z integral (Some l)) = Some s /\ 0 < s /\
    o_n (gate_droplets p z integral (Some l)) = Some n /\ 0 < n /\
    n * (2 * s) ^ 6 * exp (3 * (p_sigma p * p_sigma p)) = z /\
    liquid n (p_sigma p) z * integral = l * sqrt z /\
    o_scaled_error (gate_droplets p z integral (Some l)) = Some (s * sqrt (
      ten (p_ddbz p / 10) / 6 * (ten (p_ddbz p / 10) / 6)
      + 4 * p_sigma p * p_dsigma p * (4 * p_sigma p * p_dsigma p) + p_dq p / (3 * l) * (p_dq p / (3 * l)))).
Proof.
  intros Z I L.
  set (v := p_sigma p * p_sigma p).
  set (s := 1 / 1000 * (root 6 z / (2 * root 3 l)) * root 3 (PI * 1000 / 6) * (root 3 integral * exp (-2 * v))).
  pose proof PI_RGT_0 as HP. assert (K : 0 < PI * 1000 / 6) by lra.
  pose proof (root_pos 6 z Z) as Pz. pose proof (root_pos 3 l L) as Pl. pose proof (root_pos 3 _ K) as Pk.
  pose proof (root_pos 3 _ I) as Pi. pose proof (exp_pos (-2 * v)) as Pe. pose proof (exp_pos (- / 2 * v)) as Ph.
  assert (S : 0 < s).
  { unfold s. repeat apply Rmult_lt_0_compat; try lra. apply Rinv_0_lt_compat. lra. }
  assert (E : o_scaled (gate_droplets p z integral (Some l)) = Some s).
  { unfold gate_droplets. cbn [o_scaled]. unfold ma_div, ma_mul, plain. cbn [fst snd orb].
    destruct (Req_EM_T (2 * root 3 l) 0); [lra|]. reflexivity. }
  set (q := 2 * s / exp (- / 2 * v)).
  assert (Q : 0 < q) by (unfold q; apply Rdiv_lt_0_compat; lra).
  assert (Q6 : 0 < q ^ 6) by (apply pow_lt; exact Q).
  assert (N : o_n (gate_droplets p z integral (Some l)) = Some (z / q ^ 6)).
  { transitivity (fst (ma_div (plain z) (match o_scaled (gate_droplets p z integral (Some l)) with Some s => Some ((2 * s / exp (- / 2 * v)) ^ 6) | None => None end, false)));
      [reflexivity|]. rewrite E. unfold ma_div, plain. cbn [fst snd orb]. fold q.
    destruct (Req_EM_T (q ^ 6) 0); [lra|]. reflexivity. }
  assert (X : exp (- / 2 * v) ^ 6 * exp (3 * v) = 1).
  { rewrite exp_pow, <- exp_plus. replace (INR 6 * (- / 2 * v) + 3 * v) with 0; [apply exp_0|]. cbn [INR]. field. }
  assert (B : z / q ^ 6 * (2 * s) ^ 6 * exp (3 * v) = z).
  { replace ((2 * s) ^ 6) with (q ^ 6 * exp (- / 2 * v) ^ 6) by (unfold q; field; lra).
    replace (z / q ^ 6 * (q ^ 6 * exp (- / 2 * v) ^ 6) * exp (3 * v)) with (z * (exp (- / 2 * v) ^ 6 * exp (3 * v))) by (field; lra).
    rewrite X. ring. }
  exists s, (z / q ^ 6). split; [exact E|]. split; [exact S|]. split; [exact N|].
  assert (P : 0 < z / q ^ 6) by (apply Rdiv_lt_0_compat; assumption).
  split; [exact P|]. split; [exact B|]. split.
  - set (n := z / q ^ 6) in *. clearbody n.
    assert (S6 : (2 * s) ^ 6 * (l * l) * 1000000000000000000 = z * (PI * 1000 / 6 * (PI * 1000 / 6)) * (integral * integral) * exp (- 12 * v)).
    { replace ((2 * s) ^ 6) with
        (/ 1000000000000000000 * (root 6 z ^ 6) * / (root 3 l ^ 3 * root 3 l ^ 3) * (root 3 (PI * 1000 / 6) ^ 3 * root 3 (PI * 1000 / 6) ^ 3)
         * (root 3 integral ^ 3 * root 3 integral ^ 3) * exp (-2 * v) ^ 6) by (unfold s; field; lra).
      rewrite root6, !root3, exp_pow by assumption. replace (INR 6 * (-2 * v)) with (-12 * v) by (cbn [INR]; ring). field. lra. }
    assert (F : n * (PI * 1000 / 6 * (PI * 1000 / 6)) * (integral * integral) * exp (- 9 * v) = l * l * 1000000000000000000).
    { apply (Rmult_eq_reg_l z); [|lra].
      replace (z * (l * l * 1000000000000000000)) with (n * exp (3 * v) * ((2 * s) ^ 6 * (l * l) * 1000000000000000000))
        by (transitivity (n * (2 * s) ^ 6 * exp (3 * v) * (l * l * 1000000000000000000)); [ring|rewrite B; ring]).
      rewrite S6. replace (exp (-9 * v)) with (exp (3 * v) * exp (-12 * v)); [ring|].
      rewrite <- exp_plus. f_equal. ring. }
    assert (R0 : 0 <= sqrt (n * z)) by apply sqrt_pos.
    assert (R1 : sqrt (n * z) * sqrt (n * z) = n * z) by (apply sqrt_sqrt; nra).
    assert (R2 : 0 < sqrt z) by (apply sqrt_lt_R0; exact Z).
    assert (R3 : sqrt z * sqrt z = z) by (apply sqrt_sqrt; lra).
    pose proof (exp_pos (- (9 / 2) * v)) as R4.
    assert (R5 : exp (- (9 / 2) * v) * exp (- (9 / 2) * v) = exp (-9 * v)) by (rewrite <- exp_plus; f_equal; field).
    unfold liquid. fold v. apply Rsqr_inj.
    + assert (0 <= PI / 6 * 1000 * (sqrt (n * z) / 1000000000)) by (apply Rmult_le_pos; lra).
      apply Rmult_le_pos; [apply Rmult_le_pos; [assumption|apply Rlt_le, exp_pos]|lra].
    + apply Rmult_le_pos; lra.
    + unfold Rsqr.
      replace (PI / 6 * 1000 * (sqrt (n * z) / 1000000000) * exp (- (9 / 2) * v) * integral
        * (PI / 6 * 1000 * (sqrt (n * z) / 1000000000) * exp (- (9 / 2) * v) * integral))
        with (/ 1000000000000000000 * z * (n * (PI * 1000 / 6 * (PI * 1000 / 6)) * (integral * integral) * (exp (- (9 / 2) * v) * exp (- (9 / 2) * v))))
        by (transitivity (/ 1000000000000000000 * (sqrt (n * z) * sqrt (n * z)) * ((PI * 1000 / 6 * (PI * 1000 / 6)) * (integral * integral) * (exp (- (9 / 2) * v) * exp (- (9 / 2) * v)))); [rewrite R1; ring|field]).
      rewrite R5, F. transitivity (l * l * (sqrt z * sqrt z)); [rewrite R3; field|ring].
  - transitivity (Some (s * sqrt (
      ten (p_ddbz p / 10) / 6 * (ten (p_ddbz p / 10) / 6)
      + 4 * p_sigma p * p_dsigma p * (4 * p_sigma p * p_dsigma p) + p_dq p / (3 * l) * (p_dq p / (3 * l))))); [|reflexivity].
    transitivity (fst (ma_mul (o_scaled (gate_droplets p z integral (Some l)), false) (ma_sqrt
      (match (if Req_EM_T l 0 then None else Some (p_dq p / (3 * l))) with
       | Some q => Some (Rabs (exp10 (p_ddbz p / 10)) * z / (6 * z) * (Rabs (exp10 (p_ddbz p / 10)) * z / (6 * z))
           + 4 * p_sigma p * p_dsigma p * (4 * p_sigma p * p_dsigma p) + q * q)
       | None => None end)))); [reflexivity|].
    rewrite E. destruct (Req_EM_T l 0); [lra|]. unfold ma_mul, ma_sqrt. cbn [fst snd orb].
    change (exp10 (p_ddbz p / 10)) with (ten (p_ddbz p / 10)).
    rewrite Rabs_right; [|pose proof (ten_pos (p_ddbz p / 10)); lra].
    replace (ten (p_ddbz p / 10) * z / (6 * z)) with (ten (p_ddbz p / 10) / 6) by (field; lra). reflexivity.
Qed.

(** Without liquid water the number under the mask is stored. *)
Lemma gate_dry p z integral :
  0 < z ->
  o_scaled (gate_droplets p z integral (Some 0)) = Some (1 / 1000) /\
  o_scaled_error (gate_droplets p z integral (Some 0)) = Some (1 / 1000).
Proof.
  intros Z.
  assert (E : 2 * root 3 0 = 0).
  { unfold root. destruct (Req_EM_T 0 0) as [_|N]; [ring|contradiction]. }
  unfold gate_droplets. cbn [o_scaled o_scaled_error]. rewrite E.
  unfold ma_div, ma_mul, plain. cbn [fst snd orb].
  destruct (Req_EM_T 0 0) as [_|N]; [|contradiction].
  cbn [fst snd orb ma_sqrt]. split; reflexivity.
Qed.

Lemma max_run_unique row b e b' e' g :
  max_run row b e -> max_run row b' e' -> (b <= g <= e)%nat -> (b' <= g <= e')%nat -> b = b' /\ e = e'.
Proof.
  assert (W : forall b e b' e', max_run row b e -> max_run row b' e' -> (b <= g <= e)%nat -> (b' <= g <= e')%nat ->
    (b' <= b)%nat /\ (e <= e')%nat).
  { clear. intros b e b' e' (A & B & C & D) (A' & B' & C' & D') G G'. split.
    - destruct (Nat.le_gt_cases b' b) as [L|L]; [exact L|]. exfalso.
      destruct C' as [C'|C']; [lia|]. rewrite (B (b' - 1)%nat) in C' by lia. discriminate.
    - destruct (Nat.le_gt_cases e e') as [L|L]; [exact L|]. exfalso.
      destruct D' as [D'|D'].
      + rewrite (B (S e')) in D' by lia. discriminate.
      + assert (X : nth_error row e = Some true) by (apply B; lia).
        assert (Y : (e < length row)%nat) by (apply nth_error_Some; congruence). lia. }
  intros H H' G G'. pose proof (W _ _ _ _ H H' G G'). pose proof (W _ _ _ _ H' H G' G). lia.
Qed.

(** What a layer writes at a pixel. *)
Definition layer_gates (z : image (masked R)) (t b e : nat) : list nat :=
  filter (fun g => negb (is_masked (zat z t g))) (seq b (S e - b)).
Definition layer_sum (z : image (masked R)) (t b e : nat) : R :=
  rsum (map (fun g => match zat z t g with Some x => sqrt x | None => 0 end) (layer_gates z t b e)).
Definition writes (p : parameters) (z : image (masked R)) (lwp : list (masked R)) (path : list R)
  (layer : (nat * nat) * (nat * nat)) (i g : nat) : option droplets :=
  let '((t, b), (_, e)) := layer in
  if (i =? t)%nat && existsb (Nat.eqb g) (layer_gates z t b e) then
    match zat z t g with
    | Some x => Some (gate_droplets p x (layer_sum z t b e * nth g path 0) (nth t lwp None))
    | None => None
    end
  else None.

Lemma layer_pixel p z lwp path layer out i g :
  pixel (layer_droplets p z lwp path layer out) i g =
  option_map (fun old => match writes p z lwp path layer i g with Some v => v | None => old end) (pixel out i g).
Proof.
  destruct layer as [[t b] [t' e]]. unfold layer_droplets. rewrite pixel_imapi.
  destruct (pixel out i g) as [old|]; [|reflexivity]. cbn [option_map]. f_equal.
  unfold writes. fold (layer_gates z t b e). fold (layer_sum z t b e).
  destruct ((i =? t)%nat && existsb (Nat.eqb g) (layer_gates z t b e)); [|reflexivity].
  destruct (zat z t g); reflexivity.
Qed.

Lemma fold_pixel p z lwp path layers out i g :
  (forall L, In L layers -> writes p z lwp path L i g = None) ->
  pixel (fold_left (fun out layer => layer_droplets p z lwp path layer out) layers out) i g = pixel out i g.
Proof.
  revert out. induction layers as [|L r IH]; intros out H; [reflexivity|]. cbn [fold_left].
  rewrite IH by (intros X HX; apply H; right; exact HX). rewrite layer_pixel, (H L (or_introl eq_refl)).
  destruct (pixel out i g); reflexivity.
Qed.

Lemma fold_pixel_some p z lwp path layers out i g v :
  (forall L, In L layers -> writes p z lwp path L i g = None \/ writes p z lwp path L i g = Some v) ->
  (exists L, In L layers /\ writes p z lwp path L i g = Some v) ->
  pixel (fold_left (fun out layer => layer_droplets p z lwp path layer out) layers out) i g =
  option_map (fun _ => v) (pixel out i g).
Proof.
  revert out. induction layers as [|L r IH]; intros out A (L0 & H0 & E0); [contradiction|]. cbn [fold_left].
  assert (A' : forall X, In X r -> writes p z lwp path X i g = None \/ writes p z lwp path X i g = Some v)
    by (intros X HX; apply A; right; exact HX).
  destruct (existsb (fun X => match writes p z lwp path X i g with Some _ => true | None => false end) r) eqn:E.
  - apply existsb_exists in E as (X & HX & EX). rewrite IH; [|exact A'|].
    + rewrite layer_pixel. destruct (pixel out i g); reflexivity.
    + exists X. split; [exact HX|]. destruct (A' X HX) as [W|W]; rewrite W in EX; [discriminate|exact W].
  - rewrite fold_pixel.
    + rewrite layer_pixel. destruct H0 as [->|H0].
      * rewrite E0. reflexivity.
      * exfalso. assert (C : existsb (fun X => match writes p z lwp path X i g with Some _ => true | None => false end) r = true)
          by (apply existsb_exists; exists L0; split; [exact H0|rewrite E0; reflexivity]). congruence.
    + intros X HX. destruct (A' X HX) as [W|W]; [exact W|]. exfalso.
      assert (C : existsb (fun X => match writes p z lwp path X i g with Some _ => true | None => false end) r = true)
        by (apply existsb_exists; exists X; split; [exact HX|rewrite W; reflexivity]). congruence.
Qed.

Lemma in_gates z t b e g : In g (layer_gates z t b e) <-> (b <= g <= e)%nat /\ exists x, pixel z t g = Some (Some x).
Proof.
  unfold layer_gates. rewrite filter_In, in_seq. unfold zat, is_masked.
  destruct (pixel z t g) as [[x|]|]; cbn [negb].
  - split; [intros [A _]; split; [lia|eauto]|intros [A _]; split; [lia|reflexivity]].
  - split; [intros [_ ?]; discriminate|intros [_ (x & ?)]; discriminate].
  - split; [intros [_ ?]; discriminate|intros [_ (x & ?)]; discriminate].
Qed.

Lemma gates_of_layer z t b e : gates_of z t b e (layer_gates z t b e).
Proof. split; [apply NoDup_filter, seq_NoDup|apply in_gates]. Qed.

Definition to_linear (z : image (masked R)) : image (masked R) := imap (option_map (fun d => exp10 (d / 10))) z.
Definition not_negative (lwp : list (masked R)) : list (masked R) :=
  map (option_map (fun l => if Rlt_dec l 0 then 0 else l)) lwp.
Definition depths (heights : list R) : list R := map2 Rminus heights (0 :: heights).
(** The values of a pixel after the loop. *)
Definition finished (hidden : bool) (d : droplets) : droplet_product :=
  let hide (x : masked R) := if hidden then None else x in
  {| u_der := finish (1 / 1000) (o_der d); u_error := finish (1 / 1000) (o_error d);
     u_scaled := hide (finish (1 / 1000) (o_scaled d)); u_n := hide (finish 1 (o_n d));
     u_scaled_error := hide (finish (1 / 1000) (o_scaled_error d)) |}.

Lemma zat_linear z t g : zat (to_linear z) t g = option_map (fun d => exp10 (d / 10)) (zat z t g).
Proof. unfold zat, to_linear. rewrite pixel_imap. destruct (pixel z t g) as [[x|]|]; reflexivity. Qed.

Lemma gates_linear z t b e : layer_gates (to_linear z) t b e = layer_gates z t b e.
Proof.
  unfold layer_gates. apply filter_ext. intros g. rewrite zat_linear. destruct (zat z t g); reflexivity.
Qed.

Lemma append_der_ok p z lwp drop heights : exists out, append_der p z lwp drop heights = Ok out /\
  forall t g, (exists d, pixel out t g = Some d) <-> exists x, pixel z t g = Some x.
Proof.
  unfold append_der. destruct (layers_exact drop) as (layers & E & _). rewrite E. cbn [bind].
  eexists. split; [reflexivity|]. intros t g. rewrite pixel_imapi.
  assert (P : forall ls o, (exists d, pixel (fold_left (fun out layer => layer_droplets p
     (imap (option_map (fun d : R => exp10 (d / 10))) z) (map (option_map (fun l : R => if Rlt_dec l 0 then 0 else l)) lwp)
     (map2 Rminus heights (0 :: heights)) layer out) ls o) t g = Some d) <-> exists d, pixel o t g = Some d).
  { induction ls as [|L r IH]; intros o; [reflexivity|]. cbn [fold_left]. rewrite IH, layer_pixel.
    destruct (pixel o t g); cbn [option_map]; split; intros (dd & H); eauto; discriminate. }
  specialize (P layers (imap (fun _ => no_droplets) (imap (option_map (fun d : R => exp10 (d / 10))) z))).
  rewrite !pixel_imap in P. cbv zeta.
  destruct (pixel z t g) as [x|]; cbn [option_map] in P.
  - split; [eauto|]. intros _. destruct (proj2 P (ex_intro _ _ eq_refl)) as (d & Hd). rewrite Hd. eexists. reflexivity.
  - split; [|intros (x & ?); discriminate]. intros (d & Hd).
    destruct (pixel (fold_left _ layers _) t g) as [d0|] eqn:X; [|discriminate].
    destruct (proj1 P (ex_intro _ _ eq_refl)) as (y & ?). discriminate.
Qed.

(** The value of a droplet pixel with a reflectivity. *)
Lemma append_der_droplet p z lwp drop heights out t g x row b e :
  append_der p z lwp drop heights = Ok out ->
  pixel z t g = Some (Some x) -> nth_error drop t = Some row -> max_run row b e -> (b <= g <= e)%nat ->
  pixel out t g = Some (finished (match nth t (not_negative lwp) None with Some _ => false | None => true end)
    (gate_droplets p (ten (x / 10)) (layer_sum (to_linear z) t b e * nth g (depths heights) 0) (nth t (not_negative lwp) None))).
Proof.
  intros H Z D M G. unfold append_der in H. destruct (layers_exact drop) as (layers & E & X & _). rewrite E in H. cbn [bind] in H.
  injection H as <-. rewrite pixel_imapi. fold (to_linear z). fold (not_negative lwp). fold (depths heights).
  assert (V : In ((t, b), (t, e)) layers) by (apply X; split; [reflexivity|eauto]).
  assert (W : writes p (to_linear z) (not_negative lwp) (depths heights) ((t, b), (t, e)) t g =
    Some (gate_droplets p (ten (x / 10)) (layer_sum (to_linear z) t b e * nth g (depths heights) 0) (nth t (not_negative lwp) None))).
  { unfold writes. rewrite Nat.eqb_refl, gates_linear.
    replace (existsb (Nat.eqb g) (layer_gates z t b e)) with true.
    - cbn [andb]. rewrite zat_linear. unfold zat. rewrite Z. reflexivity.
    - symmetry. apply existsb_exists. exists g. split; [apply in_gates; eauto|apply Nat.eqb_refl]. }
  rewrite (fold_pixel_some p (to_linear z) (not_negative lwp) (depths heights) layers _ t g
    (gate_droplets p (ten (x / 10)) (layer_sum (to_linear z) t b e * nth g (depths heights) 0) (nth t (not_negative lwp) None)));
    [| |exists ((t, b), (t, e)); split; [exact V|exact W]].
  - rewrite pixel_imap. unfold to_linear. rewrite pixel_imap, Z. cbn [option_map]. f_equal.
    unfold finished. destruct (nth t (not_negative lwp) None); reflexivity.
  - intros [[i b'] [i' e']] HL. apply X in HL as (<- & row' & D' & M').
    destruct (Nat.eqb_spec t i) as [<-|N].
    + rewrite D in D'. injection D' as <-. destruct (existsb (Nat.eqb g) (layer_gates (to_linear z) t b' e')) eqn:EX.
      * apply existsb_exists in EX as (g' & I & Q). apply Nat.eqb_eq in Q. subst g'.
        rewrite gates_linear in I. apply in_gates in I as (G' & _).
        destruct (max_run_unique _ _ _ _ _ _ M M' G G') as [<- <-]. right. exact W.
      * left. unfold writes. rewrite EX, Bool.andb_false_r. reflexivity.
    + left. unfold writes. destruct (Nat.eqb_spec t i); [contradiction|]. reflexivity.
Qed.

(** Other pixels are masked. *)
Lemma append_der_nothing p z lwp drop heights out t g d :
  append_der p z lwp drop heights = Ok out -> pixel out t g = Some d ->
  ~ (pixel drop t g = Some true /\ exists x, pixel z t g = Some (Some x)) ->
  u_der d = None /\ u_error d = None /\ u_scaled d = None /\ u_n d = None /\ u_scaled_error d = None.
Proof.
  intros H P N. unfold append_der in H. destruct (layers_exact drop) as (layers & E & X & _). rewrite E in H. cbn [bind] in H.
  injection H as <-. rewrite pixel_imapi in P. fold (to_linear z) in P. fold (not_negative lwp) in P. fold (depths heights) in P.
  rewrite fold_pixel in P.
  - rewrite pixel_imap in P. destruct (pixel (to_linear z) t g); [|discriminate]. cbn [option_map] in P.
    assert (F : forall s, finish s (Some 0) = None) by (intros s; unfold finish; destruct (Rle_dec 0 0); [reflexivity|lra]).
    assert (d = finished (match nth t (not_negative lwp) None with Some _ => false | None => true end) no_droplets) as ->.
    { injection P as <-. unfold finished. destruct (nth t (not_negative lwp) None); reflexivity. }
    unfold finished, no_droplets. cbn [u_der u_error u_scaled u_n u_scaled_error o_der o_error o_scaled o_n o_scaled_error].
    rewrite !F. destruct (nth t (not_negative lwp) None); auto.
  - intros [[i b] [i' e]] HL. apply X in HL as (<- & row & D & M). unfold writes.
    destruct (Nat.eqb_spec t i) as [<-|]; [|reflexivity]. cbn [andb].
    destruct (existsb (Nat.eqb g) (layer_gates (to_linear z) t b e)) eqn:EX; [|reflexivity].
    exfalso. apply existsb_exists in EX as (g' & I & Q). apply Nat.eqb_eq in Q. subst g'.
    rewrite gates_linear in I. apply in_gates in I as (G & Z). apply N. split; [|exact Z].
    unfold pixel. rewrite D. apply M; lia.
Qed.

Lemma droplet_layer drop t g :
  pixel drop t g = Some true -> exists row b e, nth_error drop t = Some row /\ max_run row b e /\ (b <= g <= e)%nat.
Proof.
  intros H. destruct (layers_exact drop) as (layers & E & X & C & _). destruct (C t g H) as (b & e & I & G).
  apply X in I as (_ & row & D & M). exists row, b, e. auto.
Qed.

Lemma run_pixel drop t row b e g : nth_error drop t = Some row -> max_run row b e -> (b <= g <= e)%nat -> pixel drop t g = Some true.
Proof. intros D M G. unfold pixel. rewrite D. apply M; lia. Qed.

Lemma pow6_lt a b : 0 < a -> a < b -> a ^ 6 < b ^ 6.
Proof.
  intros A B. assert (X : a * a < b * b) by (apply Rmult_le_0_lt_compat; lra).
  assert (Y : 0 < a * a) by (apply Rmult_lt_0_compat; lra).
  assert (W : a * a * (a * a) < b * b * (b * b)) by (apply Rmult_le_0_lt_compat; lra).
  replace (a ^ 6) with (a * a * (a * a) * (a * a)) by ring. replace (b ^ 6) with (b * b * (b * b) * (b * b)) by ring.
  apply Rmult_le_0_lt_compat; try lra. apply Rmult_le_pos; lra.
Qed.

Lemma reflectivity_inj n sigma r r' : 0 < n -> 0 < r -> 0 < r' ->
  reflectivity n sigma r = reflectivity n sigma r' -> r = r'.
Proof.
  intros N A B H. unfold reflectivity in H.
  pose proof (exp_pos (3 * (sigma * sigma))) as P.
  assert (E : (2 * (1000 * r)) ^ 6 = (2 * (1000 * r')) ^ 6).
  { apply (Rmult_eq_reg_l n); [|lra]. apply (Rmult_eq_reg_r (exp (3 * (sigma * sigma)))); [exact H|lra]. }
  destruct (Rtotal_order r r') as [L|[L|L]]; [|exact L|].
  - pose proof (pow6_lt (2 * (1000 * r)) (2 * (1000 * r')) ltac:(lra) ltac:(lra)). lra.
  - pose proof (pow6_lt (2 * (1000 * r')) (2 * (1000 * r)) ltac:(lra) ltac:(lra)). lra.
Qed.

Lemma finish_pos s x : 0 < x -> finish s (Some x) = Some (x * s).
Proof. intros H. unfold finish. destruct (Rle_dec x 0); [lra|reflexivity]. Qed.

(** The radius, its error. *)
Lemma der_spec p z lwp drop heights out t g d :
  0 < p_n p -> append_der p z lwp drop heights = Ok out -> pixel out t g = Some d ->
  forall r, u_der d = Some r <->
    pixel drop t g = Some true /\ exists x, pixel z t g = Some (Some x) /\ 0 < r /\ reflectivity (p_n p) (p_sigma p) r = ten (x / 10).
Proof.
  intros N H P r. split.
  - intros U. destruct (pixel drop t g) as [[|]|] eqn:D.
    + split; [reflexivity|]. destruct (pixel z t g) as [[x|]|] eqn:Z.
      * exists x. split; [reflexivity|]. destruct (droplet_layer _ _ _ D) as (row & b & e & R1 & R2 & R3).
        rewrite (append_der_droplet _ _ _ _ _ _ _ _ _ _ _ _ H Z R1 R2 R3) in P. injection P as <-.
        destruct (gate_der p (ten (x / 10)) (layer_sum (to_linear z) t b e * nth g (depths heights) 0) (nth t (not_negative lwp) None) N (ten_pos _))
          as (s & E & S & F & _).
        unfold finished in U. cbn [u_der] in U. rewrite E, finish_pos in U by exact S. injection U as <-.
        split; [lra|]. unfold reflectivity. replace (1000 * (s * (1 / 1000))) with s by field. exact F.
      * exfalso. destruct (append_der_nothing _ _ _ _ _ _ _ _ _ H P) as [X _]; [|congruence].
        intros (_ & x & ?). congruence.
      * exfalso. destruct (append_der_nothing _ _ _ _ _ _ _ _ _ H P) as [X _]; [|congruence].
        intros (_ & x & ?). congruence.
    + exfalso. destruct (append_der_nothing _ _ _ _ _ _ _ _ _ H P) as [X _]; [|congruence]. intros (? & _). congruence.
    + exfalso. destruct (append_der_nothing _ _ _ _ _ _ _ _ _ H P) as [X _]; [|congruence]. intros (? & _). congruence.
  - intros (D & x & Z & R0 & F). destruct (droplet_layer _ _ _ D) as (row & b & e & R1 & R2 & R3).
    rewrite (append_der_droplet _ _ _ _ _ _ _ _ _ _ _ _ H Z R1 R2 R3) in P. injection P as <-.
    destruct (gate_der p (ten (x / 10)) (layer_sum (to_linear z) t b e * nth g (depths heights) 0) (nth t (not_negative lwp) None) N (ten_pos _))
      as (s & E & S & F' & _).
    unfold finished. cbn [u_der]. rewrite E, finish_pos by exact S. f_equal.
    apply (reflectivity_inj (p_n p) (p_sigma p)); try lra. rewrite F, <- F'. unfold reflectivity.
    replace (1000 * (s * (1 / 1000))) with s by field. reflexivity.
Qed.

Lemma der_error_spec p z lwp drop heights out t g d :
  0 < p_n p -> append_der p z lwp drop heights = Ok out -> pixel out t g = Some d ->
  u_error d = option_map (fun r => r * sqrt (
      p_dn p / (6 * p_n p) * (p_dn p / (6 * p_n p)) + p_sigma p * p_dsigma p * (p_sigma p * p_dsigma p)
      + ten (p_ddbz p / 10) / 6 * (ten (p_ddbz p / 10) / 6))) (u_der d).
Proof.
  intros N H P. destruct (u_der d) as [r|] eqn:U; cbn [option_map].
  - pose proof U as U'. apply (der_spec _ _ _ _ _ _ _ _ _ N H P) in U as (D & x & Z & R0 & F).
    destruct (droplet_layer _ _ _ D) as (row & b & e & R1 & R2 & R3).
    rewrite (append_der_droplet _ _ _ _ _ _ _ _ _ _ _ _ H Z R1 R2 R3) in P. injection P as <-.
    destruct (gate_der p (ten (x / 10)) (layer_sum (to_linear z) t b e * nth g (depths heights) 0) (nth t (not_negative lwp) None) N (ten_pos _))
      as (s & E & S & F' & G).
    unfold finished in U' |- *. cbn [u_der u_error] in U' |- *. rewrite E, finish_pos in U' by exact S. injection U' as <-.
    rewrite G. match goal with |- context [sqrt ?q] => set (Q := q) end.
    assert (0 < Q).
    { unfold Q. pose proof (ten_pos (p_ddbz p / 10)). 
      pose proof (Rle_0_sqr (p_dn p / (6 * p_n p))) as A1. pose proof (Rle_0_sqr (p_sigma p * p_dsigma p)) as A2. unfold Rsqr in A1, A2.
      assert (0 < ten (p_ddbz p / 10) / 6 * (ten (p_ddbz p / 10) / 6)) by (apply Rmult_lt_0_compat; lra). lra. }
    rewrite finish_pos; [f_equal; ring|]. apply Rmult_lt_0_compat; [exact S|]. apply sqrt_lt_R0. assumption.
  - destruct (u_error d) as [e|] eqn:V; [|reflexivity]. exfalso.
    assert (C : ~ (pixel drop t g = Some true /\ exists x, pixel z t g = Some (Some x))).
    { intros (D & x & Z). destruct (droplet_layer _ _ _ D) as (row & b & e0 & R1 & R2 & R3).
      rewrite (append_der_droplet _ _ _ _ _ _ _ _ _ _ _ _ H Z R1 R2 R3) in P. injection P as <-.
      destruct (gate_der p (ten (x / 10)) (layer_sum (to_linear z) t b e0 * nth g (depths heights) 0) (nth t (not_negative lwp) None) N (ten_pos _))
        as (s & E & S & F' & G). unfold finished in U. cbn [u_der] in U. rewrite E, finish_pos in U by exact S. discriminate. }
    pose proof (append_der_nothing _ _ _ _ _ _ _ _ _ H P C) as (_ & X & _). congruence.
Qed.

(** Sums over gates. *)
Lemma sum_perm f l l' : Permutation l l' -> sum_over f l = sum_over f l'.
Proof. intros H. unfold sum_over. induction H; cbn [fold_right]; lra. Qed.

Lemma gates_perm z t b e gates : gates_of z t b e gates -> Permutation gates (layer_gates z t b e).
Proof.
  intros [A B]. apply NoDup_Permutation; [exact A|apply gates_of_layer|].
  intros g. rewrite B. symmetry. apply in_gates.
Qed.

Lemma layer_sum_over z t b e gates zl :
  gates_of z t b e gates ->
  (forall g, In g gates -> exists x, pixel z t g = Some (Some x) /\ zl g = ten (x / 10)) ->
  layer_sum (to_linear z) t b e = sum_over (fun g => sqrt (zl g)) gates.
Proof.
  intros G Z. rewrite (sum_perm _ _ _ (gates_perm _ _ _ _ _ G)). unfold layer_sum. rewrite gates_linear.
  assert (W : forall g, In g (layer_gates z t b e) -> In g gates).
  { intros g I. apply G. apply in_gates. exact I. }
  induction (layer_gates z t b e) as [|g l IH]; [reflexivity|]. cbn [map rsum fold_right sum_over].
  fold (rsum (map (fun g => match zat (to_linear z) t g with Some x => sqrt x | None => 0 end) l)).
  rewrite IH by (intros k I; apply W; right; exact I). fold (sum_over (fun g => sqrt (zl g)) l). f_equal.
  destruct (Z g (W g (or_introl eq_refl))) as (x & P & E). rewrite zat_linear. unfold zat. rewrite P, E. reflexivity.
Qed.

Lemma sum_pos f l : l <> [] -> (forall g, In g l -> 0 < f g) -> 0 < sum_over f l.
Proof.
  intros N P. destruct l as [|g l]; [contradiction|]. clear N. revert g P.
  induction l as [|g' l IH]; intros g P.
  - unfold sum_over. cbn [fold_right]. specialize (P g (or_introl eq_refl)). lra.
  - change (0 < f g + sum_over f (g' :: l)). pose proof (P g (or_introl eq_refl)).
    specialize (IH g' (fun k I => P k (or_intror I))). lra.
Qed.

Lemma sum_scale f k l : sum_over (fun g => f g * k) l = sum_over f l * k.
Proof. induction l as [|g l IH]; unfold sum_over in *; cbn [fold_right]; [ring|rewrite IH; ring]. Qed.

Lemma sum_ext f h l : (forall g, In g l -> f g = h g) -> sum_over f l = sum_over h l.
Proof.
  intros H. unfold sum_over. induction l as [|g l IH]; [reflexivity|]. cbn [fold_right].
  rewrite IH by (intros k I; apply H; right; exact I). rewrite (H g (or_introl eq_refl)). reflexivity.
Qed.

Lemma nth_map2 f (l1 l2 : list R) g a b : nth_error l1 g = Some a -> nth_error l2 g = Some b -> nth g (map2 f l1 l2) 0 = f a b.
Proof.
  revert l2 g. induction l1 as [|x l1 IH]; intros [|y l2] [|g]; cbn [nth_error map2 nth]; try discriminate.
  - intros A B. injection A as ->. injection B as ->. reflexivity.
  - apply IH.
Qed.

Lemma depth_nth heights g d : depth heights g d -> nth g (depths heights) 0 = d.
Proof.
  unfold depth, depths. destruct g as [|g].
  - intros (h & E & ->). rewrite (nth_map2 Rminus heights (0 :: heights) 0 h 0 E eq_refl). ring.
  - intros (a & b & A & B & ->). apply (nth_map2 Rminus heights (0 :: heights) (S g) b a B). exact A.
Qed.

Lemma lwp_nth lwp t l : nth_error lwp t = Some (Some l) -> 0 <= l -> nth t (not_negative lwp) None = Some l.
Proof.
  intros H L. apply nth_error_nth. unfold not_negative. rewrite nth_error_map, H. cbn [option_map].
  destruct (Rlt_dec l 0); [lra|reflexivity].
Qed.

Lemma lwp_neg lwp t l : nth_error lwp t = Some (Some l) -> l <= 0 -> nth t (not_negative lwp) None = Some 0.
Proof.
  intros H L. apply nth_error_nth. unfold not_negative. rewrite nth_error_map, H. cbn [option_map].
  destruct (Rlt_dec l 0); [reflexivity|do 2 f_equal; lra].
Qed.

Lemma lwp_masked lwp t : nth_error lwp t = Some None -> nth t (not_negative lwp) None = None.
Proof. intros H. apply nth_error_nth. unfold not_negative. rewrite nth_error_map, H. reflexivity. Qed.

(** The values scaled to the liquid water path. *)
Lemma scaled_spec p z lwp drop heights out t row b e gates l zl g d :
  append_der p z lwp drop heights = Ok out ->
  nth_error drop t = Some row -> max_run row b e -> gates_of z t b e gates -> In g gates ->
  nth_error lwp t = Some (Some l) -> 0 < l -> depth heights g d -> 0 < d ->
  (forall g, In g gates -> exists x, pixel z t g = Some (Some x) /\ zl g = ten (x / 10)) ->
  exists o r n, pixel out t g = Some o /\ u_scaled o = Some r /\ u_n o = Some n /\ 0 < r /\ 0 < n /\
    reflectivity n (p_sigma p) r = zl g /\
    liquid n (p_sigma p) (zl g) * (sum_over (fun g => sqrt (zl g)) gates * d) = l * sqrt (zl g) /\
    (u_scaled_error o = Some (r * sqrt (
      ten (p_ddbz p / 10) / 6 * (ten (p_ddbz p / 10) / 6)
      + 4 * p_sigma p * p_dsigma p * (4 * p_sigma p * p_dsigma p) + p_dq p / (3 * l) * (p_dq p / (3 * l))))).
Proof.
  intros H D M G I L L0 De D0 Z. destruct (Z g I) as (x & P & E).
  assert (B : (b <= g <= e)%nat) by (apply G in I; tauto).
  pose proof (append_der_droplet _ _ _ _ _ _ _ _ _ _ _ _ H P D M B) as A.
  rewrite (lwp_nth _ _ _ L (Rlt_le _ _ L0)), (layer_sum_over _ _ _ _ _ _ G Z), (depth_nth _ _ _ De) in A.
  assert (S0 : 0 < sum_over (fun g => sqrt (zl g)) gates).
  { apply sum_pos; [intros ->; destruct I|]. intros k Ik. apply sqrt_lt_R0. destruct (Z k Ik) as (y & _ & ->). apply ten_pos. }
  destruct (gate_scaled p (ten (x / 10)) (sum_over (fun g => sqrt (zl g)) gates * d) l (ten_pos _) ltac:(apply Rmult_lt_0_compat; assumption) L0)
    as (s & n & E1 & E2 & E3 & E4 & E5 & E6 & E7).
  eexists. exists (s * (1 / 1000)), n. split; [exact A|]. unfold finished. cbn [u_scaled u_n u_scaled_error].
  rewrite E1, E3, E7, E. split; [apply finish_pos; exact E2|]. split; [rewrite finish_pos by exact E4; f_equal; ring|].
  split; [lra|]. split; [exact E4|]. split.
  - unfold reflectivity. replace (1000 * (s * (1 / 1000))) with s by field. exact E5.
  - split; [exact E6|]. match goal with |- context [sqrt ?q] => set (Q := q) end.
    assert (0 < Q).
    { unfold Q. pose proof (ten_pos (p_ddbz p / 10)).
      pose proof (Rle_0_sqr (4 * p_sigma p * p_dsigma p)) as A1. pose proof (Rle_0_sqr (p_dq p / (3 * l))) as A2. unfold Rsqr in A1, A2.
      assert (0 < ten (p_ddbz p / 10) / 6 * (ten (p_ddbz p / 10) / 6)) by (apply Rmult_lt_0_compat; lra). lra. }
    rewrite finish_pos; [f_equal; ring|]. apply Rmult_lt_0_compat; [exact E2|]. apply sqrt_lt_R0. assumption.
Qed.

(** The liquid water of a layer is the measured path. *)
Lemma closure p z lwp drop heights out t row b e gates l zl d n :
  append_der p z lwp drop heights = Ok out ->
  nth_error drop t = Some row -> max_run row b e -> gates_of z t b e gates -> gates <> [] ->
  nth_error lwp t = Some (Some l) -> 0 < l ->
  (forall g, In g gates -> depth heights g (d g) /\ 0 < d g) ->
  (forall g, In g gates -> exists x, pixel z t g = Some (Some x) /\ zl g = ten (x / 10)) ->
  (forall g, In g gates -> exists o, pixel out t g = Some o /\ u_n o = Some (n g)) ->
  sum_over (fun g => liquid (n g) (p_sigma p) (zl g) * d g) gates = l.
Proof.
  intros H D M G N L L0 De Z U.
  set (S := sum_over (fun g => sqrt (zl g)) gates).
  assert (S0 : 0 < S).
  { apply sum_pos; [exact N|]. intros k Ik. apply sqrt_lt_R0. destruct (Z k Ik) as (y & _ & ->). apply ten_pos. }
  apply (Rmult_eq_reg_r S); [|lra]. rewrite <- sum_scale.
  rewrite (sum_ext _ (fun g => sqrt (zl g) * l)).
  - rewrite sum_scale. fold S. ring.
  - intros g I. destruct (De g I) as [D1 D2]. destruct (U g I) as (o & O & On).
    destruct (scaled_spec _ _ _ _ _ _ _ _ _ _ _ _ _ _ _ H D M G I L L0 D1 D2 Z) as (o' & r & n' & O' & _ & On' & _ & _ & _ & W & _).
    assert (o' = o) by congruence. subst o'. assert (n' = n g) by congruence. subst n'.
    fold S in W. rewrite Rmult_comm with (r1 := sqrt (zl g)). rewrite <- W. ring.
Qed.

Lemma scaled_masked p z lwp drop heights out t g d :
  append_der p z lwp drop heights = Ok out -> pixel out t g = Some d -> nth_error lwp t = Some None ->
  u_scaled d = None /\ u_n d = None /\ u_scaled_error d = None.
Proof.
  intros H P L. unfold append_der in H. destruct (layers_exact drop) as (layers & E & _). rewrite E in H. cbn [bind] in H.
  injection H as <-. rewrite pixel_imapi in P. fold (not_negative lwp) in P.
  match type of P with option_map _ ?x = _ => destruct x as [o|]; [|discriminate] end. cbn [option_map] in P.
  rewrite (lwp_masked _ _ L) in P. injection P as <-. auto.
Qed.

(** ** The error of the liquid water content *)

Lemma gradient_slope l i s : (2 <= length l)%nat -> (i < length l)%nat ->
  slope (fun k => nth k l 0) (length l) i s <-> s = gradient_at l i.
Proof.
  intros N I. unfold slope, gradient_at. destruct (Nat.eqb_spec i 0) as [->|X].
  - split.
    + intros (_ & _ & [(_ & ->)|[(E & _)|(E & _)]]); [reflexivity|lia|lia].
    + intros ->. split; [lia|]. split; [lia|]. left. auto.
  - destruct (Nat.eqb_spec (S i) (length l)) as [Y|Y].
    + split.
      * intros (_ & _ & [(E & _)|[(_ & ->)|(_ & E & _)]]); [lia|reflexivity|lia].
      * intros ->. split; [lia|]. split; [lia|]. right. left. auto.
    + split.
      * intros (_ & _ & [(E & _)|[(E & _)|(_ & _ & E)]]); [lia|lia|lra].
      * intros ->. split; [lia|]. split; [lia|]. right. right. split; [lia|]. split; [lia|]. lra.
Qed.

Lemma limit_min limit x : limit_error limit x = Rmin limit x.
Proof.
  unfold limit_error, Rmin. destruct (Rlt_dec limit x), (Rle_dec limit x); lra.
Qed.

Definition filled (m : image (masked R)) : image R := imap (fun x : masked R => match x with Some v => v | None => 0 end) m.

Lemma filled_row m i j : nth j (nth i (filled m) []) 0 = value_at m i j.
Proof.
  unfold filled, imap, value_at, pixel. destruct (nth_error m i) as [row|] eqn:E.
  - rewrite (nth_error_nth _ _ _ (map_nth_error _ _ _ E)). destruct (nth_error row j) as [x|] eqn:F.
    + rewrite (nth_error_nth _ _ _ (map_nth_error _ _ _ F)). reflexivity.
    + apply nth_overflow. rewrite map_length. apply nth_error_None. exact F.
  - rewrite (nth_overflow (map _ m)) by (rewrite map_length; apply nth_error_None; exact E). destruct j; reflexivity.
Qed.

Lemma filled_column m i j : nth i (map (fun row => nth j row 0) (filled m)) 0 = value_at m i j.
Proof.
  rewrite <- filled_row. destruct (nth_error (filled m) i) as [row|] eqn:E.
  - rewrite (nth_error_nth _ _ _ (map_nth_error (fun row => nth j row 0) _ _ E)), (nth_error_nth _ _ _ E). reflexivity.
  - rewrite (nth_overflow (filled m)) by (apply nth_error_None; exact E).
    rewrite nth_overflow by (rewrite map_length; apply nth_error_None; exact E). destruct j; reflexivity.
Qed.

Lemma slope_ext f h n i s : (forall k, f k = h k) -> slope f n i s <-> slope h n i s.
Proof. intros H. unfold slope. rewrite !H. reflexivity. Qed.

Lemma gradient_iff m i j width row gx gy :
  (2 <= length m)%nat -> (2 <= width)%nat -> nth_error m i = Some row -> length row = width -> (j < width)%nat ->
  slope (fun k => value_at m k j) (length m) i gx -> slope (fun k => value_at m i k) width j gy ->
  lwc_gradient m i j = sqrt (gx * gx + gy * gy).
Proof.
  intros L W E R J A B. unfold lwc_gradient, l2. fold (filled m).
  assert (LR : length (nth i (filled m) []) = width).
  { unfold filled, imap. rewrite (nth_error_nth _ _ _ (map_nth_error _ _ _ E)), map_length. exact R. }
  assert (LC : length (map (fun row => nth j row 0) (filled m)) = length m).
  { rewrite map_length. unfold filled, imap. apply map_length. }
  assert (I : (i < length m)%nat) by (apply nth_error_Some; congruence).
  rewrite (slope_ext _ (fun k => nth k (map (fun row => nth j row 0) (filled m)) 0)) in A
    by (intros k; symmetry; apply filled_column).
  rewrite (slope_ext _ (fun k => nth k (nth i (filled m) []) 0)) in B by (intros k; symmetry; apply filled_row).
  rewrite <- LC in A. apply gradient_slope in A; [|lia|lia].
  rewrite <- LR in B. apply gradient_slope in B; [|lia|lia]. rewrite A, B. reflexivity.
Qed.

(** A path of zero, or a negative one, gives a radius of one micrometre instead of none. *)
Lemma dry p z lwp drop heights out t g x l :
  append_der p z lwp drop heights = Ok out ->
  pixel z t g = Some (Some x) -> pixel drop t g = Some true -> nth_error lwp t = Some (Some l) -> l <= 0 ->
  exists o, pixel out t g = Some o /\ u_scaled o = Some (1 / 1000000) /\ u_scaled_error o = Some (1 / 1000000).
Proof.
  intros H Z D L L0. destruct (droplet_layer _ _ _ D) as (row & b & e & R & M & G).
  pose proof (append_der_droplet _ _ _ _ _ _ _ _ _ _ _ _ H Z R M G) as A.
  rewrite (lwp_neg _ _ _ L L0) in A. eexists. split; [exact A|].
  destruct (gate_dry p (ten (x / 10)) (layer_sum (to_linear z) t b e * nth g (depths heights) 0) (ten_pos _)) as [E1 E2].
  unfold finished. cbn [u_scaled u_scaled_error]. rewrite E1, E2, finish_pos by lra. split; f_equal; lra.
Qed.

(** Without any uncertainty of the parameters an error of a sixth remains: an uncertainty
    of [ddBZ] decibels is taken for the factor [10 ** (ddBZ / 10)], not for the factor
    less one. *)
Lemma exact_parameters p z lwp drop heights out t g d r :
  0 < p_n p -> p_dn p = 0 -> p_dsigma p = 0 -> p_ddbz p = 0 ->
  append_der p z lwp drop heights = Ok out -> pixel out t g = Some d -> u_der d = Some r ->
  u_error d = Some (r / 6) /\ 0 < r / 6.
Proof.
  intros N A B C H P U. rewrite (der_error_spec _ _ _ _ _ _ _ _ _ N H P), U. cbn [option_map].
  apply (der_spec _ _ _ _ _ _ _ _ _ N H P) in U as (_ & x & _ & R0 & _). split; [|lra].
  rewrite A, B, C. f_equal. replace (0 / 10) with 0 by field. rewrite ten_0.
  replace (0 / (6 * p_n p) * (0 / (6 * p_n p)) + p_sigma p * 0 * (p_sigma p * 0) + 1 / 6 * (1 / 6)) with (1 / 6 * (1 / 6)) by (field; lra).
  rewrite sqrt_square by lra. field.
Qed.
