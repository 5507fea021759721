(** Properties of the retrievals: ice (C131), droplets (C132), the error of the liquid water
    content (C133). *)
From Verif Require Import Base BitsModel StatusModel ArrayModel ArraySpec RetrievalModel RetrievalSpec RetrievalProofs.
From Verif Require StatusSpec.
From Coq Require Import Reals String Lia Lra.
Open Scope string_scope.
Open Scope nat_scope.
Open Scope list_scope.
Open Scope R_scope.
Local Notation length := List.length (only parsing).

(** ** C131 *)

Theorem C131_water band c cat qual z t v :
  get_ice_coefficients "iwc" band = Ok c ->
  icy "iwc" c cat qual z t = Ok (Some v) <->
  usable_ice cat qual /\ exists x, z = Some x /\ water_content band x t v.
Proof. apply icy_water. Qed.
Print Assumptions C131_water.

Theorem C131_radius band c cat qual z t v :
  get_ice_coefficients "ier" band = Ok c ->
  (exists d, icy "ier" c cat qual z t = Ok d /\ ier_metres d = Some v) <->
  usable_ice cat qual /\ exists x, z = Some x /\ ice_radius band x t v.
Proof. apply icy_radius. Qed.
Print Assumptions C131_radius.

Theorem C131_growth band z z' t v v' w w' :
  z < z' ->
  (-150 < t -> water_content band z t v -> water_content band z' t v' -> 0 < v < v') /\
  (t < 0 -> ice_radius band z t w -> ice_radius band z' t w' -> 0 < w < w').
Proof.
  intros Z. split.
  - intros T A B. exact (water_grows band z z' t v v' T Z A B).
  - intros T A B. exact (radius_grows band z z' t w w' T Z A B).
Qed.
Print Assumptions C131_growth.

Theorem C131_unusable product band :
  ((exists c, get_ice_coefficients product band = Ok c) <-> band = "Ka" \/ band = "W") /\
  (forall e, get_ice_coefficients product band = Raise e -> e = ValueError) /\
  (product <> "iwc" -> product <> "ier" -> forall c cat qual z t, icy product c cat qual z t = Raise ValueError).
Proof.
  split; [apply bands|]. split; [intros e; apply bands_raise|].
  intros A B c cat qual z t. unfold icy, convert_z.
  destruct (String.eqb_spec product "iwc"); [contradiction|]. destruct (String.eqb_spec product "ier"); [contradiction|]. reflexivity.
Qed.
Print Assumptions C131_unusable.

Theorem C131_sensitivity band c zs temperature :
  get_ice_coefficients "iwc" band = Ok c -> temperature <> [] ->
  exists out, sensitivity c zs temperature = Ok out /\ length out = length zs /\
  forall g v, nth_error out g = Some (Some v) <->
    exists x m, nth_error zs g = Some (Some x) /\ mean_of temperature g m /\ water_content band x m v.
Proof. apply sensitivity_spec. Qed.
Print Assumptions C131_sensitivity.

(** The random error in decibels: 1.7 dB and the change of the water content when the
    reflectivity changes by its error. *)
Theorem C131_error band c cat qual e t z v v' :
  get_ice_coefficients "iwc" band = Ok c ->
  water_content band z t v -> water_content band (z + e) t v' ->
  (forall r, iwc_error band c cat qual (Some e) t = Some r <->
    usable_ice cat qual /\ 0 <= r /\ r * r = 17 / 10 * (17 / 10) + decibels (v' / v) * decibels (v' / v)) /\
  iwc_error band c cat qual None t = None.
Proof.
  intros H A B. split.
  - intros r. rewrite (iwc_error_iff band c cat qual (Some e) t z v v' H).
    + split; [intros (X & _ & Y); auto|intros (X & Y); split; [exact X|split; [discriminate|exact Y]]].
    + intros e' E. injection E as <-. auto.
  - destruct (iwc_error band c cat qual None t) as [r|] eqn:E; [|reflexivity]. exfalso.
    apply (iwc_error_iff band c cat qual None t z v v' H) in E; [|intros e' X; discriminate].
    destruct E as (_ & N & _). contradiction.
Qed.
Print Assumptions C131_error.

(** The bias in decibels is the change of the water content at 0 degrees. *)
Theorem C131_bias band c b z v v' :
  get_ice_coefficients "iwc" band = Ok c ->
  water_content band z 0 v -> water_content band (z + b) 0 v' ->
  iwc_bias c (Some b) = Some (decibels (v' / v)) /\ iwc_bias c None = None.
Proof.
  intros H A B. split; [|reflexivity]. rewrite (water_change _ _ _ _ _ _ _ H A B). cbn [iwc_bias option_map]. f_equal. ring.
Qed.
Print Assumptions C131_bias.

Theorem C131_radius_error v :
  (forall e, ier_error (Some v) = Some e <-> 0 <= e * v /\ e * e = 2 * (2 / 5 * v * (2 / 5 * v))) /\
  ier_error None = None.
Proof.
  split; [|reflexivity]. intros e. cbn [ier_error option_map].
  set (q := sqrt (4 / 10 * (4 / 10) + 4 / 10 * (4 / 10))).
  assert (Q : q * q = 8 / 25) by (unfold q; rewrite sqrt_sqrt; lra).
  assert (P : 0 < q) by (unfold q; apply sqrt_lt_R0; lra).
  split.
  - intros E. injection E as <-. split.
    + replace (v * q * v) with (v * v * q) by ring. apply Rmult_le_pos; [apply Rle_0_sqr|lra].
    + replace (v * q * (v * q)) with (v * v * (q * q)) by ring. rewrite Q. field.
  - intros (S & E). f_equal.
    assert (F : (e - v * q) * (e + v * q) = 0).
    { replace ((e - v * q) * (e + v * q)) with (e * e - v * v * (q * q)) by ring. rewrite Q, E. field. }
    apply Rmult_integral in F as [F|F]; [lra|].
    assert (e = - (v * q)) by lra. subst e.
    replace (- (v * q) * v) with (- (v * v * q)) in S by ring.
    assert (V0 : 0 <= v * v) by apply Rle_0_sqr. assert (V1 : v * v = 0) by nra.
    assert (v = 0) by (apply Rmult_integral in V1; tauto). subst v. ring.
Qed.
Print Assumptions C131_radius_error.

(** A comment of the variable says that where attenuation was not corrected the error has
    a contribution of 250 g m-2 of liquid water.  It is masked there. *)
Theorem C131_attenuation_refuted :
  exists cat qual, StatusSpec.Ice cat /\ StatusSpec.some_uncorrected qual /\
  forall band c z_error t, iwc_error band c cat qual z_error t = None.
Proof.
  exists {| droplet := false; falling := true; freezing := true; melting := false; aerosol := false; insect := false |}.
  exists {| radar := true; lidar := false; clutter := false; molecular := false; attenuated_liquid := true;
            corrected_liquid := false; attenuated_rain := false; corrected_rain := false;
            attenuated_melting := false; corrected_melting := false |}.
  split; [repeat split|]. split; [exists StatusSpec.Liquid; split; [reflexivity|discriminate]|].
  intros band c z_error t. reflexivity.
Qed.
Print Assumptions C131_attenuation_refuted.

(** At other temperatures the bias is not the change of the water content. *)
Theorem C131_bias_refuted :
  exists c v v', get_ice_coefficients "iwc" "W" = Ok c /\
  water_content "W" 0 (-50) v /\ water_content "W" 2 (-50) v' /\
  iwc_bias c (Some 2) <> Some (decibels (v' / v)).
Proof.
  destruct (bands "iwc" "W") as [_ B]. destruct (B (or_intror eq_refl)) as (c & C).
  destruct (water_exists "W" c 0 (-50) C) as (v & V). destruct (water_exists "W" c (0 + 2) (-50) C) as (v' & V').
  exists c, v, v'. split; [exact C|]. split; [exact V|]. rewrite Rplus_0_l in V'. split; [exact V'|].
  rewrite <- (Rplus_0_l 2) in V'. rewrite (water_change _ _ _ _ _ _ _ C V V'). cbn [iwc_bias option_map].
  injection C as <-. cbn [by_z by_zt]. intros E. injection E as E. lra.
Qed.
Print Assumptions C131_bias_refuted.

(** A comment gives the formula log10(ier) = ( ... ) * 3 / (2 * 917); the factor is not
    applied to the logarithm. *)
Theorem C131_formula_refuted :
  exists z v k f, ice_law "ier" "Ka" k f /\ ice_radius "Ka" z 0 v /\
  ln v / ln 10 <> f (z + decibels (k / (93 / 100))) 0 * (3 / (2 * 917)).
Proof.
  set (d := decibels (878 / 1000 / (93 / 100))).
  exists (- d). eexists. exists (878 / 1000). eexists. split; [apply radius_ka|]. split.
  - exists (878 / 1000). eexists. split; [apply radius_ka|reflexivity].
  - fold d. replace (- d + d) with 0 by ring. cbv beta.
    set (q := -205 / 1000000 * 0 * 0 - 15 / 10000 * 0 + 16 / 10000 * 0 - 152 / 100).
    assert (Q : q = - 152 / 100) by (unfold q; lra). clearbody q. subst q.
    pose proof ln10_pos as L. intros E.
    assert (F : ln (ten (-152 / 100) * (3 / (2 * 917))) = -152 / 100 * (3 / (2 * 917)) * ln 10).
    { rewrite <- E. field. lra. }
    rewrite ln_mult in F; [|apply ten_pos|lra]. unfold ten, Rpower in F. rewrite ln_exp in F.
    assert (G : ln (3 / (2 * 917)) < 0). { rewrite <- ln_1. apply ln_increasing; lra. }
    lra.
Qed.
Print Assumptions C131_formula_refuted.

Example C131_nonvacuous :
  (exists c, get_ice_coefficients "iwc" "Ka" = Ok c /\ z_to_iwc c 0 0 = ten (-163 / 100)) /\
  (exists v, water_content "Ka" 10 (-20) v) /\ (exists v, ice_radius "W" 10 (-20) v) /\
  usable_ice {| droplet := false; falling := true; freezing := true; melting := false; aerosol := false; insect := false |}
    {| radar := true; lidar := false; clutter := false; molecular := false; attenuated_liquid := true;
       corrected_liquid := true; attenuated_rain := false; corrected_rain := false;
       attenuated_melting := false; corrected_melting := false |}.
Proof.
  split; [|split; [|split]].
  - eexists. split; [reflexivity|]. unfold z_to_iwc. cbn [by_zt by_t by_z by_one].
    change (exp10 ?x) with (ten x). f_equal. lra.
  - eexists. exists (878 / 1000). eexists. split; [constructor|reflexivity].
  - eexists. exists (669 / 1000). eexists. split; [constructor|reflexivity].
  - split; [repeat split|]. intros ([] & A & B); cbn in A, B; congruence.
Qed.

(** ** C132 *)

(** The radius is given exactly where there are droplets and a reflectivity; it is the one
    for which the number [p_n] of droplets has this reflectivity. *)
Theorem C132_radius p z lwp drop heights :
  0 < p_n p -> exists out, append_der p z lwp drop heights = Ok out /\
  (forall t g, (exists d, pixel out t g = Some d) <-> exists x, pixel z t g = Some x) /\
  forall t g d r, pixel out t g = Some d ->
  (u_der d = Some r <->
    pixel drop t g = Some true /\ exists x, pixel z t g = Some (Some x) /\ 0 < r /\ reflectivity (p_n p) (p_sigma p) r = ten (x / 10)).
Proof.
  intros N. destruct (append_der_ok p z lwp drop heights) as (out & E & S). exists out. split; [exact E|]. split; [exact S|].
  intros t g d r P. apply (der_spec _ _ _ _ _ _ _ _ _ N E P).
Qed.
Print Assumptions C132_radius.

Theorem C132_error p z lwp drop heights out t g d :
  0 < p_n p -> append_der p z lwp drop heights = Ok out -> pixel out t g = Some d ->
  u_error d = option_map (fun r => r * sqrt (
      p_dn p / (6 * p_n p) * (p_dn p / (6 * p_n p)) + p_sigma p * p_dsigma p * (p_sigma p * p_dsigma p)
      + ten (p_ddbz p / 10) / 6 * (ten (p_ddbz p / 10) / 6))) (u_der d).
Proof. apply der_error_spec. Qed.
Print Assumptions C132_error.

(** The values scaled to the liquid water path: radius and number have the reflectivity of
    the gate. *)
Theorem C132_scaled p z lwp drop heights out t g x l d :
  append_der p z lwp drop heights = Ok out ->
  pixel z t g = Some (Some x) -> pixel drop t g = Some true ->
  nth_error lwp t = Some (Some l) -> 0 < l -> depth heights g d -> 0 < d ->
  exists o r n, pixel out t g = Some o /\ u_scaled o = Some r /\ u_n o = Some n /\ 0 < r /\ 0 < n /\
    reflectivity n (p_sigma p) r = ten (x / 10) /\
    u_scaled_error o = Some (r * sqrt (
      ten (p_ddbz p / 10) / 6 * (ten (p_ddbz p / 10) / 6)
      + 4 * p_sigma p * p_dsigma p * (4 * p_sigma p * p_dsigma p) + p_dq p / (3 * l) * (p_dq p / (3 * l)))).
Proof.
  intros H Z D L L0 De D0. destruct (droplet_layer _ _ _ D) as (row & b & e & R & M & G).
  set (zl := fun g => match zat z t g with Some x => ten (x / 10) | None => 0 end).
  assert (Hz : forall k, In k (layer_gates z t b e) -> exists y, pixel z t k = Some (Some y) /\ zl k = ten (y / 10)).
  { intros k I. apply in_gates in I as (_ & y & Y). exists y. split; [exact Y|]. unfold zl, zat. rewrite Y. reflexivity. }
  assert (I : In g (layer_gates z t b e)) by (apply in_gates; eauto).
  destruct (scaled_spec _ _ _ _ _ _ _ _ _ _ _ _ _ _ _ H R M (gates_of_layer z t b e) I L L0 De D0 Hz)
    as (o & r & n & A1 & A2 & A3 & A4 & A5 & A6 & _ & A8).
  exists o, r, n. repeat (split; [assumption|]). split; [|exact A8].
  rewrite A6. unfold zl, zat. rewrite Z. reflexivity.
Qed.
Print Assumptions C132_scaled.

(** The liquid water of the retrieved droplets in a layer is the measured path. *)
Theorem C132_closure p z lwp drop heights out t row b e gates l zl d n :
  append_der p z lwp drop heights = Ok out ->
  nth_error drop t = Some row -> max_run row b e -> gates_of z t b e gates -> gates <> [] ->
  nth_error lwp t = Some (Some l) -> 0 < l ->
  (forall g, In g gates -> depth heights g (d g) /\ 0 < d g) ->
  (forall g, In g gates -> exists x, pixel z t g = Some (Some x) /\ zl g = ten (x / 10)) ->
  (forall g, In g gates -> exists o, pixel out t g = Some o /\ u_n o = Some (n g)) ->
  sum_over (fun g => liquid (n g) (p_sigma p) (zl g) * d g) gates = l.
Proof. apply closure. Qed.
Print Assumptions C132_closure.

(** Gates of the same depth in a layer have the same number of droplets. *)
Theorem C132_number p z lwp drop heights out t row b e g g' l d x x' o o' :
  append_der p z lwp drop heights = Ok out ->
  nth_error drop t = Some row -> max_run row b e -> (b <= g <= e)%nat -> (b <= g' <= e)%nat ->
  nth_error lwp t = Some (Some l) -> 0 < l -> 0 < d -> depth heights g d -> depth heights g' d ->
  pixel z t g = Some (Some x) -> pixel z t g' = Some (Some x') ->
  pixel out t g = Some o -> pixel out t g' = Some o' -> u_n o = u_n o'.
Proof.
  intros H D M G G' L L0 D0 De De' Z Z' O O'.
  set (zl := fun g => match zat z t g with Some x => ten (x / 10) | None => 0 end).
  assert (Hz : forall k, In k (layer_gates z t b e) -> exists y, pixel z t k = Some (Some y) /\ zl k = ten (y / 10)).
  { intros k I. apply in_gates in I as (_ & y & Y). exists y. split; [exact Y|]. unfold zl, zat. rewrite Y. reflexivity. }
  assert (I : In g (layer_gates z t b e)) by (apply in_gates; eauto).
  assert (I' : In g' (layer_gates z t b e)) by (apply in_gates; eauto).
  destruct (scaled_spec _ _ _ _ _ _ _ _ _ _ _ _ _ _ _ H D M (gates_of_layer z t b e) I L L0 De D0 Hz)
    as (o1 & r & n & A1 & A2 & A3 & A4 & A5 & A6 & A7 & _).
  destruct (scaled_spec _ _ _ _ _ _ _ _ _ _ _ _ _ _ _ H D M (gates_of_layer z t b e) I' L L0 De' D0 Hz)
    as (o2 & r' & n' & B1 & B2 & B3 & B4 & B5 & B6 & B7 & _).
  assert (o1 = o) by congruence. assert (o2 = o') by congruence. subst o1 o2. rewrite A3, B3. f_equal.
  set (S := sum_over (fun g => sqrt (zl g)) (layer_gates z t b e)) in *.
  assert (P : 0 < zl g /\ 0 < zl g').
  { destruct (Hz g I) as (y & _ & ->). destruct (Hz g' I') as (y' & _ & ->). split; apply ten_pos. }
  destruct P as [P P']. pose proof (sqrt_lt_R0 _ P) as Q. pose proof (sqrt_lt_R0 _ P') as Q'.
  unfold liquid in A7, B7. rewrite sqrt_mult in A7, B7 by lra.
  set (K := PI / 6 * 1000 * / 1000000000 * exp (- (9 / 2) * (p_sigma p * p_sigma p)) * (S * d)).
  assert (E : sqrt n * K = l).
  { apply (Rmult_eq_reg_r (sqrt (zl g))); [|lra]. rewrite <- A7. unfold K. field. }
  assert (E' : sqrt n' * K = l).
  { apply (Rmult_eq_reg_r (sqrt (zl g'))); [|lra]. rewrite <- B7. unfold K. field. }
  assert (KN : K <> 0) by (intros X; rewrite X in E; lra).
  assert (F : sqrt n = sqrt n') by (apply (Rmult_eq_reg_r K); congruence).
  apply sqrt_inj; lra.
Qed.
Print Assumptions C132_number.

(** Without a path, or without droplets and a reflectivity, nothing is given. *)
Theorem C132_masked p z lwp drop heights out t g d :
  append_der p z lwp drop heights = Ok out -> pixel out t g = Some d ->
  (nth_error lwp t = Some None -> u_scaled d = None /\ u_n d = None /\ u_scaled_error d = None) /\
  (~ (pixel drop t g = Some true /\ exists x, pixel z t g = Some (Some x)) ->
   u_der d = None /\ u_error d = None /\ u_scaled d = None /\ u_n d = None /\ u_scaled_error d = None).
Proof.
  intros H P. split.
  - intros L. apply (scaled_masked _ _ _ _ _ _ _ _ _ H P L).
  - apply (append_der_nothing _ _ _ _ _ _ _ _ _ H P).
Qed.
Print Assumptions C132_masked.

(** The parameters of Frisch et al. 2002 unless others are given. *)
Theorem C132_parameters given z lwp drop heights out t g d r p :
  der_source false given = Raise InvalidSourceFileError /\
  der_source true (Some p) = Ok p /\
  (der_source true None = Ok p -> append_der p z lwp drop heights = Ok out -> pixel out t g = Some d -> u_der d = Some r ->
   (exists x, pixel z t g = Some (Some x) /\ reflectivity (2 * 10 ^ 8) (7 / 20) r = ten (x / 10)) /\
   u_error d = Some (r * sqrt (1 / 36 + 49 / 40000 + ten (1 / 5) / 6 * (ten (1 / 5) / 6)))).
Proof.
  split; [reflexivity|]. split; [reflexivity|]. intros E H P U.
  assert (N : 0 < p_n p) by (injection E as <-; cbn [p_n default_parameters]; lra). split.
  - apply (der_spec _ _ _ _ _ _ _ _ _ N H P) in U as (_ & x & Z & R0 & F). exists x. split; [exact Z|].
    injection E as <-. cbn [p_n p_sigma default_parameters] in F. rewrite <- F.
    replace (2 * 10 ^ 8) with 200000000 by ring. replace (35 / 100) with (7 / 20) by field. reflexivity.
  - rewrite (der_error_spec _ _ _ _ _ _ _ _ _ N H P), U. cbn [option_map]. do 3 f_equal.
    injection E as <-. cbn [p_n p_dn p_sigma p_dsigma p_ddbz default_parameters].
    replace (2 / 10) with (1 / 5) by field. f_equal. field.
Qed.
Print Assumptions C132_parameters.

(** The same for the values scaled to the liquid water path, whose error is 5 g m-2. *)
Theorem C132_scaled_parameters z lwp drop heights out t g x l d p :
  der_source true None = Ok p -> append_der p z lwp drop heights = Ok out ->
  pixel z t g = Some (Some x) -> pixel drop t g = Some true ->
  nth_error lwp t = Some (Some l) -> 0 < l -> depth heights g d -> 0 < d ->
  exists o r n, pixel out t g = Some o /\ u_scaled o = Some r /\ u_n o = Some n /\
    reflectivity n (7 / 20) r = ten (x / 10) /\
    u_scaled_error o = Some (r * sqrt (ten (1 / 5) / 6 * (ten (1 / 5) / 6) + 49 / 2500 + (1 / 600 / l) * (1 / 600 / l))).
Proof.
  intros E H Z D L L0 De D0. destruct (C132_scaled _ _ _ _ _ _ _ _ _ _ _ H Z D L L0 De D0) as (o & r & n & A1 & A2 & A3 & _ & _ & A6 & A7).
  exists o, r, n. split; [exact A1|]. split; [exact A2|]. split; [exact A3|]. injection E as <-.
  cbn [p_n p_dn p_sigma p_dsigma p_ddbz p_dq default_parameters] in A6, A7. split.
  - rewrite <- A6. replace (35 / 100) with (7 / 20) by field. reflexivity.
  - rewrite A7. do 3 f_equal. replace (2 / 10) with (1 / 5) by field. field. lra.
Qed.
Print Assumptions C132_scaled_parameters.

(** The default parameters. *)
Definition frisch : parameters := default_parameters.
(** A path of zero gives a radius of one micrometre instead of none. *)
Theorem C132_dry_refuted :
  exists z lwp drop heights out o, append_der frisch z lwp drop heights = Ok out /\
  nth_error lwp 0 = Some (Some 0) /\ pixel out 0 0 = Some o /\
  u_scaled o = Some (1 / 1000000) /\ u_scaled_error o = Some (1 / 1000000).
Proof.
  destruct (append_der_ok frisch [[Some 0]] [Some 0] [[true]] [100]) as (out & H & _).
  destruct (dry _ _ _ _ _ _ 0 0 0 0 H eq_refl eq_refl eq_refl ltac:(lra)) as (o & O & S).
  exists [[Some 0]], [Some 0], [[true]], [100], out, o. split; [exact H|]. split; [reflexivity|]. split; [exact O|exact S].
Qed.
Print Assumptions C132_dry_refuted.

(** The number of droplets of a layer is not constant when the depths of its gates differ. *)
Lemma run2 : max_run [true; true] 0 1.
Proof.
  split; [lia|]. split; [intros [|[|k]] A B; [reflexivity|reflexivity|lia]|]. split; [left; reflexivity|right; reflexivity].
Qed.
Theorem C132_depths_refuted :
  exists z lwp drop heights out o o' n n', append_der frisch z lwp drop heights = Ok out /\
  drop = [[true; true]] /\ pixel out 0 0 = Some o /\ pixel out 0 1 = Some o' /\ u_n o = Some n /\ u_n o' = Some n' /\ n <> n'.
Proof.
  set (z := [[Some 0; Some 0]] : image (masked R)). set (lwp := [Some 1] : list (masked R)).
  set (heights := [1; 3]).
  destruct (append_der_ok frisch z lwp [[true; true]] heights) as (out & H & _).
  assert (G : gates_of z 0 0 1 [0%nat; 1%nat]).
  { split; [constructor; [intros [?|[]]; discriminate|constructor; [intros []|constructor]]|].
    intros k. split.
    - intros [<-|[<-|[]]]; (split; [lia|exists 0; reflexivity]).
    - intros [K _]. destruct k as [|[|k]]; [left; reflexivity|right; left; reflexivity|lia]. }
  assert (Z : forall k, In k [0%nat; 1%nat] -> exists x, pixel z 0 k = Some (Some x) /\ (fun _ : nat => ten (0 / 10)) k = ten (x / 10)).
  { intros k [<-|[<-|[]]]; exists 0; split; reflexivity. }
  assert (D0 : depth heights 0 1) by (exists 1; split; reflexivity).
  assert (D1 : depth heights 1 2) by (exists 1, 3; split; [reflexivity|split; [reflexivity|lra]]).
  assert (ONE : ten (0 / 10) = 1) by (replace (0 / 10) with 0 by field; apply ten_0).
  destruct (scaled_spec _ _ lwp _ _ _ 0%nat [true; true] 0%nat 1%nat _ 1 (fun _ => ten (0 / 10)) 0%nat 1 H eq_refl run2 G (or_introl eq_refl) eq_refl ltac:(lra) D0 ltac:(lra) Z)
    as (o & r & n & A1 & A2 & A3 & A4 & A5 & A6 & A7 & _).
  destruct (scaled_spec _ _ lwp _ _ _ 0%nat [true; true] 0%nat 1%nat _ 1 (fun _ => ten (0 / 10)) 1%nat 2 H eq_refl run2 G (or_intror (or_introl eq_refl)) eq_refl ltac:(lra) D1 ltac:(lra) Z)
    as (o' & r' & n' & B1 & B2 & B3 & B4 & B5 & B6 & B7 & _).
  exists z, lwp, [[true; true]], heights, out, o, o', n, n'. repeat (split; [assumption || reflexivity|]).
  intros X. subst n'. cbv beta in A7, B7. rewrite ONE in A7, B7. unfold sum_over in A7, B7. cbn [fold_right] in A7, B7.
  rewrite sqrt_1 in A7, B7. lra.
Qed.
Print Assumptions C132_depths_refuted.

(** Two layers hold twice the measured path. *)
Lemma run101 b : b = 0%nat \/ b = 2%nat -> max_run [true; false; true] b b.
Proof.
  intros H. split; [lia|]. split.
  - intros k A B. assert (k = b) by lia. subst k. destruct H as [-> | ->]; reflexivity.
  - destruct H as [-> | ->]; (split; [auto|]); [left; reflexivity|right; reflexivity].
Qed.
Theorem C132_layers_refuted :
  exists z lwp drop heights out l n d zl, append_der frisch z lwp drop heights = Ok out /\
  nth_error lwp 0 = Some (Some l) /\ 0 < l /\
  (forall g, pixel drop 0 g = Some true <-> In g [0%nat; 2%nat]) /\
  (forall g, In g [0%nat; 2%nat] -> depth heights g (d g) /\
     (exists x, pixel z 0 g = Some (Some x) /\ zl g = ten (x / 10)) /\ exists o, pixel out 0 g = Some o /\ u_n o = Some (n g)) /\
  sum_over (fun g => liquid (n g) (p_sigma frisch) (zl g) * d g) [0%nat; 2%nat] = 2 * l.
Proof.
  set (z := [[Some 0; Some 0; Some 0]] : image (masked R)). set (lwp := [Some 1] : list (masked R)).
  set (heights := [1; 2; 3]). set (drop := [[true; false; true]]). set (zl := fun _ : nat => ten (0 / 10)).
  destruct (append_der_ok frisch z lwp drop heights) as (out & H & _).
  assert (G : forall b, b = 0%nat \/ b = 2%nat -> gates_of z 0 b b [b]).
  { intros b B. split; [constructor; [intros []|constructor]|]. intros k. split.
    - intros [<-|[]]. split; [lia|]. exists 0. destruct B as [-> | ->]; reflexivity.
    - intros [K _]. left. lia. }
  assert (D : forall b, b = 0%nat \/ b = 2%nat -> depth heights b 1).
  { intros b [-> | ->]; [exists 1; split; reflexivity|exists 2, 3; split; [reflexivity|split; [reflexivity|lra]]]. }
  assert (Z : forall b, b = 0%nat \/ b = 2%nat -> exists x, pixel z 0 b = Some (Some x) /\ zl b = ten (x / 10)).
  { intros b [-> | ->]; exists 0; split; reflexivity. }
  assert (U : forall b, b = 0%nat \/ b = 2%nat -> exists o n, pixel out 0 b = Some o /\ u_n o = Some n /\ liquid n (p_sigma frisch) (zl b) * 1 = 1).
  { intros b B.
    assert (Zb : forall k, In k [b] -> exists x, pixel z 0 k = Some (Some x) /\ zl k = ten (x / 10)) by (intros k [<-|[]]; apply Z; exact B).
    destruct (scaled_spec _ _ lwp _ _ _ 0%nat [true; false; true] b b _ 1 zl b 1 H eq_refl (run101 b B) (G b B) (or_introl eq_refl) eq_refl ltac:(lra) (D b B) ltac:(lra) Zb)
      as (o & r & n & A1 & A2 & A3 & A4 & A5 & A6 & A7 & _).
    exists o, n. split; [exact A1|]. split; [exact A3|].
    assert (ONE : zl b = 1) by (unfold zl; replace (0 / 10) with 0 by field; apply ten_0).
    unfold sum_over in A7. cbn [fold_right] in A7. rewrite !ONE, sqrt_1 in A7. rewrite ONE. lra. }
  destruct (U 0%nat (or_introl eq_refl)) as (o & n & O1 & O2 & O3).
  destruct (U 2%nat (or_intror eq_refl)) as (o' & n' & P1 & P2 & P3).
  exists z, lwp, drop, heights, out, 1, (fun g => match g with O => n | _ => n' end), (fun _ => 1), zl.
  split; [exact H|]. split; [reflexivity|]. split; [lra|]. split.
  - intros [|[|[|k]]]; cbn; split; intros X; try discriminate; auto.
    + destruct X as [X|[X|[]]]; discriminate.
    + destruct k; discriminate.
    + destruct X as [X|[X|[]]]; discriminate.
  - split.
    + intros g [<-|[<-|[]]].
      * split; [apply D; auto|]. split; [apply Z; auto|]. exists o. auto.
      * split; [apply D; auto|]. split; [apply Z; auto|]. exists o'. auto.
    + unfold sum_over. cbn [fold_right]. lra.
Qed.
Print Assumptions C132_layers_refuted.

(** Without any uncertainty of the parameters an error of a sixth remains: an uncertainty
    of [ddBZ] decibels is taken for the factor [10 ** (ddBZ / 10)], not for the factor
    less one. *)
Theorem C132_exact_refuted :
  exists p z lwp drop heights out o r, append_der p z lwp drop heights = Ok out /\
  0 < p_n p /\ p_dn p = 0 /\ p_dsigma p = 0 /\ p_ddbz p = 0 /\ p_dq p = 0 /\
  pixel out 0 0 = Some o /\ u_der o = Some r /\ u_error o = Some (r / 6) /\ 0 < r / 6.
Proof.
  set (p := {| p_ddbz := 0; p_n := 200000000; p_dn := 0; p_sigma := 35 / 100; p_dsigma := 0; p_dq := 0 |}).
  assert (N : 0 < p_n p) by (cbn; lra).
  destruct (append_der_ok p [[Some 0]] [Some 1] [[true]] [100]) as (out & H & S).
  destruct (proj2 (S 0%nat 0%nat) (ex_intro _ _ eq_refl)) as (o & O).
  assert (U : u_der o <> None).
  { intros U.
    assert (M : max_run [true] 0 0).
    { split; [lia|]. split; [intros k A B; assert (k = 0%nat) by lia; subst k; reflexivity|]. split; [left; reflexivity|right; reflexivity]. }
    rewrite (append_der_droplet _ _ _ _ _ _ 0 0 0 _ _ _ H eq_refl eq_refl M ltac:(lia)) in O. injection O as <-.
    unfold finished in U. cbn [u_der] in U.
    match type of U with context [gate_droplets _ ?z ?i ?l] =>
      destruct (gate_der p z i l N (ten_pos _)) as (s & E & R0 & _); rewrite E, finish_pos in U by exact R0 end.
    discriminate. }
  destruct (u_der o) as [r|] eqn:E; [|contradiction].
  exists p, [[Some 0]], [Some 1], [[true]], [100], out, o, r. split; [exact H|]. split; [exact N|].
  do 4 (split; [reflexivity|]). split; [exact O|]. split; [exact E|].
  apply (exact_parameters _ _ _ _ _ _ _ _ _ _ N eq_refl eq_refl eq_refl H O E).
Qed.
Print Assumptions C132_exact_refuted.

Example C132_nonvacuous :
  exists out d r, append_der frisch [[None; Some (-20)]] [Some (1 / 10)] [[true; true]] [100; 150] = Ok out /\
  pixel out 0 1 = Some d /\ u_der d = Some r /\ depth [100; 150] 1 50 /\
  gates_of [[None; Some (-20)]] 0 0 1 [1%nat] /\ max_run [true; true] 0 1.
Proof.
  destruct (append_der_ok frisch [[None; Some (-20)]] [Some (1 / 10)] [[true; true]] [100; 150]) as (out & H & S).
  pose proof (append_der_droplet frisch [[None; Some (-20)]] [Some (1 / 10)] [[true; true]] [100; 150] out 0 1 (-20) [true; true] 0 1
    H eq_refl eq_refl run2 ltac:(lia)) as P.
  exists out. eexists.
  match type of P with _ = Some (finished _ (gate_droplets _ ?z ?i ?l)) =>
    destruct (gate_der frisch z i l ltac:(cbn; lra) (ten_pos _)) as (r & E & R0 & _) end.
  exists (r * (1 / 1000)). split; [exact H|]. split; [exact P|]. split.
  - unfold finished. cbn [u_der]. rewrite E. apply finish_pos. exact R0.
  - split; [exists 100, 150; split; [reflexivity|split; [reflexivity|lra]]|]. split; [|apply run2].
    split; [constructor; [intros []|constructor]|]. intros k. split.
    + intros [<-|[]]. split; [lia|]. eexists. reflexivity.
    + intros (K & x & X). destruct k as [|[|k]]; [discriminate|left; reflexivity|lia].
Qed.

(** ** C133 *)

Theorem C133_error lwc lwp err rain i j row v w u gx gy a b :
  (2 <= length lwc)%nat -> (2 <= length row)%nat -> nth_error lwc i = Some row -> nth_error row j = Some (Some v) -> v <> 0 ->
  nth_error rain i = Some false -> nth_error lwp i = Some w -> nth_error err i = Some u ->
  slope (fun k => value_at lwc k j) (length lwc) i gx -> slope (fun k => value_at lwc i k) (length row) j gy ->
  a = Rmin 5 (sqrt (gx * gx + gy * gy) / (2 * v)) ->
  ((w <> 0 /\ b = Rmin 10 (u / w)) \/ (w = 0 /\ b = 0)) ->
  lwc_error lwc lwp err rain i j = Some (sqrt (a * a + b * b)).
Proof.
  intros L W E V N Ra Lw Er A B -> Hb. unfold lwc_error, pixel. rewrite E, V.
  destruct (Req_EM_T v 0); [contradiction|]. rewrite (nth_error_nth _ _ _ Ra), (nth_error_nth _ _ _ Lw), (nth_error_nth _ _ _ Er).
  f_equal. unfold l2.
  assert (J : (j < length row)%nat) by (apply nth_error_Some; congruence).
  rewrite (gradient_iff _ _ _ _ _ _ _ L W E eq_refl J A B).
  unfold lwp_relative_error. rewrite !limit_min.
  replace (sqrt (gx * gx + gy * gy) / v / 2) with (sqrt (gx * gx + gy * gy) / (2 * v)) by (field; exact N).
  destruct (Req_EM_T w 0) as [Z|Z]; destruct Hb as [[Hw ->]|[Hw ->]]; try contradiction; [|reflexivity].
  replace (Rmin 10 0) with 0; [reflexivity|]. unfold Rmin. destruct (Rle_dec 10 0); lra.
Qed.
Print Assumptions C133_error.

Theorem C133_masked lwc lwp err rain i j :
  (forall v, pixel lwc i j = Some (Some v) -> v = 0) \/ nth_error rain i = Some true ->
  lwc_error lwc lwp err rain i j = None.
Proof.
  intros H. unfold lwc_error. destruct (pixel lwc i j) as [[v|]|]; try reflexivity.
  destruct (Req_EM_T v 0) as [|N]; [reflexivity|].
  destruct H as [H|H]; [exfalso; apply N, H; reflexivity|]. rewrite (nth_error_nth _ _ _ H). reflexivity.
Qed.
Print Assumptions C133_masked.

(** The error is at most a factor of [sqrt 125]. *)
Theorem C133_bounds lwc lwp err rain i j e v :
  pixel lwc i j = Some (Some v) -> 0 < v -> Forall (Rle 0) lwp -> Forall (Rle 0) err ->
  lwc_error lwc lwp err rain i j = Some e -> 0 <= e /\ e * e <= 125.
Proof.
  intros P V A B H. unfold lwc_error in H. rewrite P in H. destruct (Req_EM_T v 0); [discriminate|].
  destruct (nth i rain false); [discriminate|]. injection H as <-. unfold l2, lwp_relative_error. rewrite !limit_min.
  assert (C : forall l k, Forall (Rle 0) l -> 0 <= nth k l 0).
  { clear. intros l. induction l as [|x l IH]; intros k F; [destruct k; cbn; lra|].
    inversion F; subst. destruct k; cbn [nth]; [assumption|apply IH; assumption]. }
  set (g := lwc_gradient lwc i j / v / 2).
  assert (G : 0 <= g).
  { unfold g, lwc_gradient, l2, Rdiv. apply Rmult_le_pos; [|lra]. apply Rmult_le_pos; [apply sqrt_pos|].
    apply Rlt_le, Rinv_0_lt_compat. exact V. }
  set (q := if Req_EM_T (nth i lwp 0) 0 then 0 else nth i err 0 / nth i lwp 0).
  assert (Q : 0 <= q).
  { unfold q. destruct (Req_EM_T (nth i lwp 0) 0) as [|N]; [lra|]. pose proof (C lwp i A). pose proof (C err i B).
    apply Rmult_le_pos; [assumption|]. apply Rlt_le, Rinv_0_lt_compat. lra. }
  clearbody g q.
  assert (G' : 0 <= Rmin 5 g <= 5) by (unfold Rmin; destruct (Rle_dec 5 g); lra).
  assert (Q' : 0 <= Rmin 10 q <= 10) by (unfold Rmin; destruct (Rle_dec 10 q); lra).
  split; [apply sqrt_pos|]. rewrite sqrt_sqrt; nra.
Qed.
Print Assumptions C133_bounds.

Example C133_nonvacuous :
  lwc_error [[None; Some 1]; [Some 3; Some 2]] [4; 0] [2; 1] [false; false] 1 0 =
    Some (sqrt (sqrt (3 * 3 + -1 * -1) / (2 * 3) * (sqrt (3 * 3 + -1 * -1) / (2 * 3)) + 0 * 0)).
Proof.
  assert (S : sqrt (3 * 3 + -1 * -1) < 4).
  { replace 4 with (sqrt (4 * 4)) by (apply sqrt_square; lra). apply sqrt_lt_1_alt. lra. }
  assert (E : Rmin 5 (sqrt (3 * 3 + -1 * -1) / (2 * 3)) = sqrt (3 * 3 + -1 * -1) / (2 * 3)).
  { apply Rmin_right. lra. }
  refine (C133_error [[None; Some 1]; [Some 3; Some 2]] [4; 0] [2; 1] [false; false] 1 0 [Some 3; Some 2] 3 0 1 3 (-1) _ 0 _ _ eq_refl eq_refl _ eq_refl eq_refl eq_refl _ _ (eq_sym E) _);
    try (cbn; lia); try lra.
  - split; [cbn; lia|]. split; [cbn; lia|]. right. left. split; [reflexivity|]. cbn. lra.
  - split; [cbn; lia|]. split; [cbn; lia|]. left. split; [reflexivity|]. cbn. lra.
Qed.
