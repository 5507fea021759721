(** Properties of the drizzle product: inputs (C134), derived products (C135), errors (C136). *)
From Coq Require Import Reals Lia Lra.
From Verif Require Import Base DrizzleSpec RetrievalSpec RetrievalProofs
  DrizzleRetrievalModel DrizzleRetrievalSpec DrizzleRetrievalProofs.
Open Scope nat_scope.
Open Scope list_scope.
Open Scope R_scope.
Local Notation length := List.length (only parsing).

(** ** C134 *)

Theorem C134_reflectivity z y :
  convert_z_units z = Some y <-> exists x, z = Some x /\ 0 < y /\ decibels y = Rmin 0 (x - 180).
Proof. apply convert_z_spec. Qed.
Print Assumptions C134_reflectivity.

Theorem C134_width width v_sigma h u v w b y :
  0 <= h -> beam_width h b -> wind u v w -> 0 < w ->
  spectral_width width v_sigma h u v = Some y <->
  exists x s f, (width = Some (Some x) \/ width = None /\ x = 0) /\ v_sigma = Some s /\
    turbulence w b f /\ y = x - f * s.
Proof.
  intros H B W P. unfold spectral_width.
  assert (Q : 0 <= b) by (apply beam_iff in B; rewrite B; unfold beam_divergence; pose proof PI_RGT_0; apply Rmult_le_pos; lra).
  pose proof (fun f => factor_spec h u v w b f W B P Q) as F.
  destruct (v_sigma_factor h u v) as [f|] eqn:E.
  - assert (T : turbulence w b f) by (apply F; reflexivity).
    split.
    + destruct width as [[x|]|]; destruct v_sigma as [s|]; intros X; try discriminate; injection X as <-.
      * exists x, s, f. auto.
      * exists 0, s, f. auto.
    + intros (x & s & f' & X & -> & T' & ->). apply F in T'. injection T' as <-.
      destruct X as [->|[-> ->]]; reflexivity.
  - split.
    + destruct width as [[x|]|]; discriminate.
    + intros (x & s & f' & _ & _ & T' & _). apply F in T'. discriminate.
Qed.
Print Assumptions C134_width.

(** The correction makes the width smaller. *)
Theorem C134_narrower x s h u v y :
  0 <= h -> u <> 0 \/ v <> 0 -> 0 < s -> spectral_width (Some (Some x)) (Some s) h u v = Some y -> y < x.
Proof.
  intros H N S E.
  assert (W : wind u v (RetrievalModel.l2 u v)) by (apply wind_l2; reflexivity).
  assert (P : 0 < RetrievalModel.l2 u v).
  { unfold RetrievalModel.l2. apply sqrt_lt_R0. pose proof (Rle_0_sqr u). pose proof (Rle_0_sqr v).
    destruct N as [N|N]; pose proof (Rlt_0_sqr _ N); unfold Rsqr in *; lra. }
  apply (C134_width _ _ h u v _ (beam_divergence h) y H (proj2 (beam_iff h _) eq_refl) W P) in E.
  destruct E as (x' & s' & f & X & Y & (F & _) & ->). injection Y as <-. destruct X as [X|[X _]]; [|discriminate].
  injection X as <-. pose proof (Rmult_lt_0_compat f s F S). lra.
Qed.
Print Assumptions C134_narrower.

(** In calm air there is no width, so no table entry can be chosen by it. *)
Theorem C134_calm_refuted : exists x s h, 0 < x /\ 0 < s /\ 0 < h /\
  spectral_width (Some (Some x)) (Some s) h 0 0 = None.
Proof.
  exists 1, 1, 100. repeat split; try lra. unfold spectral_width. rewrite factor_calm. reflexivity.
Qed.
Print Assumptions C134_calm_refuted.

Theorem C134_diameter g beta z mu ray k :
  gamma_law g -> -3 < mu -> 0 < beta -> 0 < z -> 0 < ray -> 0 < k ->
  let d := calc_dia g (beta_z_ratio beta z) mu ray k in
  0 < d /\
  ray * k * (2 * beta) * (d ^ 4 * ((3 + mu) * (4 + mu) * (5 + mu) * (6 + mu))) = (367 / 100 + mu) ^ 4 * (PI * z).
Proof.
  intros G M B Z Ra K d. pose proof PI_RGT_0 as Pi.
  assert (Q : 0 < beta_z_ratio beta z).
  { unfold beta_z_ratio. apply Rdiv_lt_0_compat; [|exact Z]. apply Rmult_lt_0_compat; [|exact B]. apply Rdiv_lt_0_compat; lra. }
  destruct (dia_spec g (beta_z_ratio beta z) mu ray k G M) as [P E].
  { apply Rmult_lt_0_compat; [apply Rmult_lt_0_compat; assumption|exact Q]. }
  split; [exact P|]. fold d in E. rewrite <- E. unfold beta_z_ratio. field. split; lra.
Qed.
Print Assumptions C134_diameter.

(** More backscatter at the same reflectivity means smaller drops. *)
Theorem C134_smaller g beta beta' z mu ray k :
  gamma_law g -> -3 < mu -> 0 < beta < beta' -> 0 < z -> 0 < ray -> 0 < k ->
  calc_dia g (beta_z_ratio beta' z) mu ray k < calc_dia g (beta_z_ratio beta z) mu ray k.
Proof.
  intros G M [B B'] Z Ra K.
  destruct (C134_diameter g beta z mu ray k G M B Z Ra K) as [P E].
  destruct (C134_diameter g beta' z mu ray k G M ltac:(lra) Z Ra K) as [P' E'].
  set (d := calc_dia g (beta_z_ratio beta z) mu ray k) in *. set (d' := calc_dia g (beta_z_ratio beta' z) mu ray k) in *.
  clearbody d d'.
  assert (Q : 0 < (3 + mu) * (4 + mu) * (5 + mu) * (6 + mu)) by (repeat apply Rmult_lt_0_compat; lra).
  set (q := (3 + mu) * (4 + mu) * (5 + mu) * (6 + mu)) in *. clearbody q.
  assert (C : 0 < ray * k * 2 * q) by (repeat apply Rmult_lt_0_compat; lra).
  assert (X : beta * d ^ 4 = beta' * d' ^ 4).
  { apply (Rmult_eq_reg_l (ray * k * 2 * q)); [|lra]. rewrite <- E' in E.
    replace (ray * k * 2 * q * (beta * d ^ 4)) with (ray * k * (2 * beta) * (d ^ 4 * q)) by ring.
    replace (ray * k * 2 * q * (beta' * d' ^ 4)) with (ray * k * (2 * beta') * (d' ^ 4 * q)) by ring. exact E. }
  destruct (Rlt_le_dec d' d) as [L|L]; [exact L|]. exfalso.
  assert (Y : d ^ 4 <= d' ^ 4) by (apply pow_incr; lra). assert (0 < d ^ 4) by (apply pow_lt; exact P).
  assert (beta * d ^ 4 < beta' * d ^ 4) by (apply Rmult_lt_compat_r; assumption).
  assert (beta' * d ^ 4 <= beta' * d' ^ 4) by (apply Rmult_le_compat_l; lra). lra.
Qed.
Print Assumptions C134_smaller.

Example C134_nonvacuous :
  gamma_law some_gamma /\ wind 3 4 5 /\ beam_width 360 PI /\
  calc_dia some_gamma (beta_z_ratio (2 * PI) 5) 0 1 1 < calc_dia some_gamma (beta_z_ratio PI 5) 0 1 1 /\
  exists f, turbulence 5 PI f.
Proof.
  pose proof PI_RGT_0 as Pi.
  assert (W : wind 3 4 5) by (split; lra). assert (B : beam_width 360 PI) by (unfold beam_width; ring).
  split; [apply some_gamma_law|]. split; [exact W|]. split; [exact B|]. split.
  - apply C134_smaller; try lra. apply some_gamma_law.
  - destruct (v_sigma_factor 360 3 4) as [f|] eqn:E.
    + exists f. apply (factor_spec 360 3 4 5 PI f W B); try lra. exact E.
    + exfalso. unfold v_sigma_factor in E. apply wind_l2 in W. apply beam_iff in B. rewrite <- W, <- B in E.
      destruct (Req_EM_T _ 0) as [Z|]; [|discriminate].
      pose proof (two_thirds_lt (5 + PI) (30 * 5 + PI) ltac:(lra) ltac:(lra)). lra.
Qed.

(** ** C135 *)

Definition table_of (lut : mie_table) : Prop := tabulated (m_mu lut) (m_do lut) (m_lwf lut) (m_v lut) (m_termv lut).

(** Drizzle is retrieved whatever the table holds. *)
Theorem C135_total g lut x : table_of lut -> exists y, derive g lut x = Ok y.
Proof.
  intros T. destruct (Req_dec (d_do x) 0) as [Z|N]; [destruct (derive_none g lut x Z) as (y & E & _); eauto|].
  destruct (derive_entries g lut x T N) as (i & j & flux & term & v & I & J & F & Te & V).
  rewrite (derive_spec g lut x i j flux term v T N I J F Te V). eauto.
Qed.
Print Assumptions C135_total.

Theorem C135_number g lut x y rain n :
  table_of lut -> derive g lut x = Ok y ->
  stored rain (v_n y) = Some n <->
  rain = false /\ d_do x <> 0 /\ n <> 0 /\ exists z, d_z x = Some z /\ n * d_do x ^ 6 = z * (367 / 100) ^ 6.
Proof.
  intros T E. destruct (Req_dec (d_do x) 0) as [Z|N].
  - destruct (derive_none g lut x Z) as (y' & E' & H & _). assert (y' = y) by congruence. subst y'.
    split; [|intros (_ & X & _); contradiction]. intros X. apply stored_spec in X. destruct X as (-> & X & K).
    rewrite (proj2 (stored_spec false (v_n y) n) (conj eq_refl (conj X K))) in H. discriminate.
  - destruct (derive_entries g lut x T N) as (i & j & flux & term & v & I & J & F & Te & V).
    rewrite (derive_spec g lut x i j flux term v T N I J F Te V) in E.
    apply (f_equal (fun r => match r with Ok y => v_n y | Raise _ => None end)) in E. cbn [v_n] in E.
    rewrite <- E, stored_spec. clear E. pose proof (pow_nonzero _ 6 N) as D. set (d6 := d_do x ^ 6) in *. clearbody d6.
    set (c := (367 / 100) ^ 6). clearbody c. split.
    + intros (-> & X & K). destruct (d_z x) as [z|]; [|discriminate]. cbn [option_map] in X. injection X as <-.
      repeat split; try assumption. exists z. split; [reflexivity|]. field. exact D.
    + intros (-> & _ & K & z & -> & X). split; [reflexivity|]. split; [|exact K]. cbn [option_map]. f_equal.
      rewrite <- X. field. exact D.
Qed.
Print Assumptions C135_number.

Theorem C135_content g lut x y rain w :
  table_of lut -> gamma_law g -> -3 < d_mu x -> derive g lut x = Ok y ->
  stored rain (v_lwc y) = Some w <->
  rain = false /\ w <> 0 /\ exists b, d_beta x = Some b /\
    3 * (w * (367 / 100 + d_mu x)) = 1000 * b * d_s x * d_do x * (3 + d_mu x).
Proof.
  intros T G M E.
  assert (V : v_lwc y = drizzle_lwc g x).
  { destruct (Req_dec (d_do x) 0) as [Z|N].
    - unfold derive in E. destruct (Req_EM_T (d_do x) 0); [|contradiction]. injection E as <-. reflexivity.
    - destruct (derive_entries g lut x T N) as (i & j & flux & term & v & I & J & F & Te & V).
      rewrite (derive_spec g lut x i j flux term v T N I J F Te V) in E. injection E as <-. reflexivity. }
  rewrite V, (lwc_gamma g x G M), stored_spec. split.
  - intros (-> & X & K). destruct (d_beta x) as [b|]; [|discriminate]. cbn [option_map] in X. injection X as <-.
    repeat split; try assumption. exists b. split; [reflexivity|]. field. lra.
  - intros (-> & K & b & -> & X). split; [reflexivity|]. split; [|exact K]. cbn [option_map]. f_equal.
    apply (Rmult_eq_reg_l (3 * (367 / 100 + d_mu x))); [|lra].
    replace (3 * (367 / 100 + d_mu x) * w) with (3 * (w * (367 / 100 + d_mu x))) by ring. rewrite X. field. lra.
Qed.
Print Assumptions C135_content.

(** Flux and velocities come from the same entry of the tables. *)
Theorem C135_tables g lut x y i j flux term v :
  table_of lut -> d_do x <> 0 -> derive g lut x = Ok y ->
  entry (m_mu lut) (d_mu x) i -> entry (m_do lut) (d_do x) j ->
  pixel (m_lwf lut) i j = Some flux -> nth_error (m_termv lut) j = Some term -> pixel (m_v lut) i j = Some v ->
  v_lwf y = option_map (fun w => w * flux * term) (v_lwc y) /\ v_drizzle y = - v /\ v_air y + v_drizzle y = d_v x.
Proof.
  intros T N E I J F Te V. rewrite (derive_spec g lut x i j flux term v T N I J F Te V) in E. injection E as <-.
  cbn [v_lwf v_lwc v_drizzle v_air]. repeat split.
  - destruct (drizzle_lwc g x); cbn [option_map]; [f_equal; ring|reflexivity].
  - ring.
Qed.
Print Assumptions C135_tables.

Theorem C135_none g lut x y :
  d_do x = 0 -> derive g lut x = Ok y ->
  stored false (v_n y) = None /\ stored false (v_lwc y) = None /\ stored false (v_lwf y) = None /\
  stored false (Some (v_drizzle y)) = None /\ stored false (Some (v_air y)) = None.
Proof. intros Z E. destruct (derive_none g lut x Z) as (y' & E' & H). assert (y' = y) by congruence. subst. exact H. Qed.
Print Assumptions C135_none.

Theorem C135_rain x : stored true x = None.
Proof. unfold stored. destruct (Req_EM_T 0 0); [reflexivity|lra]. Qed.
Print Assumptions C135_rain.

Definition one_entry : mie_table := {| m_do := [1]; m_mu := [0]; m_lwf := [[2]]; m_termv := [3]; m_v := [[4]] |}.
Lemma one_entry_table : table_of one_entry.
Proof.
  assert (A : forall c : R, ascending [c]).
  { intros c i j a b L X Y. destruct i as [|i]; [destruct j as [|j]; [lia|destruct j; discriminate]|destruct i; discriminate]. }
  split; [apply A|]. split; [apply A|]. split; [discriminate|]. split; [discriminate|].
  split; [split; [reflexivity|repeat constructor]|]. split; [split; [reflexivity|repeat constructor]|reflexivity].
Qed.
Definition one_drop : drizzle_pixel := {| d_do := 1; d_mu := 0; d_s := 10; d_z := Some 1; d_beta := Some 1; d_v := -4 |}.
Lemma one_drop_entries : entry (m_mu one_entry) (d_mu one_drop) 0 /\ entry (m_do one_entry) (d_do one_drop) 0.
Proof. split; (split; [cbn; lia|split; [intros; lia|left; reflexivity]]). Qed.

(** By the comments of the file the velocity (positive upwards) is the velocity of the air
    (positive upwards) less that of the drops (positive downwards).  It never is. *)
Theorem C135_signs_refuted : exists g lut x y, table_of lut /\ gamma_law g /\ d_do x <> 0 /\ derive g lut x = Ok y /\
  d_v x <> v_air y - v_drizzle y.
Proof.
  destruct (C135_total some_gamma one_entry one_drop one_entry_table) as (y & E).
  exists some_gamma, one_entry, one_drop, y. split; [apply one_entry_table|]. split; [apply some_gamma_law|].
  assert (N : d_do one_drop <> 0) by (cbn; lra). split; [exact N|]. split; [exact E|].
  destruct one_drop_entries as [I J].
  destruct (C135_tables some_gamma one_entry one_drop y 0 0 2 3 4 one_entry_table N E I J eq_refl eq_refl eq_refl) as (_ & A & B).
  cbn [d_v one_drop] in *. lra.
Qed.
Print Assumptions C135_signs_refuted.

(** Air at rest is stored as no value, and so is a drop spectrum of the shape zero. *)
Theorem C135_zero_refuted : exists g lut x y, table_of lut /\ gamma_law g /\ d_do x <> 0 /\ derive g lut x = Ok y /\
  v_air y = 0 /\ stored false (Some (v_air y)) = None /\ d_mu x = 0 /\ stored false (Some (d_mu x)) = None /\
  stored false (v_n y) <> None.
Proof.
  destruct (C135_total some_gamma one_entry one_drop one_entry_table) as (y & E).
  exists some_gamma, one_entry, one_drop, y. split; [apply one_entry_table|]. split; [apply some_gamma_law|].
  assert (N : d_do one_drop <> 0) by (cbn; lra). split; [exact N|]. split; [exact E|].
  destruct one_drop_entries as [I J].
  destruct (C135_tables some_gamma one_entry one_drop y 0 0 2 3 4 one_entry_table N E I J eq_refl eq_refl eq_refl) as (_ & A & B).
  cbn [d_v one_drop] in *. assert (Z : v_air y = 0) by lra. rewrite Z. split; [reflexivity|].
  assert (S : stored false (Some 0) = None) by (unfold stored; destruct (Req_EM_T 0 0); [reflexivity|lra]).
  split; [exact S|]. split; [reflexivity|]. split; [exact S|].
  assert (P : (367 / 100) ^ 6 <> 0) by (apply pow_nonzero; lra).
  intros X. rewrite (proj2 (C135_number some_gamma one_entry one_drop y false ((367 / 100) ^ 6) one_entry_table E)) in X; [discriminate|].
  split; [reflexivity|]. split; [exact N|]. split; [exact P|]. exists 1. split; [reflexivity|]. cbn [d_do one_drop].
  rewrite pow1. ring.
Qed.
Print Assumptions C135_zero_refuted.

Example C135_nonvacuous : table_of one_entry /\ gamma_law some_gamma /\ d_do one_drop <> 0 /\ -3 < d_mu one_drop /\
  exists y, derive some_gamma one_entry one_drop = Ok y /\ stored false (v_lwc y) = Some (1000000 / 367) /\
    v_lwf y = option_map (fun w => w * 2 * 3) (v_lwc y).
Proof.
  assert (N : d_do one_drop <> 0) by (cbn; lra). assert (M : -3 < d_mu one_drop) by (cbn; lra).
  split; [apply one_entry_table|]. split; [apply some_gamma_law|]. split; [exact N|]. split; [exact M|].
  destruct (C135_total some_gamma one_entry one_drop one_entry_table) as (y & E). exists y. split; [exact E|].
  destruct one_drop_entries as [I J].
  split.
  - apply (C135_content some_gamma one_entry one_drop y false _ one_entry_table some_gamma_law M E).
    split; [reflexivity|]. split; [lra|]. exists 1. split; [reflexivity|]. cbn [d_mu d_s d_do one_drop]. field.
  - apply (C135_tables some_gamma one_entry one_drop y 0 0 2 3 4 one_entry_table N E I J eq_refl eq_refl eq_refl).
Qed.

(** ** C136 *)

Definition stored_error (q : quantity) (x : drizzle_errors) : R :=
  match q with Diameter => x_do x | Content => x_lwc x | Flux => x_lwf x | Extinction => x_s x end.

Theorem C136_error dia s q z b e :
  size_of dia s -> q <> Diameter \/ s <> Tiny -> error_of q s z b e ->
  stored_error q (get_errors dia z b) = reported e.
Proof.
  intros S N E. pose proof (raw_spec q s dia z b e S E) as X.
  assert (P : 0 <= e) by (destruct E as (? & ? & ? & ? & _ & P & _); exact P).
  destruct q; cbn [stored_error get_errors x_do x_lwc x_lwf x_s raw] in *; rewrite !to_lin.
  - rewrite (v_error_spec dia s z b e S E). destruct s; try (apply to_db; exact P). destruct N; contradiction.
  - rewrite X. apply to_db. exact P.
  - rewrite X. apply to_db. exact P.
  - rewrite X. apply to_db. exact P.
Qed.
Print Assumptions C136_error.

Theorem C136_velocity dia s z b e :
  size_of dia s -> error_of Diameter s z b e ->
  x_v (get_errors dia z b) = reported (match s with Tiny => e * e | _ => e end).
Proof.
  intros S E. assert (P : 0 <= e) by (destruct E as (? & ? & ? & ? & _ & P & _); exact P).
  cbn [get_errors x_v]. rewrite !to_lin, (v_error_spec dia s z b e S E). apply to_db. destruct s; try exact P.
  apply Rmult_le_pos; exact P.
Qed.
Print Assumptions C136_velocity.

(** The error of the number takes the relative error of the diameter for decibels. *)
Theorem C136_number dia s z b e n :
  size_of dia s -> error_of Diameter s z b e -> combined (relative z) (6 * relative e) 0 n ->
  x_n (get_errors dia z b) = reported n.
Proof.
  intros S E C. cbn [get_errors x_n]. rewrite !to_lin. unfold n_error. rewrite (stack_size _ _ _ _ _ S).
  pose proof (raw_spec Diameter s dia z b e S E) as X. cbn [raw] in X. rewrite X, to_lin.
  destruct (l2_combined (relative z) (6 * relative e)) as [A B]. destruct C as [P C].
  assert (Y : RetrievalModel.l2 (relative z) (6 * relative e) = n) by (apply square_inj; try assumption; rewrite B, C; ring).
  rewrite Y. destruct s; apply to_db; exact P.
Qed.
Print Assumptions C136_number.

Theorem C136_none dia z b :
  dia <= 0 -> (forall q, stored_error q (get_errors dia z b) = 0) /\ x_n (get_errors dia z b) = 0 /\ x_v (get_errors dia z b) = 0.
Proof.
  intros H.
  assert (Z : lin_to_db 0 = 0).
  { rewrite to_db by lra. unfold reported, decibels. rewrite Rplus_0_r, ln_1. field. pose proof ln10_pos. lra. }
  assert (D : forall z b, do_error dia z b = 0) by (intros; apply stack_none; exact H).
  assert (V : forall z b, v_error dia z b = 0).
  { intros. unfold v_error. rewrite D. unfold assign. destruct (is_tiny dia); ring. }
  split; [intros q; destruct q; cbn [stored_error get_errors x_do x_lwc x_lwf x_s]|split; cbn [get_errors x_n x_v]].
  - rewrite V. exact Z.
  - unfold lwc_drizzle_error. rewrite stack_none by exact H. exact Z.
  - unfold lwf_error. rewrite stack_none by exact H. exact Z.
  - unfold s_error. rewrite stack_none by exact H. exact Z.
  - unfold n_error. rewrite stack_none by exact H. exact Z.
  - rewrite V. exact Z.
Qed.
Print Assumptions C136_none.

(** Larger errors of reflectivity and backscatter make no error smaller. *)
Theorem C136_monotone dia q z b z' b' :
  0 < dia -> 0 <= z <= z' -> 0 <= b <= b' ->
  stored_error q (get_errors dia z b) <= stored_error q (get_errors dia z' b').
Proof.
  intros D Z B.
  assert (S : exists s, size_of dia s).
  { destruct (Rlt_le_dec (1 / 10000) dia); [exists Large; assumption|].
    destruct (Rlt_le_dec (1 / 100000) dia); [exists Small; split; assumption|exists Tiny; split; assumption]. }
  destruct S as (s & S). destruct (error_exists q s z b) as (e & E). destruct (error_exists q s z' b') as (e' & E').
  assert (P : 0 <= e) by (destruct E as (? & ? & ? & ? & _ & P & _); exact P).
  assert (P' : 0 <= e') by (destruct E' as (? & ? & ? & ? & _ & P' & _); exact P').
  assert (L : e <= e').
  { destruct E as (sc & wz & wb & mu & La & _ & E). destruct E' as (sc' & wz' & wb' & mu' & La' & _ & E').
    assert (M : forall x y, 0 <= x <= y -> 0 <= relative x <= relative y).
    { intros x y [X Y]. split; [apply relative_pos; exact X|]. unfold relative. unfold Rminus. apply Rplus_le_compat_r.
      assert (K : Rmin 100 x <= Rmin 100 y) by (unfold Rmin; destruct (Rle_dec 100 x), (Rle_dec 100 y); lra).
      destruct (Req_dec (Rmin 100 x) (Rmin 100 y)) as [->|]; [lra|]. apply Rlt_le, ten_lt. lra. }
    pose proof (M z z' Z) as MZ. pose proof (M b b' B) as MB.
    assert (Same : sc = sc' /\ wz = wz' /\ wb = wb' /\ mu = mu') by (inversion La; subst; inversion La'; subst; auto).
    destruct Same as (<- & <- & <- & <-).
    assert (Pos : 0 <= sc * wz /\ 0 <= sc * wb) by (inversion La; lra). destruct Pos as [Q1 Q2].
    assert (Sq : forall c x y, 0 <= c -> 0 <= x <= y -> (c * x) * (c * x) <= (c * y) * (c * y)).
    { clear. intros c x y C [X Y]. apply Rmult_le_compat; try (apply Rmult_le_pos; assumption); apply Rmult_le_compat_l; assumption. }
    pose proof (Sq _ _ _ Q1 MZ). pose proof (Sq _ _ _ Q2 MB).
    destruct (Rle_lt_dec e e') as [|G]; [assumption|]. exfalso.
    assert (e' * e' < e * e) by (apply Rmult_le_0_lt_compat; lra). lra. }
  assert (R : forall x y, 0 <= x <= y -> reported x <= reported y).
  { clear. intros x y [X Y]. unfold reported, decibels. destruct (Req_dec x y) as [->|N]; [lra|].
    pose proof ln10_pos. pose proof (ln_increasing (1 + x) (1 + y) ltac:(lra) ltac:(lra)).
    apply Rmult_le_compat_l; [lra|]. apply Rmult_le_compat_r; [|lra]. apply Rlt_le, Rinv_0_lt_compat. assumption. }
  assert (C : (q = Diameter /\ s = Tiny) \/ (q <> Diameter \/ s <> Tiny)).
  { destruct q; try (right; left; discriminate). destruct s; try (right; right; discriminate). left. auto. }
  destruct C as [[-> ->]|C].
  - change (x_v (get_errors dia z b) <= x_v (get_errors dia z' b')).
    rewrite (C136_velocity dia Tiny z b e S E), (C136_velocity dia Tiny z' b' e' S E'). apply R.
    split; [apply Rmult_le_pos; exact P|apply Rmult_le_compat; assumption].
  - rewrite (C136_error dia s q z b e S C E), (C136_error dia s q z' b' e' S C E'). apply R. auto.
Qed.
Print Assumptions C136_monotone.

Theorem C136_biases z b e w f n :
  combined (2 / 7 * relative z) (2 / 7 * relative b) 0 e ->
  combined (1 / 7 * relative z) (6 / 7 * relative b) 0 w ->
  combined (3 / 7 * relative z) (4 / 7 * relative b) 0 f ->
  combined (relative z) (6 * relative e) 0 n ->
  y_do (get_biases z b) = reported e /\ y_v (get_biases z b) = reported e /\ y_lwc (get_biases z b) = reported w /\
  y_lwf (get_biases z b) = reported f /\ y_n (get_biases z b) = reported n.
Proof.
  intros E W F N. cbn [get_biases y_do y_v y_lwc y_lwf y_n]. rewrite !to_lin.
  assert (E1 : weighted (2 / 7) 1 1 (relative z) (relative b) = e).
  { apply weighted_combined; [lra|]. destruct E as [P E]. split; [exact P|]. rewrite E. ring. }
  assert (W1 : weighted (1 / 7) 1 6 (relative z) (relative b) = w).
  { apply weighted_combined; [lra|]. destruct W as [P W]. split; [exact P|]. rewrite W. field. }
  assert (F1 : weighted (1 / 7) 3 4 (relative z) (relative b) = f).
  { apply weighted_combined; [lra|]. destruct F as [P F]. split; [exact P|]. rewrite F. field. }
  rewrite E1, W1, F1.
  assert (N1 : weighted 1 1 6 (relative z) (relative e) = n).
  { apply weighted_combined; [lra|]. destruct N as [P N]. split; [exact P|]. rewrite N. ring. }
  rewrite N1. rewrite !to_db; auto; [apply N|apply F|apply W|apply E].
Qed.
Print Assumptions C136_biases.

Theorem C136_shape dia z b : x_mu (get_errors dia z b) = reported (7 / 100).
Proof. cbn [get_errors x_mu]. apply to_db. unfold MU_ERROR. lra. Qed.
Print Assumptions C136_shape.

Lemma reported_inj x y : 0 <= x -> 0 <= y -> reported x = reported y -> x = y.
Proof. intros X Y E. apply decibels_inj in E; lra. Qed.
Lemma certain s : error_law Diameter s (2 / 7) 1 1 (7 / 100) -> error_of Diameter s 0 0 (7 / 100).
Proof.
  intros L. exists (2 / 7), 1, 1, (7 / 100). split; [exact L|]. split; [lra|].
  unfold relative. rewrite (Rmin_right 100 0) by lra. replace (0 / 10) with 0 by field. rewrite ten_0. ring.
Qed.

(** The smallest drops: the error of the velocity overwrites that of the diameter. *)
Theorem C136_tiny_refuted : exists dia z b e,
  size_of dia Tiny /\ error_of Diameter Tiny z b e /\ x_do (get_errors dia z b) <> reported e.
Proof.
  assert (S : size_of (1 / 100000) Tiny) by (cbn; lra).
  exists (1 / 100000), 0, 0, (7 / 100). pose proof (certain Tiny dia_tiny) as E. split; [exact S|]. split; [exact E|].
  change (x_do (get_errors (1 / 100000) 0 0)) with (x_v (get_errors (1 / 100000) 0 0)).
  rewrite (C136_velocity _ Tiny 0 0 _ S E). intros X. apply reported_inj in X; lra.
Qed.
Print Assumptions C136_tiny_refuted.

(** The number density is reflectivity over the sixth power of the diameter, so its
    relative error has six times that of the diameter; the file has less. *)
Theorem C136_number_refuted : exists dia z b e n,
  size_of dia Large /\ error_of Diameter Large z b e /\ combined (relative z) (6 * e) 0 n /\
  x_n (get_errors dia z b) < reported n.
Proof.
  assert (S : size_of 1 Large) by (cbn; lra). pose proof (certain Large dia_large) as E.
  exists 1, 0, 0, (7 / 100), (6 * (7 / 100)). split; [exact S|]. split; [exact E|].
  assert (Z : relative 0 = 0).
  { unfold relative. rewrite (Rmin_right 100 0) by lra. replace (0 / 10) with 0 by field. rewrite ten_0. ring. }
  split; [split; [lra|rewrite Z; ring]|].
  assert (P : 0 <= relative (7 / 100)) by (apply relative_pos; lra).
  assert (L : relative (7 / 100) < 7 / 100).
  { unfold relative. rewrite Rmin_right by lra. set (t := ten (7 / 100 / 10)).
    destruct (Rlt_le_dec t (1 + 7 / 100)) as [|G]; [lra|]. exfalso.
    assert (T : t ^ 142 < 10).
    { unfold t, ten. rewrite <- Rpower_pow by apply exp_pos. rewrite Rpower_mult.
      rewrite <- (Rpower_1 10) at 3 by lra. apply Rpower_lt; [lra|]. rewrite INR_IZR_INZ. cbn [Z.of_nat]. cbn. lra. }
    pose proof (poly 142 (7 / 100) ltac:(lra)) as B. rewrite INR_IZR_INZ in B. cbn in B.
    assert (C : (1 + 7 / 100) ^ 142 <= t ^ 142) by (apply pow_incr; lra).
    clearbody t. change (Z.of_nat 142) with 142%Z in *. lra. }
  rewrite (C136_number 1 Large 0 0 (7 / 100) (6 * relative (7 / 100)) S E).
  - unfold reported, decibels. pose proof ln10_pos.
    pose proof (ln_increasing (1 + 6 * relative (7 / 100)) (1 + 6 * (7 / 100)) ltac:(lra) ltac:(lra)).
    apply Rmult_lt_compat_l; [lra|]. apply Rmult_lt_compat_r; [|assumption]. apply Rinv_0_lt_compat. assumption.
  - split; [lra|]. rewrite Z. ring.
Qed.
Print Assumptions C136_number_refuted.

Example C136_nonvacuous : exists e, size_of (1 / 1000) Large /\ error_of Flux Large 1 3 e /\
  x_lwf (get_errors (1 / 1000) 1 3) = reported e /\ error_of Diameter Large 0 0 (7 / 100) /\
  x_do (get_errors (1 / 1000) 0 0) = reported (7 / 100).
Proof.
  assert (S : size_of (1 / 1000) Large) by (cbn; lra). destruct (error_exists Flux Large 1 3) as (e & E).
  exists e. split; [exact S|]. split; [exact E|]. split; [apply (C136_error _ Large Flux); [exact S|left; discriminate|exact E]|].
  pose proof (certain Large dia_large) as D. split; [exact D|]. apply (C136_error _ Large Diameter 0 0); [exact S|right; discriminate|exact D].
Qed.
