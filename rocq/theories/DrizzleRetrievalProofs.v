(** Proofs about the drizzle product. *)
From Coq Require Import Reals Lia Lra.
From Verif Require Import Base DrizzleModel DrizzleSpec DrizzleProofs RetrievalModel RetrievalSpec RetrievalProofs
  DrizzleRetrievalModel DrizzleRetrievalSpec.
Open Scope nat_scope.
Open Scope list_scope.
Open Scope R_scope.
Local Notation length := List.length (only parsing).

(** ** Inputs *)

Lemma decibels_ten x : decibels (ten x) = 10 * x.
Proof. unfold decibels, ten, Rpower. rewrite ln_exp. pose proof ln10_pos. field. lra. Qed.

Lemma ten_decibels x : 0 < x -> ten (decibels x / 10) = x.
Proof.
  intros H. unfold decibels, ten, Rpower. pose proof ln10_pos.
  replace (10 * (ln x / ln 10) / 10 * ln 10) with (ln x) by (field; lra). apply exp_ln. exact H.
Qed.

Lemma decibels_inj x y : 0 < x -> 0 < y -> decibels x = decibels y -> x = y.
Proof. intros A B E. rewrite <- (ten_decibels x A), <- (ten_decibels y B), E. reflexivity. Qed.

Lemma convert_z_spec z y :
  convert_z_units z = Some y <-> exists x, z = Some x /\ 0 < y /\ decibels y = Rmin 0 (x - 180).
Proof.
  unfold convert_z_units. destruct z as [x|]; cbn [option_map].
  - assert (M : (if Rlt_dec 0 (x - 180) then 0 else x - 180) = Rmin 0 (x - 180)).
    { unfold Rmin. destruct (Rlt_dec 0 (x - 180)), (Rle_dec 0 (x - 180)); lra. }
    cbv zeta. rewrite M. change (exp10 (Rmin 0 (x - 180) / 10)) with (ten (Rmin 0 (x - 180) / 10)).
    split.
    + intros E. injection E as <-. exists x. split; [reflexivity|]. split; [apply ten_pos|]. rewrite decibels_ten. field.
    + intros (x' & E & P & D). injection E as <-. f_equal. rewrite <- D. apply ten_decibels. exact P.
  - split; [discriminate|intros (x & E & _); discriminate].
Qed.

Lemma two_thirds_pos x : 0 < x -> 0 < two_thirds x.
Proof. intros H. unfold two_thirds. destruct (Req_EM_T x 0); [lra|apply exp_pos]. Qed.

Lemma two_thirds_cube x : 0 < x -> two_thirds x ^ 3 = x ^ 2.
Proof.
  intros H. unfold two_thirds. destruct (Req_EM_T x 0); [lra|]. rewrite exp_pow.
  replace (INR 3 * (ln x * (2 / 3))) with (ln x + ln x) by (cbn [INR]; field).
  rewrite exp_plus, exp_ln by exact H. ring.
Qed.

Lemma two_thirds_lt x y : 0 < x -> x < y -> two_thirds x < two_thirds y.
Proof.
  intros H L. unfold two_thirds. destruct (Req_EM_T x 0); [lra|]. destruct (Req_EM_T y 0); [lra|].
  apply exp_increasing. pose proof (ln_increasing x y H L). lra.
Qed.

Lemma wind_l2 u v w : wind u v w <-> w = l2 u v.
Proof.
  unfold wind, l2. assert (0 <= u * u + v * v) by (pose proof (Rle_0_sqr u); pose proof (Rle_0_sqr v); unfold Rsqr in *; lra).
  split.
  - intros [A B]. rewrite <- B. symmetry. apply sqrt_square. exact A.
  - intros ->. split; [apply sqrt_pos|]. apply sqrt_sqrt. assumption.
Qed.

Lemma beam_iff h b : beam_width h b <-> b = beam_divergence h.
Proof. unfold beam_width, beam_divergence. split; intros E; [|rewrite E]; lra. Qed.

Lemma pow3_inj a b : 0 < a -> 0 < b -> a ^ 3 = b ^ 3 -> a = b.
Proof.
  intros A B E. destruct (Rtotal_order a b) as [L|[L|L]]; [|exact L|]; exfalso.
  - assert (a * a < b * b) by (apply Rmult_le_0_lt_compat; lra).
    assert (a * a * a < b * b * b) by (apply Rmult_le_0_lt_compat; try lra; apply Rlt_le, Rmult_lt_0_compat; lra). nra.
  - assert (b * b < a * a) by (apply Rmult_le_0_lt_compat; lra).
    assert (b * b * b < a * a * a) by (apply Rmult_le_0_lt_compat; try lra; apply Rlt_le, Rmult_lt_0_compat; lra). nra.
Qed.

Lemma factor_spec h u v w b f :
  wind u v w -> beam_width h b -> 0 < w -> 0 <= b ->
  v_sigma_factor h u v = Some f <-> turbulence w b f.
Proof.
  intros W B P Q. apply wind_l2 in W. apply beam_iff in B. unfold v_sigma_factor. rewrite <- W, <- B.
  pose proof (two_thirds_lt (w + b) (30 * w + b) ltac:(lra) ltac:(lra)) as L.
  pose proof (two_thirds_pos (w + b) ltac:(lra)) as A0.
  pose proof (two_thirds_cube (w + b) ltac:(lra)) as A3. pose proof (two_thirds_cube (30 * w + b) ltac:(lra)) as S3.
  set (a := two_thirds (w + b)) in *. set (s := two_thirds (30 * w + b)) in *. clearbody a s.
  destruct (Req_EM_T (s - a) 0); [lra|].
  assert (F0 : 0 < a / (s - a)) by (apply Rdiv_lt_0_compat; lra).
  unfold turbulence. rewrite <- A3, <- S3. split.
  - intros E. injection E as <-. split; [exact F0|]. field. lra.
  - intros (F & E). f_equal.
    assert (X : f * s = (1 + f) * a).
    { apply pow3_inj; [apply Rmult_lt_0_compat; lra|apply Rmult_lt_0_compat; lra|]. rewrite !Rpow_mult_distr. exact E. }
    apply (Rmult_eq_reg_r (s - a)); [|lra]. replace (a / (s - a) * (s - a)) with a by (field; lra). lra.
Qed.

Lemma factor_calm h : v_sigma_factor h 0 0 = None.
Proof.
  unfold v_sigma_factor, l2. replace (0 * 0 + 0 * 0) with 0 by ring. rewrite sqrt_0.
  replace (0 + beam_divergence h) with (30 * 0 + beam_divergence h) by ring.
  destruct (Req_EM_T _ 0) as [|N]; [reflexivity|]. exfalso. apply N. ring.
Qed.

Lemma gamma_step g x : gamma_law g -> 0 < x -> g (x + 1) = x * g x.
Proof. intros G X. apply G. exact X. Qed.

Lemma root4 x : 0 < x -> root 4 x ^ 4 = x.
Proof. intros H. replace 4 with (INR 4) by (cbn; ring). apply root_pow; [lia|exact H]. Qed.

Lemma gamma_ratio4 g mu : gamma_law g -> -3 < mu ->
  g (3 + mu) / g (7 + mu) = / ((3 + mu) * (4 + mu) * (5 + mu) * (6 + mu)).
Proof.
  intros G M. assert (P : 0 < g (3 + mu)) by (apply G; lra).
  replace (7 + mu) with (3 + mu + 1 + 1 + 1 + 1) by ring.
  rewrite (gamma_step g (3 + mu + 1 + 1 + 1)), (gamma_step g (3 + mu + 1 + 1)), (gamma_step g (3 + mu + 1)), (gamma_step g (3 + mu)); try assumption; try lra.
  field. repeat split; lra.
Qed.

Lemma dia_spec g ratio mu ray k : gamma_law g -> -3 < mu -> 0 < ray * k * ratio ->
  0 < calc_dia g ratio mu ray k /\
  ray * k * ratio * (calc_dia g ratio mu ray k ^ 4 * ((3 + mu) * (4 + mu) * (5 + mu) * (6 + mu))) = (367 / 100 + mu) ^ 4.
Proof.
  intros G M C. unfold calc_dia. rewrite (gamma_ratio4 g mu G M).
  assert (Q : 0 < (3 + mu) * (4 + mu) * (5 + mu) * (6 + mu)) by (repeat apply Rmult_lt_0_compat; lra).
  set (q := (3 + mu) * (4 + mu) * (5 + mu) * (6 + mu)) in *. clearbody q.
  assert (X : 0 < / q * (367 / 100 + mu) ^ 4 / (ray * k * ratio)).
  { apply Rdiv_lt_0_compat; [|exact C]. apply Rmult_lt_0_compat; [apply Rinv_0_lt_compat; exact Q|apply pow_lt; lra]. }
  set (c := ray * k * ratio) in *. clearbody c.
  split; [apply root_pos; exact X|]. rewrite (root4 _ X). field. split; lra.
Qed.

(** A function that obeys the law. *)
Fixpoint falling_product (x : R) (n : nat) : R :=
  match n with O => 1 | S k => falling_product x k * (x - INR (S k)) end.
Definition steps (x : R) : nat := Z.to_nat (- Int_part (- x) - 1).
Definition some_gamma (x : R) : R := falling_product x (steps x).

Lemma falling_shift x n : falling_product (x + 1) (S n) = x * falling_product x n.
Proof.
  induction n as [|n IH]; [cbn [falling_product INR]; ring|].
  change (falling_product (x + 1) (S (S n))) with (falling_product (x + 1) (S n) * (x + 1 - INR (S (S n)))).
  rewrite IH. cbn [falling_product]. rewrite (S_INR (S n)). ring.
Qed.

Lemma steps_spec x : 0 < x -> INR (steps x) < x <= INR (steps x) + 1.
Proof.
  intros H. unfold steps. destruct (base_Int_part (- x)) as [A B].
  assert (C : (0 <= - Int_part (- x) - 1)%Z).
  { assert (IZR (Int_part (- x)) < IZR 0) by (cbn; lra). apply lt_IZR in H0. lia. }
  rewrite INR_IZR_INZ, Z2Nat.id by exact C. rewrite minus_IZR, opp_IZR. lra.
Qed.

Lemma steps_unique x n : INR n < x <= INR n + 1 -> steps x = n.
Proof.
  intros H. unfold steps.
  assert (E : Int_part (- x) = (- (Z.of_nat n + 1))%Z); [|rewrite E, Z.opp_involutive; lia].
  destruct (base_Int_part (- x)) as [A B]. rewrite INR_IZR_INZ in H.
  assert (L : IZR (Int_part (- x)) < IZR (- Z.of_nat n)) by (rewrite opp_IZR; lra).
  assert (U : IZR (- Z.of_nat n - 2) < IZR (Int_part (- x))) by (rewrite minus_IZR, opp_IZR; lra).
  apply lt_IZR in L. apply lt_IZR in U. lia.
Qed.

Lemma falling_pos x n : INR n < x -> 0 < falling_product x n.
Proof.
  induction n as [|n IH]; intros H; cbn [falling_product]; [lra|].
  rewrite S_INR in *. apply Rmult_lt_0_compat; [apply IH; lra|lra].
Qed.

Lemma some_gamma_law : gamma_law some_gamma.
Proof.
  intros x H. pose proof (steps_spec x H) as S. split.
  - apply falling_pos. apply S.
  - unfold some_gamma. rewrite (steps_unique (x + 1) (Datatypes.S (steps x))).
    + apply falling_shift.
    + rewrite S_INR. lra.
Qed.

(** ** Derived products *)

Lemma rlt_spec a b : rlt a b = true <-> a < b.
Proof. unfold rlt. destruct (Rlt_dec a b); split; intros; try assumption; try reflexivity; try discriminate; contradiction. Qed.

Lemma lut_entry axis x : ascending axis -> (0 < length axis)%nat ->
  exists i, lut_index rlt axis x = Ok i /\ entry axis x i.
Proof.
  intros A P. unfold lut_index, searchsorted.
  destruct (bisect_spec R rlt axis x (length axis) (length axis) 0%nat (length axis)) as (i & E & I & B & C); try lia; auto.
  rewrite E. cbn [bind]. eexists. split; [reflexivity|].
  assert (Low : forall k y, (k < i)%nat -> nth_error axis k = Some y -> y < x).
  { intros k y K Y. destruct B as [->|(z & Z & L)]; [lia|]. apply rlt_spec in L.
    destruct (Nat.eq_dec k (i - 1)) as [->|N]; [congruence|].
    pose proof (A k (i - 1)%nat y z ltac:(lia) Y Z). lra. }
  destruct (Nat.leb_spec (length axis) i) as [G|G].
  - split; [lia|]. split; [|left; lia]. intros k y K. apply Low. lia.
  - split; [exact G|]. split; [exact Low|]. destruct C as [C|(y & Y & L)]; [lia|]. right. exists y. split; [exact Y|].
    unfold rlt in L. destruct (Rlt_dec y x); [discriminate|lra].
Qed.

Lemma entry_unique axis x i j : entry axis x i -> entry axis x j -> i = j.
Proof.
  intros (A1 & A2 & A3) (B1 & B2 & B3). destruct (Nat.lt_trichotomy i j) as [L|[L|L]]; [|exact L|]; exfalso.
  - destruct A3 as [A3|(y & Y & G)]; [lia|]. specialize (B2 i y L Y). lra.
  - destruct B3 as [B3|(y & Y & G)]; [lia|]. specialize (A2 j y L Y). lra.
Qed.

Definition fits (lut : mie_table) : Prop := tabulated (m_mu lut) (m_do lut) (m_lwf lut) (m_v lut) (m_termv lut).

Lemma getitem_some A (l : list A) i x : nth_error l i = Some x -> getitem l i = Ok x.
Proof. intros E. unfold getitem. rewrite E. reflexivity. Qed.

Lemma derive_spec g lut x i j flux term v :
  fits lut -> d_do x <> 0 -> entry (m_mu lut) (d_mu x) i -> entry (m_do lut) (d_do x) j ->
  pixel (m_lwf lut) i j = Some flux -> nth_error (m_termv lut) j = Some term -> pixel (m_v lut) i j = Some v ->
  derive g lut x = Ok {| v_n := option_map (fun z => z * (367 / 100) ^ 6 / d_do x ^ 6) (d_z x);
     v_lwc := drizzle_lwc g x; v_lwf := option_map (fun w => w * (flux * term)) (drizzle_lwc g x);
     v_drizzle := - v; v_air := - - v + d_v x |}.
Proof.
  intros (A1 & A2 & P1 & P2 & R1 & R2 & L) N I J F T V. unfold derive, density.
  destruct (Req_EM_T (d_do x) 0) as [|_]; [contradiction|].
  assert (Q1 : (0 < length (m_mu lut))%nat) by (destruct (m_mu lut); [contradiction|cbn; lia]).
  assert (Q2 : (0 < length (m_do lut))%nat) by (destruct (m_do lut); [contradiction|cbn; lia]).
  destruct (lut_entry _ (d_mu x) A1 Q1) as (i' & Ei & Hi). rewrite (entry_unique _ _ _ _ Hi I) in Ei.
  destruct (lut_entry _ (d_do x) A2 Q2) as (j' & Ej & Hj). rewrite (entry_unique _ _ _ _ Hj J) in Ej.
  rewrite Ei. cbn [bind]. rewrite Ej. cbn [bind].
  destruct (getitem2_pixel _ _ _ _ i j R1 ltac:(apply I) ltac:(apply J)) as (a & Ea & Pa).
  rewrite Ea. cbn [bind]. rewrite (getitem_some _ _ _ _ T). cbn [bind].
  destruct (getitem2_pixel _ _ _ _ i j R2 ltac:(apply I) ltac:(apply J)) as (b & Eb & Pb).
  rewrite Eb. cbn [bind]. assert (a = flux) by congruence. assert (b = v) by congruence. subst. reflexivity.
Qed.

Lemma derive_entries (g : R -> R) lut x : fits lut -> d_do x <> 0 -> exists i j flux term v,
  entry (m_mu lut) (d_mu x) i /\ entry (m_do lut) (d_do x) j /\
  pixel (m_lwf lut) i j = Some flux /\ nth_error (m_termv lut) j = Some term /\ pixel (m_v lut) i j = Some v.
Proof.
  intros (A1 & A2 & P1 & P2 & R1 & R2 & L) N.
  assert (Q1 : (0 < length (m_mu lut))%nat) by (destruct (m_mu lut); [contradiction|cbn; lia]).
  assert (Q2 : (0 < length (m_do lut))%nat) by (destruct (m_do lut); [contradiction|cbn; lia]).
  destruct (lut_entry _ (d_mu x) A1 Q1) as (i & _ & I). destruct (lut_entry _ (d_do x) A2 Q2) as (j & _ & J).
  destruct (getitem2_pixel _ _ _ _ i j R1 ltac:(apply I) ltac:(apply J)) as (a & _ & Pa).
  destruct (getitem2_pixel _ _ _ _ i j R2 ltac:(apply I) ltac:(apply J)) as (b & _ & Pb).
  destruct (nth_error (m_termv lut) j) as [t|] eqn:T.
  - exists i, j, a, t, b. auto.
  - exfalso. apply nth_error_None in T. pose proof (proj1 J). lia.
Qed.

Lemma derive_none g lut x : d_do x = 0 -> exists y, derive g lut x = Ok y /\
  stored false (v_n y) = None /\ stored false (v_lwc y) = None /\ stored false (v_lwf y) = None /\
  stored false (Some (v_drizzle y)) = None /\ stored false (Some (v_air y)) = None.
Proof.
  intros E. unfold derive, density. destruct (Req_EM_T (d_do x) 0) as [_|N]; [|contradiction].
  eexists. split; [reflexivity|]. cbn [v_n v_lwc v_lwf v_drizzle v_air].
  assert (Z : stored false (Some 0) = None) by (unfold stored; destruct (Req_EM_T 0 0); [reflexivity|lra]).
  assert (Y : stored false (drizzle_lwc g x) = None).
  { unfold drizzle_lwc, stored. destruct (d_beta x) as [b|]; cbn [option_map]; [|reflexivity].
    rewrite E. destruct (Req_EM_T _ 0) as [|N]; [reflexivity|]. exfalso. apply N. ring. }
  auto.
Qed.

Lemma lwc_gamma g x : gamma_law g -> -3 < d_mu x ->
  drizzle_lwc g x = option_map (fun b => 1000 / 3 * b * d_s x * d_do x * ((3 + d_mu x) / (367 / 100 + d_mu x))) (d_beta x).
Proof.
  intros G M. unfold drizzle_lwc. destruct (d_beta x) as [b|]; cbn [option_map]; [|reflexivity]. f_equal.
  assert (P : 0 < g (3 + d_mu x)) by (apply G; lra).
  replace (4 + d_mu x) with (3 + d_mu x + 1) by ring. rewrite gamma_step by (assumption || lra). field. lra.
Qed.

Lemma stored_spec rain x y : stored rain x = Some y <-> rain = false /\ x = Some y /\ y <> 0.
Proof.
  unfold stored. destruct rain.
  - destruct (Req_EM_T 0 0); [|lra]. split; [discriminate|intros (E & _); discriminate].
  - destruct x as [v|].
    + destruct (Req_EM_T v 0) as [Z|Z].
      * split; [discriminate|]. intros (_ & E & N). congruence.
      * split; [intros E; injection E as <-; auto|intros (_ & E & _); exact E].
    + split; [discriminate|intros (_ & E & _); discriminate].
Qed.

(** ** Errors *)

Lemma to_lin x : db_to_lin x = relative x.
Proof.
  unfold db_to_lin, relative, ten, Rpower. pose proof ln10_pos. f_equal. f_equal.
  unfold Rmin. destruct (Rlt_dec 100 x), (Rle_dec 100 x); try (replace x with 100 by lra); field; lra.
Qed.

Lemma to_db x : 0 <= x -> lin_to_db x = reported x.
Proof.
  intros H. unfold lin_to_db, reported, decibels. destruct (Rlt_dec x (- (9 / 10))); [lra|].
  pose proof ln10_pos. rewrite (Rplus_comm x 1). field. lra.
Qed.

Lemma back_and_forth x : -10 < x <= 100 -> lin_to_db (db_to_lin x) = x.
Proof.
  intros H. rewrite to_lin. unfold relative. rewrite (Rmin_right 100 x) by lra.
  assert (L : 1 / 10 < ten (x / 10)).
  { replace (1 / 10) with (ten (Ropp 1)); [apply ten_lt; lra|]. unfold ten. rewrite Rpower_Ropp, Rpower_1 by lra. lra. }
  unfold lin_to_db. destruct (Rlt_dec _ _); [lra|].
  replace (ten (x / 10) - 1 + 1) with (ten (x / 10)) by ring. unfold ten, Rpower. rewrite ln_exp.
  pose proof ln10_pos. field. lra.
Qed.

Lemma relative_pos x : 0 <= x -> 0 <= relative x.
Proof.
  intros H. unfold relative. assert (1 <= ten (Rmin 100 x / 10)); [|lra]. rewrite <- ten_0.
  assert (M : 0 <= Rmin 100 x) by (unfold Rmin; destruct (Rle_dec 100 x); lra).
  destruct (Req_dec (Rmin 100 x / 10) 0) as [->|N]; [lra|]. apply Rlt_le, ten_lt. lra.
Qed.

Lemma l2_combined a b : 0 <= l2 a b /\ l2 a b * l2 a b = a * a + b * b.
Proof.
  unfold l2. split; [apply sqrt_pos|]. apply sqrt_sqrt.
  pose proof (Rle_0_sqr a). pose proof (Rle_0_sqr b). unfold Rsqr in *. lra.
Qed.

Lemma square_inj a b : 0 <= a -> 0 <= b -> a * a = b * b -> a = b.
Proof. intros A B E. rewrite <- (sqrt_square a A), <- (sqrt_square b B), E. reflexivity. Qed.

Lemma weighted_square s wa wb a b : 0 <= s ->
  0 <= weighted s wa wb a b /\
  weighted s wa wb a b * weighted s wa wb a b = (s * wa * a) * (s * wa * a) + (s * wb * b) * (s * wb * b).
Proof.
  intros S. unfold weighted. destruct (l2_combined (wa * a) (wb * b)) as [A B].
  set (l := l2 (wa * a) (wb * b)) in *. clearbody l. split; [apply Rmult_le_pos; assumption|].
  replace (s * l * (s * l)) with (s * s * (l * l)) by ring. rewrite B. ring.
Qed.

Lemma weighted_combined s wa wb a b e : 0 <= s ->
  combined (s * wa * a) (s * wb * b) 0 e -> weighted s wa wb a b = e.
Proof.
  intros S [P E]. destruct (weighted_square s wa wb a b S) as [A B]. apply square_inj; try assumption. rewrite B, E. ring.
Qed.

Lemma weighted_mu s wa wb a b mu e : 0 <= s ->
  combined (s * wa * a) (s * wb * b) mu e -> l2 (weighted s wa wb a b) mu = e.
Proof.
  intros S [P E]. destruct (weighted_square s wa wb a b S) as [A B].
  destruct (l2_combined (weighted s wa wb a b) mu) as [C D]. apply square_inj; try assumption. rewrite D, B, E. ring.
Qed.

Lemma drizzle_true dia : 0 < dia -> is_drizzle dia = true.
Proof. intros. unfold is_drizzle. destruct (Rlt_dec 0 dia); [reflexivity|lra]. Qed.

Lemma classes dia s : size_of dia s -> is_drizzle dia = true /\
  is_small dia = match s with Small => true | _ => false end /\
  is_tiny dia = match s with Tiny => true | _ => false end.
Proof.
  unfold is_drizzle, is_small, is_tiny. intros H.
  destruct s; cbn [size_of] in H;
    repeat match goal with |- context [Rlt_dec ?a ?b] => destruct (Rlt_dec a b) | |- context [Rle_dec ?a ?b] => destruct (Rle_dec a b) end;
    try (exfalso; lra); auto.
Qed.

Lemma stack_size dia s e sm ti : size_of dia s ->
  stack dia e sm ti = match s with
    | Large => e
    | Small => match sm with Some x => x | None => e end
    | Tiny => match ti with Some x => x | None => e end end.
Proof.
  intros H. destruct (classes dia s H) as (A & B & C). unfold stack. rewrite A, B, C.
  destruct s, sm, ti; reflexivity.
Qed.

Lemma stack_none dia e sm ti : dia <= 0 -> stack dia e sm ti = 0.
Proof.
  intros H. unfold stack, is_drizzle, is_small, is_tiny.
  repeat match goal with |- context [Rlt_dec ?a ?b] => destruct (Rlt_dec a b) | |- context [Rle_dec ?a ?b] => destruct (Rle_dec a b) end;
    try (exfalso; lra); destruct sm, ti; reflexivity.
Qed.

Definition raw (q : quantity) (dia z b : R) : R :=
  match q with
  | Diameter => do_error dia z b
  | Content => lwc_drizzle_error dia z b
  | Flux => lwf_error dia z b
  | Extinction => s_error dia z b
  end.

Lemma raw_spec q s dia z b e : size_of dia s -> error_of q s z b e -> raw q dia (relative z) (relative b) = e.
Proof.
  intros S (sc & wz & wb & mu & L & C).
  destruct L; cbn [raw]; unfold do_error, lwc_drizzle_error, lwf_error, s_error; rewrite (stack_size _ _ _ _ _ S);
    unfold MU_ERROR, MU_ERROR_SMALL in *;
    try (replace (25 / 100) with (1 / 4) by field);
    try (apply weighted_mu; [lra|exact C]); try (apply weighted_combined; [lra|exact C]).
  destruct s; (apply weighted_combined; [lra|exact C]).
Qed.

Lemma error_exists q s z b : exists e, error_of q s z b e.
Proof.
  assert (X : exists sc wz wb mu, error_law q s sc wz wb mu) by (destruct q, s; do 4 eexists; constructor).
  destruct X as (sc & wz & wb & mu & L).
  destruct (l2_combined (l2 (sc * wz * relative z) (sc * wb * relative b)) mu) as [A B].
  destruct (l2_combined (sc * wz * relative z) (sc * wb * relative b)) as [_ D].
  eexists. exists sc, wz, wb, mu. split; [exact L|]. split; [exact A|]. rewrite B, D. reflexivity.
Qed.

Lemma v_error_spec dia s z b e : size_of dia s -> error_of Diameter s z b e ->
  v_error dia (relative z) (relative b) = match s with Tiny => e * e | _ => e end.
Proof.
  intros S E. unfold v_error. destruct (classes dia s S) as (_ & _ & C). rewrite C.
  pose proof (raw_spec Diameter s dia z b e S E) as X. cbn [raw] in X. rewrite X. destruct s; reflexivity.
Qed.
