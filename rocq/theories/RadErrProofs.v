(** Lemmas about the errors and the sensitivity of the radar. *)
From Verif Require Import Base GridModel GridSpec GridProofs DropletModel DropletSpec DropletProofs CleanModel RadErrModel RadErrSpec.
From Coq Require Import Qround Lqa Reals Lra.
Open Scope nat_scope.
Open Scope list_scope.
Local Notation length := List.length (only parsing).

(** ** Sensitivity *)

Lemma repeat_nth : forall A (x : A) n i, i < n -> nth_error (repeat x n) i = Some x.
Proof. intros A x. induction n as [|n IH]; intros [|i] L; try lia; [reflexivity|]. apply IH. lia. Qed.
Lemma gate_unique : forall j P i m l, gate_values j P i m l -> forall l', gate_values j P i m l' -> l = l'.
Proof.
  intros j P i m l H. induction H as [i|i row m v l Pi E H IH|i row m l N H IH]; intros l' H'; inversion H'; subst; try reflexivity.
  - f_equal; [congruence|apply IH; assumption].
  - exfalso. match goal with X : forall v, P i -> _ |- _ => exact (X v Pi E) end.
  - exfalso. eapply N; eassumption.
  - apply IH. assumption.
Qed.
Lemma gate_column : forall j m i, gate_values j (fun _ => True) i m (unmasked (column m j)).
Proof.
  intros j. induction m as [|row m IH]; intros i; [constructor|]. unfold column. cbn [map]. destruct (nth_error row j) as [[v|]|] eqn:E; cbn [unmasked].
  - apply GateTake; [exact I|exact E|apply IH].
  - apply GateSkip; [intros v _; congruence|apply IH].
  - apply GateSkip; [intros v _; congruence|apply IH].
Qed.
Lemma row_clutter_nth : forall row b j v, nth_error (row_clutter row b) j = Some (Some v) <-> nth_error row j = Some (Some v) /\ nth_error b j = Some true.
Proof.
  induction row as [|x row IH]; intros [|c b] [|j] v; cbn [row_clutter nth_error]; try (split; [discriminate|intros [A B]; discriminate]); [|apply IH].
  destruct c; split; [intros H; split; [exact H|reflexivity]|intros [H _]; exact H|discriminate|intros [_ H]; discriminate].
Qed.
Lemma gate_clutter : forall j z c i, gate_values j (fun k => i <= k /\ pixel c (k - i) j = Some true) i z (unmasked (column (clutter_only z c) j)).
Proof.
  assert (Sh : forall j P P' i m l, (forall k, i <= k -> (P k <-> P' k)) -> gate_values j P i m l -> gate_values j P' i m l).
  { intros j P P' i m l E H. induction H as [i|i row m v l Pi F H IH|i row m l N H IH]; [constructor| |].
    - apply GateTake; [apply E; [lia|exact Pi]|exact F|apply IH; intros k K; apply E; lia].
    - apply GateSkip; [intros v Pv; apply N, E; [lia|exact Pv]|apply IH; intros k K; apply E; lia]. }
  intros j. induction z as [|row z IH]; intros c i; [constructor|]. destruct c as [|b c].
  - cbn [clutter_only column map unmasked]. apply GateSkip.
    + intros v (_ & H). rewrite Nat.sub_diag in H. discriminate.
    + specialize (IH [] (S i)). destruct z; [constructor|]. apply (Sh _ _ _ _ _ _) with (2 := IH). intros k K. split; intros [_ H]; unfold pixel in H; destruct (k - i), (k - S i); discriminate.
  - unfold column. cbn [clutter_only map]. assert (R : gate_values j (fun k => i <= k /\ pixel (b :: c) (k - i) j = Some true) (S i) z (unmasked (column (clutter_only z c) j))).
    { apply (Sh _ _ _ _ _ _) with (2 := IH c (S i)). intros k K. replace (k - i) with (S (k - S i)) by lia. split; intros [_ H]; (split; [lia|exact H]). }
    destruct (nth_error (row_clutter row b) j) as [[v|]|] eqn:E; cbn [unmasked].
    + apply row_clutter_nth in E as [A B]. apply GateTake; [split; [lia|]; rewrite Nat.sub_diag; exact B|exact A|exact R].
    + apply GateSkip; [|exact R]. intros v [_ H] A. rewrite Nat.sub_diag in H. assert (X : nth_error (row_clutter row b) j = Some (Some v)) by (apply row_clutter_nth; split; assumption). congruence.
    + apply GateSkip; [|exact R]. intros v [_ H] A. rewrite Nat.sub_diag in H. assert (X : nth_error (row_clutter row b) j = Some (Some v)) by (apply row_clutter_nth; split; assumption). congruence.
Qed.
Lemma gate_clutter0 : forall j z c, gate_values j (fun k => pixel c k j = Some true) 0 z (unmasked (column (clutter_only z c) j)).
Proof.
  intros j z c. pose proof (gate_clutter j z c 0) as H. revert H. generalize (unmasked (column (clutter_only z c) j)). intros l.
  assert (G : forall i m l, gate_values j (fun k => 0 <= k /\ pixel c (k - 0) j = Some true) i m l -> gate_values j (fun k => pixel c k j = Some true) i m l).
  { intros i m l0 H. induction H as [i|i row m v l0 Pi F H IH|i row m l0 N H IH]; [constructor| |].
    - apply GateTake; [rewrite Nat.sub_0_r in Pi; apply Pi|exact F|exact IH].
    - apply GateSkip; [intros v Pv; apply N; rewrite Nat.sub_0_r; split; [lia|exact Pv]|exact IH]. }
  apply G.
Qed.

Lemma thousandth_percentile : forall l, l <> [] -> thousandth l (percentile (1 # 1000) l).
Proof.
  intros l Ne. pose proof (qsort_perm l) as Pm. pose proof (qsort_sorted l) as Ss. pose proof (Permutation_length Pm) as Pl.
  unfold percentile. cbv zeta. set (s := qsort l) in *. rewrite <- Pl. set (n := length l) in *.
  assert (N : 1 <= n) by (unfold n; destruct l; [congruence|cbn; lia]).
  set (k := (n - 1) / 1000). set (r := (n - 1) mod 1000).
  pose proof (Nat.div_mod (n - 1) 1000 ltac:(lia)) as D. pose proof (Nat.mod_upper_bound (n - 1) 1000 ltac:(lia)) as U. fold k r in D, U.
  assert (F : Qfloor ((1 # 1000) * inject_Z (Z.of_nat n - 1)) = Z.of_nat k).
  { unfold Qfloor, inject_Z, Qmult, Qnum, Qden. rewrite Z.mul_1_l. change (Z.pos (1000 * 1)) with 1000%Z. symmetry. apply Z.div_unique with (r := Z.of_nat r); lia. }
  rewrite F, Nat2Z.id. exists s, k, r, (nth k s 0%Q), (nth (Nat.min (S k) (n - 1)) s 0%Q).
  split; [exact Pm|]. split; [exact Ss|]. split; [lia|]. split; [exact U|].
  assert (V : ((1 # 1000) * inject_Z (Z.of_nat n - 1) - inject_Z (Z.of_nat k) == inject_Z (Z.of_nat r) * (1 # 1000))%Q).
  { replace (Z.of_nat n - 1)%Z with (1000 * Z.of_nat k + Z.of_nat r)%Z by lia. rewrite inject_Z_plus, inject_Z_mult. ring. }
  split; [apply nth_error_nth'; lia|]. destruct (Nat.eq_dec r 0) as [R0|R0].
  - left. split; [exact R0|]. rewrite V, R0. change (inject_Z (Z.of_nat 0)) with 0%Q. ring.
  - right. split; [replace (Nat.min (S k) (n - 1)) with (S k) by lia; apply nth_error_nth'; lia|]. rewrite V. ring.
Qed.

Lemma row_minus_nth : forall row lr j v, nth_error (row_minus row lr) j = Some (Some v) <->
  exists a b, nth_error row j = Some (Some a) /\ nth_error lr j = Some (Some b) /\ v = (a - b)%Q.
Proof.
  induction row as [|x row IH]; intros [|y lr] [|j] v; cbn [row_minus nth_error]; try (split; [discriminate|intros (a & b & A & B & _); discriminate]); [|apply IH].
  unfold minus. destruct x as [a|], y as [b|]; split; try discriminate; try (intros (a' & b' & A & B & _); discriminate).
  - intros H. exists a, b. split; [reflexivity|]. split; [reflexivity|congruence].
  - intros (a' & b' & A & B & ->). congruence.
Qed.
Lemma row_minus_length : forall row lr, length (row_minus row lr) <= length lr.
Proof. induction row as [|x row IH]; intros [|y lr]; cbn [row_minus length]; try lia. specialize (IH lr). lia. Qed.
Lemma select_all : forall A n (l : list A), length l <= n -> select (repeat true n) l = l.
Proof.
  intros A. unfold select. induction n as [|n IH]; intros [|x l] L; cbn [length] in L; try lia; try reflexivity. cbn [repeat combine filter fst map snd]. f_equal. apply IH. lia.
Qed.
Lemma power_min_ok : forall z lr, lowest_power z lr (z_power_min z lr).
Proof.
  intros z lr. set (m := z_power z lr). set (xi := repeat true (length z)). set (yi := repeat true (length lr)).
  assert (Sw : select_window xi yi m = List.concat m).
  { unfold select_window, xi. rewrite select_all by (unfold m, z_power; rewrite map_length; lia). rewrite flat_map_concat_map. f_equal.
    rewrite <- (map_id m) at 2. apply map_ext_in. intros row I. unfold m, z_power in I. apply in_map_iff in I as (r & <- & _). apply select_all, row_minus_length. }
  pose proof (window_observations_exist xi yi m) as [Nd W]. pose proof (valid_from_values xi yi m 0) as Ev. rewrite Sw in Ev.
  exists (valid_from 0 xi yi m). split; [exact Nd|]. split.
  - intros i j v. rewrite W. assert (X : pixel m i j = Some (Some v) <-> exists a b, pixel z i j = Some (Some a) /\ nth_error lr j = Some (Some b) /\ v = (a - b)%Q).
    { unfold m, z_power, pixel. rewrite nth_error_map'. destruct (nth_error z i) as [row|]; cbn [option_map]; [apply row_minus_nth|]. split; [discriminate|]. intros (a & b & A & _). discriminate. }
    rewrite X. split; [intros [A _]; exact A|]. intros A. split; [exact A|]. destruct A as (a & b & A & B & _). split.
    + unfold pixel in A. destruct (nth_error z i) eqn:E; [|discriminate]. apply nth_error_Some_lt in E. unfold xi. apply repeat_nth. exact E.
    + apply nth_error_Some_lt in B. unfold yi. apply repeat_nth. exact B.
  - unfold z_power_min. fold m. rewrite <- Ev. split; [intros ->; reflexivity|]. intros Ne. destruct (valid_from 0 xi yi m) as [|p ps]; [congruence|].
    change (map snd (p :: ps)) with (snd p :: map snd ps). apply thousandth_percentile. discriminate.
Qed.
Lemma sum_fold : forall l, sum l = fold_right Qplus 0%Q l.
Proof. induction l as [|x l IH]; [reflexivity|]. cbn. rewrite IH. reflexivity. Qed.

Lemma sensitivity_ok : forall z gas c lr j s zs gs, nth_error (calc_sensitivity z gas c lr) j = Some s ->
  gate_values j (fun k => pixel c k j = Some true) 0 z zs -> gate_values j (fun _ => True) 0 gas gs ->
  (zs <> [] -> exists m, s = Some m /\ is_median zs m) /\
  (zs = [] -> (gs = [] -> s = None) /\ (nth_error lr j = Some None -> s = None) /\
     forall r, gs <> [] -> nth_error lr j = Some (Some r) ->
       exists p v, lowest_power z lr p /\ s = Some v /\ ((v - p - r) * inject_Z (Z.of_nat (length gs)) == sum gs)%Q).
Proof.
  intros z gas c lr j s zs gs H Hz Hg. unfold calc_sensitivity in H. rewrite nth_error_map' in H. destruct (nth_error (seq 0 (length lr)) j) as [j'|] eqn:Ej; [|discriminate].
  cbn in H. assert (s = sensitivity z gas c lr j') by congruence. subst s. clear H. pose proof (nth_error_Some_lt _ _ _ Ej) as J. rewrite seq_length in J.
  rewrite (nth_error_nth' _ 0) in Ej by (rewrite seq_length; exact J). rewrite seq_nth in Ej by exact J. assert (j' = j) by (cbn in Ej; congruence). subst j'. clear Ej.
  pose proof (gate_unique _ _ _ _ _ Hz _ (gate_clutter0 j z c)) as ->. pose proof (gate_unique _ _ _ _ _ Hg _ (gate_column j gas 0)) as ->. unfold sensitivity.
  pose proof (median_iff (unmasked (column (clutter_only z c) j))) as M. destruct (median (unmasked (column (clutter_only z c) j))) as [m|].
  - split; [intros _; exists m; auto|]. intros E. exfalso. rewrite E in M. destruct M as (s & a & b & Pm & _ & A & _). apply Permutation_nil in Pm. subst s. discriminate.
  - split; [intros Ne; contradiction|]. intros _. unfold ma_stat. split; [|split].
    + intros ->. destruct (plus (Some _) (nth j lr None)); reflexivity.
    + intros E. rewrite (nth_error_nth lr j None E). reflexivity.
    + intros r Ne E. rewrite (nth_error_nth lr j None E). destruct (unmasked (column gas j)) as [|g gs]; [congruence|]. cbn [plus].
      exists (z_power_min z lr). eexists. split; [apply power_min_ok|]. split; [reflexivity|]. rewrite sum_fold. unfold mean. set (n := inject_Z (Z.of_nat (length (g :: gs)))).
      assert (Nz : ~ (n == 0)%Q) by (unfold n; change 0%Q with (inject_Z 0); rewrite inject_Z_injective; cbn; lia). field. exact Nz.
Qed.

(** ** Error *)
Open Scope R_scope.

Lemma db2lin_power : forall x, db2lin x = Rpower 10 (x / 10).
Proof. reflexivity. Qed.
Lemma ln10_pos : 0 < ln 10.
Proof. rewrite <- ln_1. apply ln_increasing; lra. Qed.
Lemma pulses_value : forall z width step f n, f <> 0 -> (number_of_pulses z width step f = Some n <-> exists w, width_used z width w /\ pulses step f w n).
Proof.
  intros z width step f n F. unfold number_of_pulses, width_used, pulses.
  assert (E : forall w, 4 * sqrt PI * (step * 3600) * w / (300000000 / (f * 1000000000)) = 48000 * sqrt PI * step * f * w) by (intros w; field; exact F).
  destruct width as [[w|]|]; cbn [option_map].
  - rewrite E. split; [intros H; exists w; split; [left; reflexivity|congruence]|]. intros (w' & [H|(H & _)] & ->); [|discriminate]. congruence.
  - split; [discriminate|]. intros (w' & [H|(H & _)] & _); discriminate.
  - destruct z as [a|]; cbn [option_map].
    + rewrite E. split; [intros H; exists (3 / 10); split; [right; repeat split; discriminate|congruence]|]. intros (w' & [H|(_ & _ & ->)] & ->); [discriminate|reflexivity].
    + split; [discriminate|]. intros (w' & [H|(_ & H & _)] & _); [discriminate|congruence].
Qed.
Lemma sqrt_zero_iff : forall n, 0 <= n -> (sqrt n = 0 <-> n = 0).
Proof. intros n N. split; [intros H; apply sqrt_eq_0; assumption|intros ->; apply sqrt_0]. Qed.

Definition width_ok (width : option (masked R)) : Prop := forall w, width = Some (Some w) -> 0 <= w.
Lemma used_ok : forall z width w, width_ok width -> width_used z width w -> 0 <= w.
Proof. intros z width w O [H|(_ & _ & ->)]; [exact (O w H)|lra]. Qed.
Lemma pulses_pos : forall step f w n, 0 < step -> 0 < f -> 0 <= w -> pulses step f w n -> 0 <= n /\ (n = 0 <-> w = 0).
Proof.
  intros step f w n S F W ->. assert (P : 0 < 48000 * sqrt PI * step * f).
  { repeat apply Rmult_lt_0_compat; try lra. apply sqrt_lt_R0, PI_RGT_0. }
  set (c := 48000 * sqrt PI * step * f) in *. clearbody c. split; [apply Rmult_le_pos; lra|]. split; [|intros ->; ring].
  intros H. apply Rmult_integral in H as [H|H]; lra.
Qed.

Lemma error_value : forall zmin z lr width step f liq rain melt e, 0 < step -> 0 < f -> width_ok width ->
  (z_error zmin z lr width step f liq rain melt = Some e <->
   at_uncorrected liq = false /\ at_uncorrected rain = false /\ at_uncorrected melt = false /\ 0 <= e /\
   exists a b w n p, z = Some a /\ lr = Some b /\ width_used z width w /\ w <> 0 /\ pulses step f w n /\ random_error n zmin (a - b) p /\
     e ^ 2 = p ^ 2 + filled (at_error liq) ^ 2 + filled (at_error rain) ^ 2 + filled (at_error melt) ^ 2).
Proof.
  intros zmin z lr width step f liq rain melt e S F O. unfold z_error. split.
  - intros H. destruct (at_uncorrected liq); [discriminate|]. destruct (at_uncorrected rain); [discriminate|]. destruct (at_uncorrected melt); [discriminate|]. cbn [orb] in H.
    repeat (split; [reflexivity|]). unfold l2norm, z_precision in H. destruct (number_of_pulses z width step f) as [n|] eqn:En; [|discriminate].
    destruct z as [a|]; [|discriminate]. destruct lr as [b|]; [|discriminate]. destruct (Req_EM_T (sqrt n) 0) as [Q|Q]; [discriminate|]. cbn [option_map] in H.
    set (p := 10 / ln 10 / sqrt n * (1 + db2lin (zmin - (a - b)) / 3)) in *. set (q := p ^ 2 + _ ^ 2 + _ ^ 2 + _ ^ 2) in *. assert (e = sqrt q) by congruence. subst e.
    split; [apply sqrt_pos|]. apply pulses_value in En as (w & U & Pn); [|lra]. destruct (pulses_pos _ _ _ _ S F (used_ok _ _ _ O U) Pn) as [N0 Nw].
    assert (Nn : n <> 0) by (intros X; apply Q, (sqrt_zero_iff n N0), X).
    exists a, b, w, n, p. repeat (split; [reflexivity|]). split; [exact U|]. split; [intros W; apply Nn, Nw, W|]. split; [exact Pn|]. split.
    + split; [lra|]. unfold p. rewrite db2lin_power. pose proof ln10_pos as L10. field. split; solve [exact Q | lra].
    + rewrite <- Rsqr_pow2. apply Rsqr_sqrt. unfold q. pose proof (pow2_ge_0 p). pose proof (pow2_ge_0 (filled (at_error liq))). pose proof (pow2_ge_0 (filled (at_error rain))). pose proof (pow2_ge_0 (filled (at_error melt))). lra.
  - intros (-> & -> & -> & Ep & a & b & w & n & p & -> & -> & U & W & Pn & (Np & Re) & E). cbn [orb].
    assert (En : number_of_pulses (Some a) width step f = Some n) by (apply pulses_value; [lra|exists w; split; assumption]). rewrite En. unfold l2norm, z_precision.
    pose proof (sqrt_lt_R0 n Np) as Sq. destruct (Req_EM_T (sqrt n) 0) as [Q|Q]; [lra|]. cbn [option_map]. f_equal.
    assert (Pp : 10 / ln 10 / sqrt n * (1 + db2lin (zmin - (a - b)) / 3) = p).
    { apply Rmult_eq_reg_r with (sqrt n); [|exact Q]. rewrite Re, db2lin_power. pose proof ln10_pos as L10. field. split; solve [exact Q | lra]. }
    rewrite Pp, <- E. apply sqrt_pow2. exact Ep.
Qed.
Lemma error_masked : forall zmin z lr width step f liq rain melt, 0 < step -> 0 < f -> width_ok width ->
  (z_error zmin z lr width step f liq rain melt = None <->
   at_uncorrected liq = true \/ at_uncorrected rain = true \/ at_uncorrected melt = true \/
   z = None \/ lr = None \/ width = Some None \/ width = Some (Some 0)).
Proof.
  intros zmin z lr width step f liq rain melt S F O. unfold z_error. split.
  - intros H. destruct (at_uncorrected liq); [auto|]. destruct (at_uncorrected rain); [auto|]. destruct (at_uncorrected melt); [auto|]. cbn [orb] in H. do 3 right.
    destruct z as [a|]; [|auto]. destruct lr as [b|]; [|auto]. do 2 right. unfold l2norm, z_precision in H.
    destruct (number_of_pulses (Some a) width step f) as [n|] eqn:En.
    + destruct (Req_EM_T (sqrt n) 0) as [Q|Q]; [|discriminate]. apply pulses_value in En as (w & U & Pn); [|lra]. destruct (pulses_pos _ _ _ _ S F (used_ok _ _ _ O U) Pn) as [N0 Nw].
      apply (sqrt_zero_iff n N0) in Q. apply Nw in Q. subst w. destruct U as [U|(_ & _ & U)]; [right; exact U|lra].
    + destruct width as [[w|]|]; [|left; reflexivity|]; discriminate.
  - intros H. destruct (at_uncorrected liq || at_uncorrected rain || at_uncorrected melt) eqn:U; [reflexivity|].
    apply orb_false_iff in U as [U U3]. apply orb_false_iff in U as [U1 U2]. unfold l2norm, z_precision.
    destruct H as [H|[H|[H|[H|[H|[H|H]]]]]]; try congruence; subst.
    + destruct (number_of_pulses None width step f); reflexivity.
    + destruct (number_of_pulses z width step f), z; reflexivity.
    + destruct z; reflexivity.
    + destruct (number_of_pulses z (Some (Some 0)) step f) as [n|] eqn:En; [|reflexivity]. apply pulses_value in En as (w & V & Pn); [|lra].
      assert (w = 0) by (destruct V as [V|(V & _)]; congruence). subst w. unfold pulses in Pn. rewrite Rmult_0_r in Pn.
      assert (Q : sqrt n = 0) by (rewrite Pn; apply sqrt_0). destruct z as [a|], lr as [b|]; try reflexivity. destruct (Req_EM_T (sqrt n) 0) as [_|X]; [reflexivity|contradiction].
Qed.
Lemma error_order : forall zmin a a' b width step f liq rain melt e e', 0 < step -> 0 < f -> width_ok width -> a <= a' ->
  z_error zmin (Some a) (Some b) width step f liq rain melt = Some e -> z_error zmin (Some a') (Some b) width step f liq rain melt = Some e' -> e' <= e.
Proof.
  intros zmin a a' b width step f liq rain melt e e' S F O L H H'. apply error_value in H as (_ & _ & _ & Pe & a1 & b1 & w & n & p & Ea & Eb & U & W & Pn & (Np & R) & E); [|assumption..].
  apply error_value in H' as (_ & _ & _ & Pe' & a2 & b2 & w' & n' & p' & Ea' & Eb' & U' & W' & Pn' & (Np' & R') & E'); [|assumption..].
  assert (a1 = a) by congruence. assert (b1 = b) by congruence. assert (a2 = a') by congruence. assert (b2 = b) by congruence. subst.
  assert (w' = w). { destruct U as [U|(U & _ & U1)], U' as [U'|(U' & _ & U2)]; congruence. } subst w'. assert (n' = n) by (unfold pulses in *; congruence). subst n'.
  pose proof (sqrt_lt_R0 n Np) as Sq. pose proof ln10_pos as Lp.
  assert (Q : Rpower 10 ((zmin - (a' - b)) / 10) <= Rpower 10 ((zmin - (a - b)) / 10)) by (apply Rle_Rpower; lra).
  assert (C : 0 < 10 / ln 10) by (apply Rdiv_lt_0_compat; lra). set (c := 10 / ln 10) in *. clearbody c.
  assert (Pos : 0 < Rpower 10 ((zmin - (a' - b)) / 10)) by (unfold Rpower; apply exp_pos). set (x := Rpower 10 ((zmin - (a' - b)) / 10)) in *. set (y := Rpower 10 ((zmin - (a - b)) / 10)) in *. clearbody x y.
  assert (P1 : p' * sqrt n <= p * sqrt n) by (rewrite R, R'; apply Rmult_le_compat_l; lra). apply Rmult_le_reg_r in P1; [|exact Sq].
  assert (P2 : 0 <= p'). { apply Rmult_le_reg_r with (sqrt n); [exact Sq|]. rewrite Rmult_0_l, R'. apply Rmult_le_pos; lra. }
  assert (e' ^ 2 <= e ^ 2) by (rewrite E, E'; assert (p' ^ 2 <= p ^ 2) by (apply pow_incr; lra); lra).
  apply Rsqr_incr_0_var; [|exact Pe]. rewrite !Rsqr_pow2. assumption.
Qed.
Lemma error_floor : forall zmin z lr width step f liq rain melt e, 0 < step -> 0 < f -> width_ok width ->
  z_error zmin z lr width step f liq rain melt = Some e -> 0 < e /\
  filled (at_error liq) <= e /\ filled (at_error rain) <= e /\ filled (at_error melt) <= e.
Proof.
  intros zmin z lr width step f liq rain melt e S F O H. apply error_value in H as (_ & _ & _ & Pe & a & b & w & n & p & _ & _ & _ & _ & _ & (Np & R) & E); [|assumption..].
  pose proof (sqrt_lt_R0 n Np) as Sq. pose proof ln10_pos as Lp. assert (C : 0 < 10 / ln 10) by (apply Rdiv_lt_0_compat; lra).
  assert (Pos : 0 < Rpower 10 ((zmin - (a - b)) / 10)) by (unfold Rpower; apply exp_pos).
  assert (Pp : p <> 0). { intros ->. rewrite Rmult_0_l in R. assert (0 < 10 / ln 10 * (1 + Rpower 10 ((zmin - (a - b)) / 10) / 3)) by (apply Rmult_lt_0_compat; lra). lra. }
  assert (P2 : 0 < p ^ 2) by (rewrite <- Rsqr_pow2; apply Rlt_0_sqr; exact Pp).
  pose proof (pow2_ge_0 (filled (at_error liq))) as Q1. pose proof (pow2_ge_0 (filled (at_error rain))) as Q2. pose proof (pow2_ge_0 (filled (at_error melt))) as Q3.
  assert (Up : forall x, x ^ 2 <= e ^ 2 -> x <= e) by (intros x X; apply Rsqr_incr_0_var; [rewrite !Rsqr_pow2; exact X|exact Pe]).
  split; [|split; [|split]; apply Up; lra]. destruct (Rle_lt_or_eq_dec _ _ Pe) as [G|G]; [exact G|]. exfalso. rewrite <- G in E. rewrite pow_i in E by lia. lra.
Qed.
