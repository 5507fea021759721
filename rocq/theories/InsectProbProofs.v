(** Proofs about the insect probabilities. *)
From Verif Require Import Base ArrayModel ArrayProofs FillModel FillProofs GridModel GridProofs DropletProofs TelegramModel MeltModel
  MeltSpec MeltImageProofs InsectModel InsectSpec.
From Coq Require Import Lqa String.
Open Scope Q_scope.

Section Proofs.
  Variable cdf : Q -> Q.
  Hypothesis D : distribution cdf.

  Lemma cdf_eq x y : x == y -> cdf x == cdf y.
  Proof. intros E. apply Qle_antisym; apply (cdf_increasing cdf D); lra. Qed.
  Lemma cdf_low x : x <= 0 -> cdf x <= 1 # 2.
  Proof. intros H. pose proof (cdf_increasing cdf D _ _ H). pose proof (cdf_median cdf D). lra. Qed.

  Lemma prob_range x loc scale inv : 0 <= array_to_probability cdf x loc scale inv /\ array_to_probability cdf x loc scale inv <= 1.
  Proof. unfold array_to_probability. destruct x as [a|]; [|lra]. destruct inv; apply (cdf_range cdf D). Qed.
  Lemma prob_above x loc scale : 0 < scale -> 1 # 2 < array_to_probability cdf x loc scale false -> above loc x.
  Proof.
    intros S H. destruct x as [a|]; cbn [array_to_probability] in H; [|lra]. exists a. split; [reflexivity|].
    destruct (Qlt_le_dec loc a) as [X|X]; [exact X|]. exfalso.
    assert (Y : (a - loc) / scale <= 0) by (apply Qle_shift_div_r; [exact S|lra]). apply cdf_low in Y. lra.
  Qed.
  Lemma prob_below x loc scale : 0 < scale -> 1 # 2 < array_to_probability cdf x loc scale true -> below loc x.
  Proof.
    intros S H. destruct x as [a|]; cbn [array_to_probability] in H; [|lra]. exists a. split; [reflexivity|].
    destruct (Qlt_le_dec a loc) as [X|X]; [exact X|]. exfalso.
    assert (Y : (a * -1 - loc * -1) / scale <= 0) by (apply Qle_shift_div_r; [exact S|lra]). apply cdf_low in Y. lra.
  Qed.
  Lemma prob_at_least x loc scale k : 0 < scale -> at_least (loc + k * scale) x -> cdf k <= array_to_probability cdf x loc scale false.
  Proof.
    intros S (a & -> & H). cbn [array_to_probability]. apply (cdf_increasing cdf D). apply Qle_shift_div_l; [exact S|lra].
  Qed.
  Lemma prob_at_most x loc scale k : 0 < scale -> at_most (loc - k * scale) x -> cdf k <= array_to_probability cdf x loc scale true.
  Proof.
    intros S (a & -> & H). cbn [array_to_probability]. apply (cdf_increasing cdf D). apply Qle_shift_div_l; [exact S|lra].
  Qed.
  Lemma prob_warmer a b loc scale : 0 < scale -> a <= b ->
    array_to_probability cdf (Some a) loc scale false <= array_to_probability cdf (Some b) loc scale false.
  Proof.
    intros S H. cbn [array_to_probability]. apply (cdf_increasing cdf D). unfold Qdiv. apply Qmult_le_compat_r; [lra|].
    apply Qlt_le_weak, Qinv_lt_0_compat, S.
  Qed.

  Lemma product_range a b : 0 <= a /\ a <= 1 -> 0 <= b /\ b <= 1 -> 0 <= a * b /\ a * b <= 1 /\ a * b <= a /\ a * b <= b.
  Proof. intros [A0 A1] [B0 B1]. nra. Qed.
  Lemma qmax_lub a b c : a <= c -> b <= c -> qmax a b <= c.
  Proof. unfold qmax. destruct (Qle_bool _ _); auto. Qed.
  Lemma qmax_cases a b : (qmax a b = a /\ b <= a) \/ (qmax a b = b /\ a <= b).
  Proof.
    unfold qmax. destruct (Qle_bool a b) eqn:E.
    - right. split; [reflexivity|]. apply Qle_bool_iff. exact E.
    - left. split; [reflexivity|]. destruct (Qlt_le_dec b a) as [X|X]; [lra|]. apply Qle_bool_iff in X. congruence.
  Qed.

  Lemma width_range p : 0 <= p_width cdf p /\ p_width cdf p <= 1.
  Proof. unfold p_width. destruct (px_width p); [apply prob_range|lra]. Qed.
  Lemma narrow_range p : 0 <= p_width_narrow cdf p /\ p_width_narrow cdf p <= 1.
  Proof. unfold p_width_narrow. destruct (px_width p); [apply prob_range|lra]. Qed.

  (** The pieces of the probability. *)
  Lemma others_range p : let x := calc_prob_from_all cdf p in
    0 <= x /\ x <= 1 /\ x <= p_z_weak cdf p /\ x <= p_temp_strict cdf p /\ x <= p_width cdf p /\ x <= p_v cdf p.
  Proof.
    unfold calc_prob_from_all. pose proof (prob_range (px_z p) (-20) 8 true) as A. fold (p_z_weak cdf p) in A.
    pose proof (prob_range (px_tw p) 274 1 false) as B. fold (p_temp_strict cdf p) in B.
    pose proof (width_range p) as C. pose proof (prob_range (px_v p) (- (7 # 2)) 2 false) as E. fold (p_v cdf p) in E.
    destruct (product_range _ _ A B) as (F1 & F2 & F3 & F4).
    destruct (product_range _ _ (conj F1 F2) C) as (G1 & G2 & G3 & G4).
    destruct (product_range _ _ (conj G1 G2) E) as (H1 & H2 & H3 & H4). cbn zeta. repeat split; lra.
  Qed.
  Lemma adjusted_range radar p x : 0 <= x /\ x <= 1 -> let y := adjust_for_radar cdf radar p x in
    0 <= y /\ y <= x /\ (contains "mira" (lower radar) = true -> y <= p_lwp cdf p).
  Proof.
    intros X. unfold adjust_for_radar. destruct (contains _ _); cbn zeta.
    - pose proof (prob_range (Some (px_lwp p)) (15 # 100) (5 # 100) true) as A. fold (p_lwp cdf p) in A.
      destruct (product_range _ _ X A) as (F1 & F2 & F3 & F4). auto.
    - split; [apply X|]. split; [lra|discriminate].
  Qed.
  Lemma sldr_total_range p s : let x := qmax (p_ldr cdf s) (qmax (p_v_sigma_sldr cdf p) (if is_masked (px_v_sigma p) then p_z_insect cdf p else 0))
      * p_width_narrow cdf p * p_temp_sldr cdf p in 0 <= x /\ x <= 1 /\ x <= p_width_narrow cdf p /\ x <= p_temp_sldr cdf p.
  Proof.
    assert (P : 0 <= qmax (p_ldr cdf s) (qmax (p_v_sigma_sldr cdf p) (if is_masked (px_v_sigma p) then p_z_insect cdf p else 0)) /\
      qmax (p_ldr cdf s) (qmax (p_v_sigma_sldr cdf p) (if is_masked (px_v_sigma p) then p_z_insect cdf p else 0)) <= 1).
    { pose proof (prob_range s (-25) 5 false) as A. fold (p_ldr cdf s) in A.
      pose proof (prob_range (px_v_sigma p) (2 # 10) (15 # 100) false) as B. fold (p_v_sigma_sldr cdf p) in B.
      assert (C : 0 <= (if is_masked (px_v_sigma p) then p_z_insect cdf p else 0) /\ (if is_masked (px_v_sigma p) then p_z_insect cdf p else 0) <= 1).
      { destruct (is_masked _); [apply prob_range|lra]. }
      set (c := if is_masked (px_v_sigma p) then p_z_insect cdf p else 0) in *. clearbody c.
      destruct (qmax_cases (p_v_sigma_sldr cdf p) c) as [[E1 _]|[E1 _]];
        destruct (qmax_cases (p_ldr cdf s) (qmax (p_v_sigma_sldr cdf p) c)) as [[E2 _]|[E2 _]]; rewrite E2, ?E1; lra. }
    pose proof (narrow_range p) as B. pose proof (prob_range (px_tw p) 265 3 false) as C. fold (p_temp_sldr cdf p) in C.
    destruct (product_range _ _ P B) as (F1 & F2 & F3 & F4).
    destruct (product_range _ _ (conj F1 F2) C) as (G1 & G2 & G3 & G4). cbn zeta. repeat split; lra.
  Qed.
  Lemma high_range p l : let x := p_ldr cdf l * p_temp_loose cdf p in 0 <= x /\ x <= 1 /\ x <= p_ldr cdf l /\ x <= p_temp_loose cdf p.
  Proof.
    pose proof (prob_range l (-25) 5 false) as A. fold (p_ldr cdf l) in A.
    pose proof (prob_range (px_tw p) 268 2 false) as B. fold (p_temp_loose cdf p) in B.
    destruct (product_range _ _ A B) as (F1 & F2 & F3 & F4). cbn zeta. auto.
  Qed.
  Lemma depol_range p : 0 <= calc_prob_from_ldr cdf p /\ calc_prob_from_ldr cdf p <= 1.
  Proof.
    unfold calc_prob_from_ldr. destruct (px_ldr p) as [l|]; [pose proof (high_range p l) as H; cbn zeta in H; lra|].
    destruct (px_sldr p) as [s|]; [|lra]. cbn zeta. unfold assign. destruct (qgt _ _).
    - pose proof (high_range p s) as H. cbn zeta in H. lra.
    - pose proof (sldr_total_range p s) as H. cbn zeta in H. lra.
  Qed.
  Lemma probability_range radar p : let r := insect_probability cdf radar p in
    0 <= fst r /\ fst r <= 1 /\ 0 <= snd r /\ snd r <= fst r.
  Proof.
    cbn zeta. unfold insect_probability. cbn [fst snd]. pose proof (depol_range p) as A. pose proof (others_range p) as B. cbn zeta in B.
    pose proof (adjusted_range radar p (calc_prob_from_all cdf p) ltac:(lra)) as C. cbn zeta in C.
    destruct (qmax_cases (calc_prob_from_ldr cdf p) (adjust_for_radar cdf radar p (calc_prob_from_all cdf p))) as [[E X]|[E X]]; rewrite E; lra.
  Qed.

  (** ** What a probability above one half requires *)
  Lemma above_weaker a b x : a <= b -> above b x -> above a x.
  Proof. intros H (y & -> & L). exists y. split; [reflexivity|lra]. Qed.

  Lemma contains_mira radar : contains "mira" (lower radar) = true <-> occurs_any_case "mira" radar.
  Proof. apply contains_lower. cbn. unfold lower_case. cbn. repeat split; lia. Qed.

  Lemma probability_half radar p : 1 # 2 < fst (insect_probability cdf radar p) -> by_others radar p \/ by_ldr p \/ by_sldr p.
  Proof.
    unfold insect_probability. cbn [fst]. pose proof (others_range p) as B. cbn zeta in B.
    pose proof (adjusted_range radar p (calc_prob_from_all cdf p) ltac:(lra)) as C. cbn zeta in C.
    destruct (qmax_cases (calc_prob_from_ldr cdf p) (adjust_for_radar cdf radar p (calc_prob_from_all cdf p))) as [[E X]|[E X]]; rewrite E; intros H.
    - right. clear E X B C. unfold calc_prob_from_ldr in H. destruct (px_ldr p) as [l|] eqn:El.
      + left. pose proof (high_range p l) as R. cbn zeta in R. exists l. split; [exact El|]. split.
        * apply (prob_above l (-25) 5); [reflexivity|]. fold (p_ldr cdf l). lra.
        * apply (prob_above (px_tw p) 268 2); [reflexivity|]. fold (p_temp_loose cdf p). lra.
      + destruct (px_sldr p) as [s|] eqn:Es; [|lra]. right. split; [exact El|]. exists s. split; [exact Es|]. cbn zeta in H. unfold assign in H.
        destruct (qgt (p_ldr cdf s * p_temp_loose cdf p) (9 # 10)).
        * pose proof (high_range p s) as R. cbn zeta in R. split; [apply (above_weaker 265 268); [discriminate|]|left].
          -- apply (prob_above (px_tw p) 268 2); [reflexivity|]. fold (p_temp_loose cdf p). lra.
          -- apply (prob_above s (-25) 5); [reflexivity|]. fold (p_ldr cdf s). lra.
        * pose proof (sldr_total_range p s) as R. cbn zeta in R. split.
          -- apply (prob_above (px_tw p) 265 3); [reflexivity|]. fold (p_temp_sldr cdf p). lra.
          -- set (proxy := qmax (p_ldr cdf s) (qmax (p_v_sigma_sldr cdf p) (if is_masked (px_v_sigma p) then p_z_insect cdf p else 0))) in *.
             assert (HP : 1 # 2 < proxy).
             { pose proof (narrow_range p) as B. pose proof (prob_range (px_tw p) 265 3 false) as C. fold (p_temp_sldr cdf p) in C.
               assert (P0 : 0 <= proxy).
               { unfold proxy. pose proof (prob_range s (-25) 5 false) as A. fold (p_ldr cdf s) in A.
                 destruct (qmax_cases (p_ldr cdf s) (qmax (p_v_sigma_sldr cdf p) (if is_masked (px_v_sigma p) then p_z_insect cdf p else 0))) as [[-> _]|[-> Y]]; lra. }
               clearbody proxy. destruct (Qlt_le_dec (1 # 2) proxy) as [Y|Y]; [exact Y|]. exfalso.
               assert (F := product_range proxy (p_width_narrow cdf p) ltac:(lra) B). destruct F as (F1 & F2 & F3 & F4).
               assert (G := product_range _ (p_temp_sldr cdf p) (conj F1 F2) C). lra. }
             assert (W : 1 # 2 < p_width_narrow cdf p) by (destruct R as (_ & _ & R & _); exact (Qlt_le_trans _ _ _ H R)).
             clear R H. unfold proxy in HP. clear proxy.
             destruct (qmax_cases (p_ldr cdf s) (qmax (p_v_sigma_sldr cdf p) (if is_masked (px_v_sigma p) then p_z_insect cdf p else 0))) as [[E1 _]|[E1 _]].
             ++ left. rewrite E1 in HP. apply (prob_above s (-25) 5); [reflexivity|exact HP].
             ++ right.
                split.
                ** intros w Hw. apply (prob_below w (3 # 10) (1 # 10)); [reflexivity|]. unfold p_width_narrow in W. rewrite Hw in W. exact W.
                ** rewrite E1 in HP. destruct (qmax_cases (p_v_sigma_sldr cdf p) (if is_masked (px_v_sigma p) then p_z_insect cdf p else 0)) as [[E2 _]|[E2 _]].
                   --- left. rewrite E2 in HP. apply (prob_above (px_v_sigma p) (2 # 10) (15 # 100)); [reflexivity|exact HP].
                   --- right. rewrite E2 in HP. destruct (px_v_sigma p) as [v|]; cbn [is_masked] in HP; [lra|]. split; [reflexivity|].
                       apply (prob_below (px_z p) (-30) 5); [reflexivity|exact HP].
    - left. destruct C as (C1 & C2 & C3). split; [|split; [|split; [|split]]].
      + apply (prob_below (px_z p) (-20) 8); [reflexivity|]. fold (p_z_weak cdf p). lra.
      + apply (prob_above (px_tw p) 274 1); [reflexivity|]. fold (p_temp_strict cdf p). lra.
      + apply (prob_above (px_v p) (- (7 # 2)) 2); [reflexivity|]. fold (p_v cdf p). lra.
      + intros w Hw. apply (prob_below w 1 (3 # 10)); [reflexivity|]. assert (W : 1 # 2 < p_width cdf p) by lra.
        unfold p_width in W. rewrite Hw in W. exact W.
      + intros O. apply contains_mira in O. specialize (C3 O).
        destruct (prob_below (Some (px_lwp p)) (15 # 100) (5 # 100)) as (a & Ea & La); [reflexivity|fold (p_lwp cdf p); lra|].
        assert (a = px_lwp p) by congruence. subst a. exact La.
  Qed.

  (** ** Warmer pixels *)
  Lemma product_mono a b c d : 0 <= a -> a <= b -> 0 <= c -> c <= d -> a * c <= b * d.
  Proof. intros. nra. Qed.
  Lemma qmax_mono a b c d : a <= b -> c <= d -> qmax a c <= qmax b d.
  Proof. intros. destruct (qmax_cases a c) as [[-> ?]|[-> ?]], (qmax_cases b d) as [[-> ?]|[-> ?]]; lra. Qed.
  Section Warmer.
    Variables (radar : string) (p q : insect_pixel).
    Hypothesis W : warmer p q.
    Lemma temp_warmer loc scale : 0 < scale -> array_to_probability cdf (px_tw p) loc scale false <= array_to_probability cdf (px_tw q) loc scale false.
    Proof. intros S. destruct W as (a & b & -> & -> & L & _). apply prob_warmer; assumption. Qed.
    Lemma others_warmer : adjust_for_radar cdf radar p (calc_prob_from_all cdf p) <= adjust_for_radar cdf radar q (calc_prob_from_all cdf q).
    Proof.
      pose proof (temp_warmer 274 1 ltac:(reflexivity)) as T. fold (p_temp_strict cdf p) in T. fold (p_temp_strict cdf q) in T.
      destruct W as (a & b & _ & _ & _ & Ez & Ev & Ew & _ & _ & _ & El).
      assert (A : calc_prob_from_all cdf p <= calc_prob_from_all cdf q).
      { unfold calc_prob_from_all. replace (p_z_weak cdf q) with (p_z_weak cdf p) by (unfold p_z_weak; congruence).
        replace (p_width cdf q) with (p_width cdf p) by (unfold p_width; rewrite Ew; reflexivity).
        replace (p_v cdf q) with (p_v cdf p) by (unfold p_v; congruence).
        pose proof (prob_range (px_z p) (-20) 8 true) as R1. fold (p_z_weak cdf p) in R1. pose proof (width_range p) as R2.
        pose proof (prob_range (px_v p) (- (7 # 2)) 2 false) as R3. fold (p_v cdf p) in R3.
        pose proof (prob_range (px_tw p) 274 1 false) as R4. fold (p_temp_strict cdf p) in R4.
        apply product_mono; [|apply product_mono; [|apply product_mono; lra|lra|lra]|lra|lra].
        - apply Qmult_le_0_compat; [apply Qmult_le_0_compat|]; lra.
        - apply Qmult_le_0_compat; lra. }
      unfold adjust_for_radar. destruct (contains _ _); [|exact A].
      replace (p_lwp cdf q) with (p_lwp cdf p) by (unfold p_lwp; congruence).
      pose proof (prob_range (Some (px_lwp p)) (15 # 100) (5 # 100) true) as R. fold (p_lwp cdf p) in R.
      pose proof (others_range p) as O. cbn zeta in O. apply product_mono; lra.
    Qed.
    Lemma high_warmer l : p_ldr cdf l * p_temp_loose cdf p <= p_ldr cdf l * p_temp_loose cdf q.
    Proof.
      pose proof (temp_warmer 268 2 ltac:(reflexivity)) as T. fold (p_temp_loose cdf p) in T. fold (p_temp_loose cdf q) in T.
      pose proof (prob_range l (-25) 5 false) as R. fold (p_ldr cdf l) in R.
      pose proof (prob_range (px_tw p) 268 2 false) as R'. fold (p_temp_loose cdf p) in R'. apply product_mono; lra.
    Qed.
    Lemma probability_warmer : (px_ldr p <> None \/ px_sldr p = None) ->
      fst (insect_probability cdf radar p) <= fst (insect_probability cdf radar q).
    Proof.
      intros H. unfold insect_probability. cbn [fst]. apply qmax_mono; [|exact others_warmer].
      pose proof high_warmer as HW. destruct W as (a & b & _ & _ & _ & _ & _ & _ & _ & El & Es & _).
      unfold calc_prob_from_ldr. rewrite <- El, <- Es. destruct (px_ldr p) as [l|]; [apply HW|].
      destruct H as [H|H]; [congruence|]. rewrite H. lra.
    Qed.
    Lemma flag_warmer lim : lim <= 9 # 10 -> lim < fst (insect_probability cdf radar p) -> lim < fst (insect_probability cdf radar q).
    Proof.
      intros L. unfold insect_probability. cbn [fst]. intros H.
      assert (A := others_warmer). set (x := adjust_for_radar cdf radar p (calc_prob_from_all cdf p)) in *.
      set (y := adjust_for_radar cdf radar q (calc_prob_from_all cdf q)) in *. clearbody x y.
      assert (B : lim < calc_prob_from_ldr cdf p -> lim < calc_prob_from_ldr cdf q).
      { clear H A. pose proof high_warmer as HW. pose proof (temp_warmer 265 3 ltac:(reflexivity)) as T. fold (p_temp_sldr cdf p) in T. fold (p_temp_sldr cdf q) in T.
        destruct W as (a & b & _ & _ & _ & Ez & _ & Ew & Evs & El & Es & _). unfold calc_prob_from_ldr. rewrite <- El, <- Es.
        destruct (px_ldr p) as [l|]; [specialize (HW l); lra|]. destruct (px_sldr p) as [s|]; [|lra]. specialize (HW s). cbn zeta. unfold assign.
        rewrite <- Evs. replace (p_z_insect cdf q) with (p_z_insect cdf p) by (unfold p_z_insect; congruence).
        replace (p_v_sigma_sldr cdf q) with (p_v_sigma_sldr cdf p) by (unfold p_v_sigma_sldr; congruence).
        replace (p_width_narrow cdf q) with (p_width_narrow cdf p) by (unfold p_width_narrow; rewrite Ew; reflexivity).
        destruct (qgt (p_ldr cdf s * p_temp_loose cdf q) (9 # 10)) eqn:Gq.
        - apply qgt_iff in Gq. intros _. lra.
        - apply qgt_false in Gq. destruct (qgt (p_ldr cdf s * p_temp_loose cdf p) (9 # 10)) eqn:Gp; [apply qgt_iff in Gp; lra|].
          pose proof (narrow_range p) as R2. pose proof (prob_range (px_tw p) 265 3 false) as R3. fold (p_temp_sldr cdf p) in R3.
          assert (R1 : 0 <= qmax (p_ldr cdf s) (qmax (p_v_sigma_sldr cdf p) (if is_masked (px_v_sigma p) then p_z_insect cdf p else 0))).
          { pose proof (prob_range s (-25) 5 false) as R. fold (p_ldr cdf s) in R.
            destruct (qmax_cases (p_ldr cdf s) (qmax (p_v_sigma_sldr cdf p) (if is_masked (px_v_sigma p) then p_z_insect cdf p else 0))) as [[-> Y]|[-> Y]]; lra. }
          set (m := qmax (p_ldr cdf s) _) in *. clearbody m. intros H. apply (Qlt_le_trans _ _ _ H). apply product_mono; [|lra|lra|exact T].
          apply Qmult_le_0_compat; lra. }
      destruct (qmax_cases (calc_prob_from_ldr cdf p) x) as [[E1 X]|[E1 X]], (qmax_cases (calc_prob_from_ldr cdf q) y) as [[E2 Y]|[E2 Y]];
        rewrite E1 in H; rewrite E2; try lra; specialize (B H); lra.
    Qed.
  End Warmer.

  (** ** Clear cases *)
  Lemma depol_below radar p : calc_prob_from_ldr cdf p <= fst (insect_probability cdf radar p).
  Proof. unfold insect_probability. cbn [fst]. destruct (qmax_cases (calc_prob_from_ldr cdf p) (adjust_for_radar cdf radar p (calc_prob_from_all cdf p))) as [[-> Y]|[-> Y]]; lra. Qed.
  Lemma ldr_detects radar p l k : px_ldr p = Some l -> at_least (-25 + k * 5) l -> at_least (268 + k * 2) (px_tw p) ->
    cdf k * cdf k <= fst (insect_probability cdf radar p).
  Proof.
    intros E A B. apply Qle_trans with (calc_prob_from_ldr cdf p); [|apply depol_below]. unfold calc_prob_from_ldr. rewrite E.
    assert (C := cdf_range cdf D k). apply product_mono; [apply C| |apply C|].
    - apply (prob_at_least l (-25) 5); [reflexivity|exact A].
    - apply (prob_at_least (px_tw p) 268 2); [reflexivity|exact B].
  Qed.
  Lemma others_detects radar p k : at_most (-20 - k * 8) (px_z p) -> at_least (274 + k * 1) (px_tw p) ->
    if_measured (at_most (1 - k * (3 # 10))) (px_width p) -> at_least (- (7 # 2) + k * 2) (px_v p) ->
    px_lwp p <= (15 # 100) - k * (5 # 100) -> cdf k * cdf k * cdf k * cdf k * cdf k <= fst (insect_probability cdf radar p).
  Proof.
    intros Z T Wd V Lw. assert (C := cdf_range cdf D k).
    assert (P1 := prob_at_most (px_z p) (-20) 8 k ltac:(reflexivity) Z). fold (p_z_weak cdf p) in P1.
    assert (P2 := prob_at_least (px_tw p) 274 1 k ltac:(reflexivity) T). fold (p_temp_strict cdf p) in P2.
    assert (P4 := prob_at_least (px_v p) (- (7 # 2)) 2 k ltac:(reflexivity) V). fold (p_v cdf p) in P4.
    assert (P5 := prob_at_most (Some (px_lwp p)) (15 # 100) (5 # 100) k ltac:(reflexivity) (ex_intro _ _ (conj eq_refl Lw))). fold (p_lwp cdf p) in P5.
    assert (P3 : cdf k <= p_width cdf p).
    { unfold p_width. destruct (px_width p) as [w|] eqn:Ew; [|apply C]. apply (prob_at_most w 1 (3 # 10)); [reflexivity|exact (Wd w eq_refl)]. }
    assert (C2 : 0 <= cdf k * cdf k) by (apply Qmult_le_0_compat; apply C).
    assert (C3 : 0 <= cdf k * cdf k * cdf k) by (apply Qmult_le_0_compat; [exact C2|apply C]).
    assert (C4 : 0 <= cdf k * cdf k * cdf k * cdf k) by (apply Qmult_le_0_compat; [exact C3|apply C]).
    assert (A : cdf k * cdf k * cdf k * cdf k <= calc_prob_from_all cdf p).
    { unfold calc_prob_from_all. apply product_mono; [exact C3| |apply C|exact P4]. apply product_mono; [exact C2| |apply C|exact P3].
      apply product_mono; [apply C|exact P1|apply C|exact P2]. }
    assert (B : cdf k * cdf k * cdf k * cdf k * cdf k <= adjust_for_radar cdf radar p (calc_prob_from_all cdf p)).
    { unfold adjust_for_radar. destruct (contains _ _).
      - apply product_mono; [exact C4|exact A|apply C|exact P5].
      - apply Qle_trans with (cdf k * cdf k * cdf k * cdf k); [|exact A].
        pose proof (product_range (cdf k * cdf k) (cdf k)). set (c := cdf k) in *. clearbody c. clear -C C4. nra. }
    unfold insect_probability. cbn [fst]. destruct (qmax_cases (calc_prob_from_ldr cdf p) (adjust_for_radar cdf radar p (calc_prob_from_all cdf p))) as [[-> Y]|[-> Y]]; lra.
  Qed.
  Lemma nothing_measured radar p : px_z p = None -> (forall y, px_ldr p = Some y -> y = None) -> (forall y, px_sldr p = Some y -> y = None) ->
    px_v_sigma p = None -> fst (insect_probability cdf radar p) == 0.
  Proof.
    intros Z L S V. unfold insect_probability. cbn [fst].
    assert (A : calc_prob_from_ldr cdf p == 0).
    { unfold calc_prob_from_ldr. destruct (px_ldr p) as [l|]; [rewrite (L l eq_refl); cbn [p_ldr array_to_probability]; unfold p_ldr, array_to_probability; ring|].
      destruct (px_sldr p) as [s|]; [|reflexivity]. rewrite (S s eq_refl), V. unfold p_v_sigma_sldr, p_z_insect. rewrite Z, V.
      unfold p_ldr, array_to_probability. cbn [is_masked]. unfold assign. destruct (qgt _ _); [ring|].
      change (qmax 0 (qmax 0 0)) with 0. ring. }
    assert (B : calc_prob_from_all cdf p == 0).
    { unfold calc_prob_from_all, p_z_weak. rewrite Z. cbn [array_to_probability]. ring. }
    assert (C : adjust_for_radar cdf radar p (calc_prob_from_all cdf p) == 0).
    { unfold adjust_for_radar. destruct (contains _ _); rewrite B; ring. }
    destruct (qmax_cases (calc_prob_from_ldr cdf p) (adjust_for_radar cdf radar p (calc_prob_from_all cdf p))) as [[-> Y]|[-> Y]]; assumption.
  Qed.

  (** ** Profiles *)
  Lemma profile_flags lim radar pixels melt liq rain j f pr :
    nth_error (find_insects cdf lim radar pixels melt liq rain) j = Some (f, pr) ->
    nth_error (find_insects_row lim (map fst (map (insect_probability cdf radar) pixels)) (map snd (map (insect_probability cdf radar) pixels)) melt liq rain) j = Some f.
  Proof.
    unfold find_insects, find_insects_row. rewrite !nth_error_map'. destruct (nth_error (screen_insects_row _ _ _ _ _) j); cbn [option_map]; [|discriminate].
    intros H. congruence.
  Qed.
  Lemma profile_value lim radar pixels melt liq rain j f pr :
    nth_error (find_insects cdf lim radar pixels melt liq rain) j = Some (f, pr) ->
    exists p, nth_error pixels j = Some p /\ (forall x, pr = Some x -> x = fst (insect_probability cdf radar p) /\ ~ x == 0) /\
      (f = true <-> lim < match pr with Some x => x | None => 0 end).
  Proof.
    unfold find_insects, screen_insects_row. rewrite !nth_error_map', !nth_error_map2, !nth_error_combine, !nth_error_map'.
    destruct (nth_error (ffill_bool liq) j) as [al|]; [|discriminate]. destruct (nth_error pixels j) as [p|]; cbn [option_map]; [|discriminate].
    destruct (nth_error (ffill_bool melt) j) as [am|]; [|discriminate]. destruct (nth_error liq j) as [l|]; [|discriminate]. cbn [fst snd option_map].
    set (x := fst (insect_probability cdf radar p)).
    set (y := assign rain 0 (assign (al && qgt (snd (insect_probability cdf radar p)) 0) 0 (assign am 0 (assign l 0 x)))).
    assert (Y : y = x \/ y = 0) by (unfold y, assign; destruct rain; [right; reflexivity|]; destruct (al && _); [right; reflexivity|]; destruct am; [right; reflexivity|]; destruct l; auto).
    intros H. exists p. split; [reflexivity|]. clearbody y. assert (F : qgt y lim = f) by congruence. assert (P : (if Qeq_bool y 0 then None else Some y) = pr) by congruence.
    subst f pr. rewrite qgt_iff. destruct (Qeq_bool y 0) eqn:Q0.
    - apply Qeq_bool_iff in Q0. split; [discriminate|]. split; lra.
    - assert (N : ~ y == 0) by (intros X; apply Qeq_bool_iff in X; congruence). split; [|tauto].
      intros z Hz. assert (z = y) by congruence. subst z. split; [|exact N]. destruct Y as [Y|Y]; [exact Y|]. exfalso. apply N. rewrite Y. reflexivity.
  Qed.
End Proofs.
