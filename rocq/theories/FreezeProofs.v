(** Proofs about the freezing level and the freezing region. *)
From Verif Require Import Base ArrayModel ArrayProofs FillModel FillProofs TimeModel TimeProofs GridModel GridProofs
  LayerModel ImageModel ImageProofs FallingProofs InstrumentProofs ClassifyModel DropletModel DropletSpec DropletProofs
  MeltModel MeltSpec MeltProofs MeltImageProofs.
From Coq Require Import Lqa Qabs.
Open Scope nat_scope.

(** ** Freezing level *)
Lemma t0_cases height prof : length prof = length height ->
  (t0_alt_profile height prof = Raise IndexError /\ forall k t, nth_error prof k = Some t -> (27316 # 100 <= t)%Q) \/
  (exists a, t0_alt_profile height prof = Ok a /\ freezing_level height prof a).
Proof.
  intros L. unfold t0_alt_profile.
  assert (F : forall k, nth_error (map (fun t => qlt t T0) prof) k = Some true <-> exists t, nth_error prof k = Some t /\ (t < 27316 # 100)%Q).
  { intros k. rewrite nth_error_map'. destruct (nth_error prof k) as [t|]; cbn [option_map].
    - split.
      + intros [= E]. apply qlt_iff in E. exists t. auto.
      + intros (t' & [= <-] & E). f_equal. apply qlt_iff. exact E.
    - split; [discriminate|]. intros (t & ? & _). discriminate. }
  destruct (where1 (map (fun t => qlt t T0) prof)) as [|k r] eqn:W.
  - left. split; [reflexivity|]. intros k t Hk. destruct (Qlt_le_dec t (27316 # 100)) as [X|X]; [|exact X]. exfalso.
    apply (proj1 (where1_nil _) W k). apply F. eauto.
  - right. destruct (where1_hd _ _ _ W) as [H1 H2]. apply F in H1 as (t & Et & Ht).
    assert (Hb : forall j s, j < k -> nth_error prof j = Some s -> (27316 # 100 <= s)%Q).
    { intros j s Hj Ej. destruct (Qlt_le_dec s (27316 # 100)) as [X|X]; [|exact X]. exfalso. apply (H2 j Hj). apply F. eauto. }
    assert (Lk := nth_error_Some_lt _ _ _ Et).
    destruct (item_lt height k ltac:(lia)) as (h & Ih & Eh).
    destruct k as [|k].
    + exists h. split; [exact Ih|]. exists 0, t, h. split; [exact Et|split; [exact Eh|split; [exact Ht|split; [exact Hb|reflexivity]]]].
    + destruct (item_lt prof k ltac:(lia)) as (s & Is & Es). destruct (item_lt height k ltac:(lia)) as (g & Ig & Eg).
      rewrite Is, (proj2 (item_ok _ _ _) Et), Ig, Ih. cbn [bind]. eexists. split; [reflexivity|].
      assert (Hs := Hb k s ltac:(lia) Es).
      exists (S k), t, h. split; [exact Et|split; [exact Eh|split; [exact Ht|split; [exact Hb|]]]].
      exists s, g. split; [exact Es|split; [exact Eg|]].
      unfold pair_le. cbn [fst snd]. replace (qlt s t) with false by (symmetry; apply qlt_false; lra).
      replace (Qeq_bool s t) with false.
      2:{ symmetry. destruct (Qeq_bool s t) eqn:X; [|reflexivity]. apply Qeq_bool_iff in X. exfalso. lra. }
      cbn [orb andb interp interp_from]. unfold T0.
      replace (qlt (27316 # 100) t) with false by (symmetry; apply qlt_false; lra).
      destruct (qlt (27316 # 100) s) eqn:X.
      * apply qlt_iff in X. field. lra.
      * apply qlt_false in X. assert (Y : (s - (27316 # 100) == 0)%Q) by lra. rewrite Y. field. lra.
Qed.
Lemma freezing_level_unique height prof a a' : freezing_level height prof a -> freezing_level height prof a' -> (a == a')%Q.
Proof.
  intros (k & t & h & Et & Eh & Ht & Hb & E) (k' & t' & h' & Et' & Eh' & Ht' & Hb' & E').
  assert (k = k').
  { destruct (Nat.lt_trichotomy k k') as [X|[X|X]]; [|exact X|]; exfalso.
    - specialize (Hb' k t X Et). lra.
    - specialize (Hb k' t' X Et'). lra. }
  subst k'. assert (t' = t) by congruence. assert (h' = h) by congruence. subst t' h'. destruct k as [|k].
  - lra.
  - destruct E as (s & g & Es & Eg & E). destruct E' as (s' & g' & Es' & Eg' & E').
    assert (s' = s) by congruence. assert (g' = g) by congruence. subst. rewrite E, E'. reflexivity.
Qed.
Lemma freezing_level_cold height prof a : freezing_level height prof a -> exists k t, nth_error prof k = Some t /\ (t < 27316 # 100)%Q.
Proof. intros (k & t & h & Et & _ & Ht & _). eauto. Qed.
(** It lies between the last warm gate and the first cold gate. *)
Lemma freezing_level_between height prof a : rising height -> freezing_level height prof a ->
  exists k h, nth_error height k = Some h /\ (a <= h)%Q /\ (exists t, nth_error prof k = Some t /\ (t < 27316 # 100)%Q) /\
    forall j g s, j < k -> nth_error height j = Some g -> nth_error prof j = Some s -> (g <= a /\ 27316 # 100 <= s)%Q.
Proof.
  intros R (k & t & h & Et & Eh & Ht & Hb & E). exists k, h. split; [exact Eh|]. destruct k as [|k].
  - split; [lra|]. split; [eauto|]. intros; lia.
  - destruct E as (s & g & Es & Eg & E). assert (Hs := Hb k s ltac:(lia) Es). assert (G := R k (S k) g h ltac:(lia) Eg Eh).
    assert (B : (0 <= (s - (27316 # 100)) / (s - t) /\ (s - (27316 # 100)) / (s - t) <= 1)%Q).
    { split.
      - apply Qle_shift_div_l; lra.
      - apply Qle_shift_div_r; lra. }
    set (q := ((s - (27316 # 100)) / (s - t))%Q) in *. clearbody q.
    assert (X1 : (0 <= (h - g) * q)%Q) by (apply Qmult_le_0_compat; lra).
    assert (X2 : (0 <= (h - g) * (1 - q))%Q) by (apply Qmult_le_0_compat; lra).
    split; [lra|]. split; [eauto|]. intros j g' s' Hj Eg' Es'. split; [|exact (Hb j s' Hj Es')].
    destruct (Nat.eq_dec j k) as [->|N].
    + assert (g' = g) by congruence. subst. lra.
    + assert (g' < g)%Q by (apply (R j k); [lia|assumption|assumption]). lra.
Qed.

Lemma find_t0_alt_ok tw height : (forall row, In row tw -> length row = length height /\ exists k t, nth_error row k = Some t /\ (t < 27316 # 100)%Q) ->
  exists out, find_t0_alt tw height = Ok out /\ length out = length tw /\
    forall i row, nth_error tw i = Some row -> exists a, nth_error out i = Some a /\ freezing_level height row a.
Proof.
  intros H. unfold find_t0_alt.
  destruct (sequence_forall2 (t0_alt_profile height) (freezing_level height) tw) as (out & E & F).
  { apply Forall_forall. intros row Hr. destruct (H row Hr) as (L & k & t & Ek & Ht).
    destruct (t0_cases height row L) as [[_ X]|X]; [|exact X]. specialize (X k t Ek). lra. }
  exists out. split; [exact E|]. split; [symmetry; exact (forall2_length _ _ _ F)|].
  intros i row Hi. pose proof (forall2_nth _ _ _ F i) as N. rewrite Hi in N. destruct (nth_error out i) as [a|]; [eauto|contradiction].
Qed.
Lemma find_t0_alt_warm tw height row : (forall row, In row tw -> length row = length height) -> In row tw ->
  (forall k t, nth_error row k = Some t -> (27316 # 100 <= t)%Q) -> find_t0_alt tw height = Raise IndexError.
Proof.
  intros L Hin Hw. unfold find_t0_alt. apply (sequence_raise _ _ row); [exact Hin| |].
  - destruct (t0_cases height row (L row Hin)) as [[E _]|(a & _ & X)]; [exact E|].
    apply freezing_level_cold in X as (k & t & Ek & Ht). specialize (Hw k t Ek). lra.
  - intros r Hr. destruct (t0_cases height r (L r Hr)) as [[E _]|(a & E & _)]; [left|right; exists a]; exact E.
Qed.

(** ** Median altitude of the melting layer *)
Lemma select_picked row height : select row height = picked row height.
Proof.
  revert height. unfold select. induction row as [|b row IH]; intros [|h height]; cbn [combine filter map picked]; try reflexivity.
  destruct b; cbn [fst snd map]; rewrite ?IH; reflexivity.
Qed.
Lemma in_picked row height x : In x (picked row height) -> In x height.
Proof.
  revert height. induction row as [|b row IH]; intros [|h height]; cbn [picked]; intros H; try destruct H.
  destruct b; [destruct H as [->|H]; [left; reflexivity|]|]; right; exact (IH _ H).
Qed.
Lemma median_unique l m m' : is_median l m -> is_median l m' -> (m == m')%Q.
Proof.
  intros (s & a & b & P & S & Ea & Eb & E) (s' & a' & b' & P' & S' & Ea' & Eb' & E').
  assert (Q : Forall2 Qeq s s').
  { apply sorted_perm_qeq; [|exact S|exact S']. eapply Permutation_trans; [apply Permutation_sym; exact P|exact P']. }
  pose proof (forall2_nth _ _ _ Q) as N. pose proof (N ((length l - 1) / 2)) as N1. pose proof (N (length l / 2)) as N2.
  rewrite Ea, Ea' in N1. rewrite Eb, Eb' in N2. lra.
Qed.
Lemma median_nonempty l m : is_median l m -> l <> [].
Proof. intros (s & a & b & P & _ & Ea & _) ->. apply Permutation_nil in P. subst. discriminate. Qed.

(** ** Altitudes to interpolate *)
Section Alts.
  Variables (mean : list (masked Q)) (t0 : list Q) (win : nat).
  Hypothesis Len : length t0 = length mean.
  Hypothesis Pos : 0 < length mean.
  Hypothesis Win : 0 < win.
  Definition end_of (i : nat) : Prop := i = 0 \/ S i = length mean.
  Definition calm (i : nat) : Prop := exists k, i = k + win / 2 /\ k + win < length mean /\
    forall q, k <= q -> q < k + win -> nth_error mean q = Some None.

  Lemma half_lt : win / 2 < win.
  Proof. apply Nat.div_lt; lia. Qed.
  Lemma section_masked k : k + win <= length mean ->
    forallb is_masked (section k (k + win) mean) = true <-> forall q, k <= q -> q < k + win -> nth_error mean q = Some None.
  Proof.
    intros L. rewrite forallb_forall. split.
    - intros H q H1 H2. destruct (nth_error_lt_Some mean q ltac:(lia)) as [x Ex]. rewrite Ex. f_equal.
      assert (In x (section k (k + win) mean)).
      { apply (nth_error_In _ (q - k)). rewrite nth_error_section.
        replace (q - k <? k + win - k) with true by (symmetry; apply Nat.ltb_lt; lia). replace (k + (q - k)) with q by lia. exact Ex. }
      specialize (H x H0). destruct x; [discriminate|reflexivity].
    - intros H x Hx. apply In_nth_error in Hx as [q Hq]. rewrite nth_error_section in Hq.
      destruct (q <? k + win - k) eqn:E; [|discriminate]. apply Nat.ltb_lt in E. rewrite (H (k + q)) in Hq by lia.
      assert (x = None) by congruence. subst. reflexivity.
  Qed.

  Lemma loop_spec ks : (forall k, In k ks -> k + win < length mean) -> forall alts, length alts = length mean ->
    exists out, fold_result (fun alts k =>
        if forallb is_masked (section k (k + win) mean)
        then bind (item t0 (k + win / 2)) (fun a => set_nth alts (k + win / 2) (Some a))
        else Ok alts) ks alts = Ok out /\ length out = length mean /\
      forall i, ((exists k, In k ks /\ i = k + win / 2 /\ forall q, k <= q -> q < k + win -> nth_error mean q = Some None) ->
                   exists a, nth_error t0 i = Some a /\ nth_error out i = Some (Some a)) /\
                (~ (exists k, In k ks /\ i = k + win / 2 /\ forall q, k <= q -> q < k + win -> nth_error mean q = Some None) ->
                   nth_error out i = nth_error alts i).
  Proof.
    induction ks as [|k ks IH]; intros Hk alts La; cbn [fold_result].
    - exists alts. split; [reflexivity|]. split; [exact La|]. intros i. split; [intros (k & [] & _)|reflexivity].
    - assert (Lk := Hk k (or_introl eq_refl)). assert (H2 := half_lt).
      assert (Hk' : forall k0, In k0 ks -> k0 + win < length mean) by (intros k0 H0; apply Hk; right; exact H0).
      destruct (forallb is_masked (section k (k + win) mean)) eqn:E.
      + assert (E' := proj1 (section_masked k ltac:(lia)) E).
        destruct (item_lt t0 (k + win / 2) ltac:(lia)) as (a & Ia & Ea). rewrite Ia. cbn [bind].
        destruct (set_nth_spec alts (k + win / 2) (Some a) ltac:(lia)) as (alts' & Es & Ls & Ns). rewrite Es. cbn [bind].
        destruct (IH Hk' alts' ltac:(lia)) as (out & Eo & Lo & G). exists out. split; [exact Eo|]. split; [exact Lo|].
        intros i. destruct (G i) as [G1 G2]. split.
        * intros (k0 & [<-|H0] & Ei & Hm).
          -- destruct (in_dec Nat.eq_dec k ks) as [X|X]; [apply G1; exists k; auto|].
             exists a. split; [rewrite Ei; exact Ea|]. rewrite G2.
             ++ rewrite Ns, Ei, Nat.eqb_refl. reflexivity.
             ++ intros (k1 & H1 & Ei1 & _). assert (k1 = k) by lia. subst. contradiction.
          -- apply G1. exists k0. auto.
        * intros N. rewrite G2; [|intros (k0 & H0 & X); apply N; exists k0; split; [right; exact H0|exact X]].
          rewrite Ns. destruct (i =? k + win / 2) eqn:X; [|reflexivity]. apply Nat.eqb_eq in X. exfalso. apply N.
          exists k. split; [left; reflexivity|]. split; [exact X|exact E'].
      + cbn [bind]. destruct (IH Hk' alts La) as (out & Eo & Lo & G). exists out. split; [exact Eo|]. split; [exact Lo|].
        intros i. destruct (G i) as [G1 G2]. split.
        * intros (k0 & [<-|H0] & Ei & Hm); [|apply G1; exists k0; auto]. exfalso.
          apply (proj2 (section_masked k ltac:(lia))) in Hm. congruence.
        * intros N. apply G2. intros (k0 & H0 & X). apply N. exists k0. split; [right; exact H0|exact X].
  Qed.

  Lemma freezing_altitudes_spec : (forall i m, nth_error mean i = Some (Some m) -> (0 < m)%Q) ->
    exists out, freezing_altitudes mean t0 win = Ok out /\ length out = length mean /\
      forall i, (forall m, nth_error mean i = Some (Some m) -> nth_error out i = Some (Some m)) /\
        (nth_error mean i = Some None -> (end_of i \/ calm i) -> exists a, nth_error t0 i = Some a /\ nth_error out i = Some (Some a)) /\
        (nth_error mean i = Some None -> ~ (end_of i \/ calm i) -> nth_error out i = Some None).
  Proof.
    intros MP. unfold freezing_altitudes.
    destruct (item_lt mean 0 Pos) as (x0 & I0 & E0). destruct (item_lt t0 0 ltac:(lia)) as (a0 & J0 & F0).
    destruct (item_lt mean (length mean - 1) ltac:(lia)) as (x1 & I1 & E1). destruct (item_lt t0 (length mean - 1) ltac:(lia)) as (a1 & J1 & F1).
    rewrite I0, J0. cbn [bind].
    destruct (set_nth_spec mean 0 (Some (or_else x0 a0)) Pos) as (l1 & S1 & L1 & N1). rewrite S1. cbn [bind]. rewrite I1, J1. cbn [bind].
    destruct (set_nth_spec l1 (length mean - 1) (Some (or_else x1 a1)) ltac:(lia)) as (l2 & S2 & L2 & N2). rewrite S2. cbn [bind].
    destruct (loop_spec (seq 0 (length mean - win))) with (alts := l2) as (out & Eo & Lo & G).
    { intros k Hk. apply in_seq in Hk. lia. }
    { lia. }
    exists out. split; [exact Eo|]. split; [exact Lo|]. intros i. destruct (G i) as [G1 G2].
    assert (Calm : calm i <-> exists k, In k (seq 0 (length mean - win)) /\ i = k + win / 2 /\ forall q, k <= q -> q < k + win -> nth_error mean q = Some None).
    { unfold calm. split; intros (k & A & B & C); exists k.
      - split; [apply in_seq; lia|]. auto.
      - apply in_seq in A. split; [exact B|]. split; [lia|exact C]. }
    assert (Or : forall x a, or_else x a = match x with Some m => if Qeq_bool m 0 then a else m | None => a end) by reflexivity.
    assert (NC : forall m, nth_error mean i = Some (Some m) -> ~ calm i).
    { intros m Em (k & Ei & Lk & Hm). pose proof half_lt. rewrite (Hm i) in Em by lia. discriminate. }
    split; [|split].
    - intros m Em. rewrite G2 by (rewrite <- Calm; exact (NC m Em)). rewrite N2, N1.
      assert (P := MP i m Em). assert (Z : Qeq_bool m 0 = false).
      { destruct (Qeq_bool m 0) eqn:X; [|reflexivity]. apply Qeq_bool_iff in X. lra. }
      destruct (i =? length mean - 1) eqn:X.
      + apply Nat.eqb_eq in X. subst i. assert (x1 = Some m) by congruence. subst x1. rewrite Or, Z. reflexivity.
      + destruct (i =? 0) eqn:Y; [|exact Em]. apply Nat.eqb_eq in Y. subst i. assert (x0 = Some m) by congruence. subst x0. rewrite Or, Z. reflexivity.
    - intros Em [En|Ca]; [|apply G1, Calm, Ca].
      assert (D : calm i \/ ~ calm i).
      { rewrite Calm.
        assert (Dec : forall ks, (exists k, In k ks /\ i = k + win / 2 /\ forall q, k <= q -> q < k + win -> nth_error mean q = Some None) \/
                  ~ (exists k, In k ks /\ i = k + win / 2 /\ forall q, k <= q -> q < k + win -> nth_error mean q = Some None)).
        { induction ks as [|k ks [IH|IH]].
          - right. intros (k & [] & _).
          - left. destruct IH as (k0 & A & B). exists k0. split; [right; exact A|exact B].
          - destruct (Nat.eq_dec i (k + win / 2)) as [Ei|Ei].
            + destruct (Nat.le_gt_cases (k + win) (length mean)) as [Lk|Lk].
              * destruct (forallb is_masked (section k (k + win) mean)) eqn:E.
                -- left. exists k. split; [left; reflexivity|]. split; [exact Ei|]. apply section_masked; assumption.
                -- right. intros (k0 & [<-|A] & B & C); [|apply IH; exists k0; auto].
                   assert (C' := proj2 (section_masked k Lk) C). congruence.
              * right. intros (k0 & [<-|A] & B & C); [|apply IH; exists k0; auto].
                specialize (C (k + win - 1) ltac:(lia) ltac:(lia)). apply nth_error_Some_lt in C. lia.
            + right. intros (k0 & [<-|A] & B & C); [congruence|apply IH; exists k0; auto]. }
        apply Dec. }
      destruct D as [D|D]; [apply G1, Calm, D|].
      rewrite G2 by (rewrite <- Calm; exact D). rewrite N2, N1.
      destruct (i =? length mean - 1) eqn:X.
      + apply Nat.eqb_eq in X. subst i. assert (x1 = None) by congruence. subst x1. exists a1. split; [exact F1|reflexivity].
      + destruct (i =? 0) eqn:Y.
        * apply Nat.eqb_eq in Y. subst i. assert (x0 = None) by congruence. subst x0. exists a0. split; [exact F0|reflexivity].
        * apply Nat.eqb_neq in X. apply Nat.eqb_neq in Y. destruct En; lia.
    - intros Em N. rewrite G2 by (rewrite <- Calm; intros X; apply N; right; exact X). rewrite N2, N1.
      destruct (i =? length mean - 1) eqn:X; [apply Nat.eqb_eq in X; exfalso; apply N; left; right; lia|].
      destruct (i =? 0) eqn:Y; [apply Nat.eqb_eq in Y; exfalso; apply N; left; left; exact Y|]. exact Em.
  Qed.
End Alts.

(** ** Interpolation in time *)
Lemma in_valid time alts t a : In (t, a) (valid_altitudes time alts) <->
  exists i, nth_error time i = Some t /\ nth_error alts i = Some (Some a).
Proof.
  unfold valid_altitudes. rewrite in_flat_map. split.
  - intros ((t', x) & Hin & H). apply In_nth_error in Hin as [i Hi]. rewrite nth_error_combine in Hi.
    destruct (nth_error time i) as [t1|] eqn:Et; [|discriminate]. destruct (nth_error alts i) as [x1|] eqn:Ex; [|discriminate].
    assert (t1 = t') by congruence. assert (x1 = x) by congruence. subst. cbn [fst snd] in H.
    destruct x as [y|]; [|destruct H]. destruct H as [H|[]]. assert (t' = t) by congruence. assert (y = a) by congruence. subst. exists i. auto.
  - intros (i & Et & Ex). exists (t, Some a). split; [|left; reflexivity]. apply (nth_error_In _ i). rewrite nth_error_combine, Et, Ex. reflexivity.
Qed.
Lemma valid_sorted time alts : rising time -> StronglySorted by_time (valid_altitudes time alts).
Proof.
  revert alts. induction time as [|t time IH]; intros [|x alts] R; try constructor.
  apply rising_cons in R as [R Hd]. unfold valid_altitudes in *. cbn [combine flat_map fst snd].
  destruct x as [a|]; cbn [app]; [|apply IH; exact R]. constructor; [apply IH; exact R|].
  apply Forall_forall. intros [t' a'] Hin. apply in_valid in Hin as (i & Et & _). unfold by_time. cbn [fst]. apply Hd.
  eapply nth_error_In. exact Et.
Qed.
Lemma interp_inside_ok samples t ta a tb b : StronglySorted by_time samples -> In (ta, a) samples -> In (tb, b) samples ->
  (ta <= t /\ t <= tb)%Q -> interp_inside samples t = Ok (interp samples t).
Proof.
  intros S Ia Ib [H1 H2]. destruct samples as [|s r]; [destruct Ia|]. cbn [interp_inside].
  assert (A : (fst s <= ta)%Q).
  { destruct Ia as [->|Ia]; [cbn; lra|]. apply StronglySorted_inv in S as [_ F]. rewrite Forall_forall in F.
    specialize (F _ Ia). unfold by_time in F. cbn in F. lra. }
  assert (G : forall r s, StronglySorted by_time (s :: r) -> forall p, In p (s :: r) -> (fst p <= fst (last r s))%Q).
  { clear. induction r as [|x r IH]; intros s S p Hp.
    - destruct Hp as [->|[]]. cbn. lra.
    - assert (S' := S). apply StronglySorted_inv in S as [S F]. inversion F as [|? ? F1 _]; subst. unfold by_time in F1.
      assert (X := IH x S x (or_introl eq_refl)).
      replace (last (x :: r) s) with (last r x).
      2:{ clear. revert x s. induction r as [|y r IH]; intros x s; [reflexivity|]. cbn [last] in *. destruct r; [reflexivity|]. apply (IH x s) || auto. }
      destruct Hp as [<-|Hp]; [lra|]. exact (IH x S p Hp). }
  specialize (G r s S _ Ib). cbn [fst] in G.
  replace (qlt t (fst s)) with false by (symmetry; apply qlt_false; lra).
  replace (qlt (fst (last r s)) t) with false by (symmetry; apply qlt_false; lra). reflexivity.
Qed.

(** ** The freezing region *)
Lemma rising_step time i j a b : rising time -> nth_error time i = Some a -> nth_error time j = Some b -> i <= j -> (a <= b)%Q.
Proof.
  intros R Ea Eb L. destruct (Nat.eq_dec i j) as [->|N]; [assert (a = b) by congruence; subst; lra|].
  assert (a < b)%Q by (apply (R i j); [lia|assumption|assumption]). lra.
Qed.
Lemma n_elements_four_hours time win : four_hours time win -> n_elements time 240 true = Ok (Z.of_nat win).
Proof. intros (steps & d & S & M & D & N). apply n_elements_ok. exists steps, d. split; [exact S|]. split; [exact M|]. split; [lra|exact N]. Qed.

Section Region.
  Variables (tw : image Q) (time height : list Q) (melting : image bool) (n g win : nat).
  Hypothesis Stw : shaped n g tw.
  Hypothesis Sm : shaped n g melting.
  Hypothesis Lh : length height = g.
  Hypothesis Cold : forall i row, nth_error tw i = Some row -> exists k t, nth_error row k = Some t /\ (t < 27316 # 100)%Q.

  Lemma mean_nth i : nth_error (find_mean_melting_alt height melting) i =
    option_map (fun row => median (picked row height)) (nth_error melting i).
  Proof. unfold find_mean_melting_alt. rewrite nth_error_map'. destruct (nth_error melting i); [|reflexivity]. cbn [option_map]. rewrite select_picked. reflexivity. Qed.
  Lemma mean_length : length (find_mean_melting_alt height melting) = n.
  Proof. unfold find_mean_melting_alt. rewrite map_length. exact (proj1 Sm). Qed.
  Lemma mean_some i m : nth_error (find_mean_melting_alt height melting) i = Some (Some m) -> melting_at height melting i m.
  Proof.
    rewrite mean_nth. destruct (nth_error melting i) as [row|] eqn:E; [|discriminate]. cbn [option_map]. intros H.
    exists row. split; [exact E|]. pose proof (median_iff (picked row height)) as M.
    assert (X : median (picked row height) = Some m) by congruence. rewrite X in M. exact M.
  Qed.
  Lemma mean_at i m : melting_at height melting i m -> exists m', nth_error (find_mean_melting_alt height melting) i = Some (Some m') /\ (m' == m)%Q.
  Proof.
    intros (row & E & M). rewrite mean_nth, E. cbn [option_map]. pose proof (median_iff (picked row height)) as X.
    destruct (median (picked row height)) as [m'|].
    - exists m'. split; [reflexivity|]. exact (median_unique _ _ _ X M).
    - exfalso. exact (median_nonempty _ _ M X).
  Qed.
  Lemma mean_none i : nth_error (find_mean_melting_alt height melting) i = Some None <-> no_melting height melting i.
  Proof.
    rewrite mean_nth. unfold no_melting. destruct (nth_error melting i) as [row|] eqn:E; cbn [option_map].
    - pose proof (median_iff (picked row height)) as X. destruct (median (picked row height)) as [m|]; split.
      + discriminate.
      + intros (r & Er & Pr). exfalso. assert (r = row) by congruence. subst r. exact (median_nonempty _ _ X Pr).
      + intros _. exists row. auto.
      + reflexivity.
    - split; [discriminate|]. intros (r & ? & _). discriminate.
  Qed.

  Lemma levels_ok : exists t0, find_t0_alt tw height = Ok t0 /\ length t0 = n /\
    forall i row, nth_error tw i = Some row -> exists a, nth_error t0 i = Some a /\ freezing_level height row a.
  Proof.
    destruct (find_t0_alt_ok tw height) as (t0 & E & L & G).
    { intros row Hr. apply In_nth_error in Hr as [i Hi]. split; [rewrite Lh; exact (proj2 Stw i row Hi)|exact (Cold i row Hi)]. }
    exists t0. split; [exact E|]. split; [rewrite L; exact (proj1 Stw)|exact G].
  Qed.

  (** Nothing melts and every freezing level is at or below the lowest gate. *)
  Lemma region_all_cold h0 : nth_error height 0 = Some h0 -> (forall i, i < n -> no_melting height melting i) ->
    (forall i a, level_at tw height i a -> (a <= h0)%Q) ->
    find_freezing_region tw time height melting = Ok (imap (fun _ => true) tw).
  Proof.
    intros Eh NM Lv. unfold find_freezing_region. destruct levels_ok as (t0 & E & L & G). rewrite E. cbn [bind].
    unfold is_all_freezing. rewrite (proj2 (item_ok _ _ _) Eh). cbn [bind].
    replace (forallb is_masked (find_mean_melting_alt height melting)) with true.
    2:{ symmetry. apply forallb_forall. intros x Hx. apply In_nth_error in Hx as [i Hi].
        assert (Li := nth_error_Some_lt _ _ _ Hi). rewrite mean_length in Li.
        rewrite (proj2 (mean_none i) (NM i Li)) in Hi. assert (x = None) by congruence. subst x. reflexivity. }
    replace (forallb (fun a => Qle_bool a h0) t0) with true; [reflexivity|].
    symmetry. apply forallb_forall. intros a Ha. apply In_nth_error in Ha as [i Hi]. apply Qle_bool_iff.
    assert (Li := nth_error_Some_lt _ _ _ Hi). destruct (nth_error_lt_Some tw i) as [row Er]; [rewrite (proj1 Stw); lia|].
    destruct (G i row Er) as (a' & Ea & F). assert (a' = a) by congruence. subst a'. apply (Lv i). exists row. auto.
  Qed.

  Hypothesis Lt : length time = n.
  Hypothesis Two : 2 <= n.
  Hypothesis Rt : rising time.
  Hypothesis Ph : forall h, In h height -> (0 < h)%Q.
  Hypothesis Four : four_hours time win.
  Hypothesis Win : 0 < win.
  Hypothesis Warm : (exists i m, melting_at height melting i m) \/
    (exists i a h0, nth_error height 0 = Some h0 /\ level_at tw height i a /\ (h0 < a)%Q).

  Lemma region_exact : exists out alt, find_freezing_region tw time height melting = Ok out /\ shaped n g out /\
    (forall i a, anchor tw height melting win i a -> (alt i == a)%Q) /\
    (forall i k j a b ti tk tj, anchor tw height melting win i a -> anchor tw height melting win j b -> i < j -> i <= k -> k <= j ->
       (forall q x, i < q -> q < j -> ~ anchor tw height melting win q x) ->
       nth_error time i = Some ti -> nth_error time k = Some tk -> nth_error time j = Some tj ->
       (alt k == a + (b - a) * ((tk - ti) / (tj - ti)))%Q) /\
    (forall i j, pixel out i j = Some true <-> i < n /\ exists h, nth_error height j = Some h /\ (alt i < h + 1)%Q).
  Proof.
    unfold find_freezing_region. destruct levels_ok as (t0 & E & L & G). rewrite E. cbn [bind].
    set (mean := find_mean_melting_alt height melting). assert (Lm : length mean = n) by apply mean_length.
    assert (Hg : exists h0, nth_error height 0 = Some h0).
    { destruct (nth_error_lt_Some tw 0) as [row Er]; [rewrite (proj1 Stw); lia|]. destruct (Cold 0 row Er) as (k & t & Ek & _).
      apply nth_error_Some_lt in Ek. rewrite (proj2 Stw 0 row Er) in Ek. apply nth_error_lt_Some. lia. }
    destruct Hg as [h0 Eh]. unfold is_all_freezing. rewrite (proj2 (item_ok _ _ _) Eh). cbn [bind].
    replace (forallb is_masked mean && forallb (fun a => Qle_bool a h0) t0) with false.
    2:{ symmetry. apply andb_false_iff. destruct Warm as [(i & m & Hm)|(i & a & h & Eh' & (row & Er & Fl) & Ha)].
        - left. destruct (mean_at i m Hm) as (m' & Em & _). destruct (forallb is_masked mean) eqn:X; [|reflexivity].
          rewrite forallb_forall in X. specialize (X _ (nth_error_In _ _ Em)). discriminate.
        - right. assert (h = h0) by congruence. subst h. destruct (G i row Er) as (a' & Ea & F).
          destruct (forallb (fun a0 => Qle_bool a0 h0) t0) eqn:X; [|reflexivity]. rewrite forallb_forall in X.
          specialize (X _ (nth_error_In _ _ Ea)). apply Qle_bool_iff in X. pose proof (freezing_level_unique _ _ _ _ F Fl). lra. }
    rewrite (n_elements_four_hours _ _ Four). cbn [bind]. rewrite Nat2Z.id.
    assert (MP : forall i m, nth_error mean i = Some (Some m) -> (0 < m)%Q).
    { intros i m Hm. apply mean_some in Hm as (row & Er & M).
      destruct M as (s & a & b & P & _ & Ma & Mb & Me).
      assert (Pa : forall x k, nth_error s k = Some x -> (0 < x)%Q).
      { intros x k Hx. apply Ph. apply (in_picked row). apply (Permutation_in _ (Permutation_sym P)). exact (nth_error_In _ _ Hx). }
      assert (Xa := Pa _ _ Ma). assert (Xb := Pa _ _ Mb). lra. }
    destruct (freezing_altitudes_spec mean t0 win ltac:(lia) ltac:(lia) Win MP) as (alts & Ea & La & A). rewrite Ea. cbn [bind].
    assert (Calm : forall i, (end_of mean i \/ calm mean win i) <-> (i = 0 \/ S i = length melting \/ quiet height melting win i)).
    { intros i. unfold end_of, calm, quiet. rewrite Lm, (proj1 Sm). split.
      - intros [[X|X]|(k & K1 & K2 & K3)]; [left; exact X|right; left; exact X|right; right].
        exists k. split; [exact K1|]. split; [exact K2|]. intros q Q1 Q2. apply mean_none. exact (K3 q Q1 Q2).
      - intros [X|[X|(k & K1 & K2 & K3)]]; [left; left; exact X|left; right; exact X|right].
        exists k. split; [exact K1|]. split; [exact K2|]. intros q Q1 Q2. apply mean_none. exact (K3 q Q1 Q2). }
    (* anchors are the unmasked altitudes *)
    assert (An : forall i a, anchor tw height melting win i a -> exists a', nth_error alts i = Some (Some a') /\ (a' == a)%Q).
    { intros i a [Hm|(Hn & He & (row & Er & Fl))]; destruct (A i) as (A1 & A2 & A3).
      - destruct (mean_at i a Hm) as (m' & Em & Q). exists m'. split; [exact (A1 m' Em)|exact Q].
      - destruct (A2 (proj2 (mean_none i) Hn) (proj2 (Calm i) He)) as (a' & Et & Eo). exists a'. split; [exact Eo|].
        destruct (G i row Er) as (a2 & Ea2 & F). assert (a2 = a') by congruence. subst. exact (freezing_level_unique _ _ _ _ F Fl). }
    assert (Na : forall i a, nth_error alts i = Some (Some a) -> ~ ~ anchor tw height melting win i a).
    { intros i a Hi. assert (Li := nth_error_Some_lt _ _ _ Hi). rewrite La, Lm in Li. destruct (A i) as (A1 & A2 & A3). intros N.
      destruct (nth_error_lt_Some mean i ltac:(lia)) as [x Ex]. destruct x as [m|].
      - assert (m = a) by (specialize (A1 m Ex); congruence). subst m. apply N. left. apply mean_some. exact Ex.
      - assert (NN : ~ ~ (end_of mean i \/ calm mean win i)).
        { intros X. specialize (A3 Ex X). congruence. }
        apply NN. intros C. destruct (A2 Ex C) as (a' & Et & Eo). assert (a' = a) by congruence. subst a'.
        apply N. right. split; [apply mean_none; exact Ex|]. split; [apply Calm; exact C|].
        destruct (nth_error_lt_Some tw i) as [row Er]; [rewrite (proj1 Stw); lia|]. destruct (G i row Er) as (a2 & Ea2 & F).
        assert (a2 = a) by congruence. subst a2. exists row. auto. }
    set (samples := valid_altitudes time alts). assert (SS : StronglySorted by_time samples) by (apply valid_sorted; exact Rt).
    assert (Ends : forall i, i < n -> (i = 0 \/ S i = n) -> exists a, nth_error alts i = Some (Some a)).
    { intros i Li Hi. destruct (A i) as (A1 & A2 & _). destruct (nth_error_lt_Some mean i ltac:(lia)) as [[m|] Ex].
      - exists m. exact (A1 m Ex).
      - destruct (A2 Ex) as (a & _ & Eo); [left; unfold end_of; rewrite Lm; exact Hi|]. exists a. exact Eo. }
    destruct (Ends 0 ltac:(lia) ltac:(lia)) as [a0 E0]. destruct (Ends (n - 1) ltac:(lia) ltac:(lia)) as [a1 E1].
    destruct (nth_error_lt_Some time 0 ltac:(lia)) as [t_0 T0']. destruct (nth_error_lt_Some time (n - 1) ltac:(lia)) as [t_1 T1'].
    assert (Seq : sequence (map (interp_inside samples) time) = Ok (map (interp samples) time)).
    { assert (H : forall l, (forall t, In t l -> interp_inside samples t = Ok (interp samples t)) ->
        sequence (map (interp_inside samples) l) = Ok (map (interp samples) l)).
      { induction l as [|t l IH]; intros H; [reflexivity|]. cbn [map sequence]. rewrite (H t (or_introl eq_refl)). cbn [bind].
        rewrite IH by (intros; apply H; right; assumption). reflexivity. }
      apply H. intros t Ht. apply In_nth_error in Ht as [i Hi]. assert (Li := nth_error_Some_lt _ _ _ Hi).
      apply (interp_inside_ok samples t t_0 a0 t_1 a1 SS).
      - apply in_valid. exists 0. auto.
      - apply in_valid. exists (n - 1). auto.
      - split; [apply (rising_step time 0 i); auto; lia|apply (rising_step time i (n - 1)); auto; lia]. }
    rewrite Seq. cbn [bind].
    eexists. exists (fun i => interp samples (nth i time 0%Q)). split; [reflexivity|].
    split; [|split; [|split]].
    - split; [rewrite !map_length; exact Lt|]. intros i row Hi. rewrite !nth_error_map' in Hi.
      destruct (nth_error time i); [|discriminate]. cbn [option_map] in Hi.
      assert (X := f_equal (fun o => match o with Some l => length l | None => 0 end) Hi). cbn beta iota in X. rewrite map_length in X. lia.
    - intros i a Ha. destruct (An i a Ha) as (a' & Eo & Q). assert (Li := nth_error_Some_lt _ _ _ Eo).
      destruct (nth_error_lt_Some time i ltac:(lia)) as [t Et]. rewrite (nth_error_nth _ _ 0%Q Et).
      rewrite (interp_at samples t t a' SS); [exact Q| |reflexivity]. apply in_valid. exists i. auto.
    - intros i k j a b ti tk tj Ha Hb Lij Lik Lkj No Ei Ek Ej.
      destruct (An i a Ha) as (a' & Eo & Q). destruct (An j b Hb) as (b' & Eo' & Q').
      rewrite (nth_error_nth _ _ 0%Q Ek). rewrite (interp_linear samples tk ti a' tj b' SS).
      + rewrite Q, Q'. reflexivity.
      + apply in_valid. exists i. auto.
      + apply in_valid. exists j. auto.
      + exact (Rt i j ti tj Lij Ei Ej).
      + intros [t x] Hp [H1 H2]. cbn [fst] in H1, H2. apply in_valid in Hp as (q & Et & Ex).
        apply (Na q x Ex). apply No.
        * destruct (Nat.lt_ge_cases i q) as [X|X]; [exact X|]. pose proof (rising_step time q i t ti Rt Et Ei X). lra.
        * destruct (Nat.lt_ge_cases q j) as [X|X]; [exact X|]. pose proof (rising_step time j q tj t Rt Ej Et X). lra.
      + split; [apply (rising_step time i k); auto|apply (rising_step time k j); auto].
    - intros i j. unfold pixel. rewrite !nth_error_map'. destruct (nth_error time i) as [t|] eqn:Et; cbn [option_map].
      + rewrite (nth_error_nth _ _ 0%Q Et), nth_error_map'. assert (Li := nth_error_Some_lt _ _ _ Et).
        destruct (nth_error height j) as [h|]; cbn [option_map]; split.
        * intros H. assert (X : qlt (interp samples t - 1) h = true) by congruence. apply qlt_iff in X. split; [lia|]. exists h. split; [reflexivity|lra].
        * intros (_ & h' & Eh' & X). assert (h' = h) by congruence. subst h'. f_equal. apply qlt_iff. lra.
        * discriminate.
        * intros (_ & h' & ? & _). discriminate.
      + split; [discriminate|]. intros [Li _]. apply nth_error_None in Et. lia.
  Qed.
End Region.

(** A profile without any gate below freezing stops the whole product. *)
Lemma region_warm tw time height melting row : (forall row, In row tw -> length row = length height) -> In row tw ->
  (forall k t, nth_error row k = Some t -> (27316 # 100 <= t)%Q) -> find_freezing_region tw time height melting = Raise IndexError.
Proof. intros L I H. unfold find_freezing_region. rewrite (find_t0_alt_warm tw height row L I H). reflexivity. Qed.

Lemma sequence_length {A} (l : list (result A)) out : sequence l = Ok out -> length out = length l.
Proof.
  revert out. induction l as [|[x|e] l IH]; intros out; cbn [sequence bind].
  - intros [= <-]. reflexivity.
  - destruct (sequence l) as [r|e] eqn:E; cbn [bind]; [|discriminate]. intros [= <-]. cbn [length]. rewrite (IH r eq_refl). reflexivity.
  - discriminate.
Qed.
(** Above a freezing gate everything freezes. *)
Lemma region_upward tw time height melting out n i j j' : find_freezing_region tw time height melting = Ok out ->
  shaped n (length height) tw -> rising height -> pixel out i j = Some true -> j <= j' -> j' < length height -> pixel out i j' = Some true.
Proof.
  unfold find_freezing_region. intros H S R P L B. destruct (find_t0_alt tw height) as [t0|e]; cbn [bind] in H; [|discriminate].
  destruct (is_all_freezing _ t0 height) as [[|]|e]; cbn [bind] in H; [| |discriminate].
  - assert (out = imap (fun _ => true) tw) by congruence. subst out. rewrite pixel_imap in P. rewrite pixel_imap.
    unfold pixel in *. destruct (nth_error tw i) as [row|] eqn:E; [|discriminate].
    destruct (nth_error_lt_Some row j') as [x Ex]; [rewrite (proj2 S i row E); exact B|]. rewrite Ex. reflexivity.
  - destruct (n_elements time 240 true) as [w|e]; cbn [bind] in H; [|discriminate].
    destruct (freezing_altitudes _ t0 _) as [alts|e]; cbn [bind] in H; [|discriminate].
    destruct (sequence _) as [ys|e]; cbn [bind] in H; [|discriminate].
    assert (E : map (fun alt => map (fun h => qlt (alt - 1) h) height) ys = out) by congruence. clear H. subst out. unfold pixel in *.
    rewrite nth_error_map' in *. destruct (nth_error ys i) as [a|]; cbn [option_map] in *; [|discriminate].
    rewrite nth_error_map' in *. destruct (nth_error height j) as [h|] eqn:Eh; cbn [option_map] in P; [|discriminate].
    destruct (nth_error_lt_Some height j' B) as [h' Eh']. rewrite Eh'. cbn [option_map].
    assert (X : qlt (a - 1) h = true) by congruence. apply qlt_iff in X. f_equal. apply qlt_iff.
    pose proof (rising_step height j j' h h' R Eh Eh' L). lra.
Qed.
