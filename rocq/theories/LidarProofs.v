(** Proofs about lidars and ceilometers. *)
From Verif Require Import Base ArrayModel ArrayProofs FillModel TimeModel TimeSpec TimeProofs GridModel GridProofs
  DropletModel DropletSpec DropletProofs FreezeProofs OutputModel OutputProofs TelegramModel TelegramSpec TelegramProofs
  SiteModel SiteSpec SiteProofs MeltModel MeltSpec MeltImageProofs NwpModel NwpSpec NwpProofs
  NcRadarModel NcRadarSpec NcRadarProofs LidarModel LidarSpec.
From Coq Require Import String Ascii Sorting.Sorted Lqa.
Open Scope string_scope.
Open Scope nat_scope.
Open Scope list_scope.
Local Notation length := List.length (only parsing).

(** ** Text files *)
Lemma date_of_iff t d : date_of t = d <-> on_day t d.
Proof.
  unfold date_of, on_day. split.
  - intros <-. pose proof (Z.div_mod t 86400000000 ltac:(lia)). pose proof (Z.mod_pos_bound t 86400000000 ltac:(lia)). lia.
  - intros H. symmetry. apply Z.div_unique with (r := (t - 86400000000 * d)%Z); lia.
Qed.
Lemma rows_of_trans {A} (V U kept : list nat) (l l1 l2 : list A) :
  rows_of V U kept -> rows_of U l l1 -> rows_of V l1 l2 -> rows_of kept l l2.
Proof.
  intros (L1 & H1) (L2 & H2) (L3 & H3). split; [congruence|]. intros i k K.
  assert (I : i < length V) by (rewrite <- L1; apply nth_error_Some; congruence).
  destruct (nth_error V i) as [v|] eqn:E; [|apply nth_error_None in E; lia].
  destruct (H1 _ _ E) as (u & Eu & Ek). assert (u = k) by congruence. subst u.
  destruct (H2 _ _ Eu) as (x & Ex & E1). destruct (H3 _ _ E) as (y & Ey & E2). exists x. split; [exact Ex|congruence].
Qed.
Lemma rows_of_nth {A} idx (l out : list A) i x : rows_of idx l out -> nth_error out i = Some x ->
  exists k, nth_error idx i = Some k /\ nth_error l k = Some x.
Proof.
  intros (L & H) E. assert (I : i < length idx) by (rewrite <- L; apply nth_error_Some; congruence).
  destruct (nth_error idx i) as [k|] eqn:K; [|apply nth_error_None in K; lia]. exists k. split; [reflexivity|].
  destruct (H _ _ K) as (y & Y & Y'). congruence.
Qed.
Lemma rows_of_map {A B} (f : A -> B) idx l out : rows_of idx l out -> rows_of idx (map f l) (map f out).
Proof.
  intros (L & H). split; [rewrite map_length; exact L|]. intros i k K. destruct (H _ _ K) as (x & X & Y).
  exists (f x). rewrite !nth_error_map', X, Y. split; reflexivity.
Qed.
Lemma screen_ceilo_ok ind c : ind <> [] -> Forall (fun i => i < length (c_time c)) ind -> length (c_beta c) = length (c_time c) ->
  exists c', screen_ceilo ind c = Ok c' /\ rows_of ind (c_time c) (c_time c') /\ rows_of ind (c_beta c) (c_beta c') /\
    (length (c_range c) <> length (c_time c) -> c_range c' = c_range c) /\
    c_factor c' = c_factor c /\ c_zenith c' = c_zenith c /\ c_date c' = c_date c.
Proof.
  intros N F B. unfold screen_ceilo. destruct ind as [|i0 ind0]; [congruence|]. clear N. set (ind := i0 :: ind0) in *. clearbody ind.
  unfold cut. rewrite Nat.eqb_refl, B, Nat.eqb_refl.
  destruct (gather_rows_of (c_time c) ind F) as (t & Et & Rt). rewrite Et. cbn [bind].
  assert (FB : Forall (fun i => i < length (c_beta c)) ind) by (rewrite B; exact F).
  destruct (gather_rows_of (c_beta c) ind FB) as (b & Eb & Rb). rewrite Eb.
  destruct (length (c_range c) =? length (c_time c)) eqn:R.
  - apply Nat.eqb_eq in R. assert (FR : Forall (fun i => i < length (c_range c)) ind) by (rewrite R; exact F).
    destruct (gather_rows_of (c_range c) ind FR) as (r & Er & _). rewrite Er. cbn [bind]. eexists. split; [reflexivity|]. cbn.
    split; [exact Rt|]. split; [exact Rb|]. split; [congruence|auto].
  - cbn [bind]. eexists. split; [reflexivity|]. cbn. auto 10.
Qed.
Lemma stack_ok rows r rest : rows = r :: rest -> (forall x, In x rows -> length x = length r) -> stack rows = Ok rows.
Proof.
  intros -> H. unfold stack. replace (forallb _ rest) with true; [reflexivity|]. symmetry. apply forallb_forall.
  intros x X. apply Nat.eqb_eq, H. right. exact X.
Qed.
Lemma stack_raise rows r rest : rows = r :: rest -> ~ (forall x, In x rows -> length x = length r) -> stack rows = Raise ValueError.
Proof.
  intros -> H. unfold stack. destruct (forallb _ rest) eqn:E; [|reflexivity]. destruct H. rewrite forallb_forall in E.
  intros x [<-|X]; [reflexivity|]. apply Nat.eqb_eq, E, X.
Qed.
Lemma unique_z times i : In i (unique_index (map inject_Z times)) <->
  exists t, nth_error times i = Some t /\ forall j, j < i -> nth_error times j <> Some t.
Proof.
  rewrite (proj1 (unique_spec (map inject_Z times)) i). unfold first_occurrence. split.
  - intros (x & E & H). rewrite nth_error_map' in E. destruct (nth_error times i) as [t|]; [|discriminate]. exists t. split; [reflexivity|].
    intros j J Ej. assert (x = inject_Z t) by (cbn in E; congruence). subst x. apply (H j (inject_Z t) J); [rewrite nth_error_map', Ej; reflexivity|reflexivity].
  - intros (t & E & H). exists (inject_Z t). split; [rewrite nth_error_map', E; reflexivity|]. intros j y J Ej.
    rewrite nth_error_map' in Ej. destruct (nth_error times j) as [s|] eqn:Es; [|discriminate]. cbn in Ej. assert (y = inject_Z s) by congruence. subst y.
    intros Q. apply (proj1 (inject_Z_injective t s)) in Q. apply (H j J). congruence.
Qed.
Lemma sorted_rows times U time1 : StronglySorted (times_lt (map inject_Z times)) U -> rows_of U times time1 ->
  forall i j a b, i < j -> nth_error time1 i = Some a -> nth_error time1 j = Some b -> (a < b)%Z.
Proof.
  intros S R i j a b L A B. destruct (rows_of_nth _ _ _ _ _ R A) as (ka & Ia & Ka). destruct (rows_of_nth _ _ _ _ _ R B) as (kb & Ib & Kb).
  pose proof (strong_nth_inv _ _ S i j ka kb L Ia Ib) as T. unfold times_lt in T.
  specialize (T (inject_Z a) (inject_Z b)). rewrite !nth_error_map', Ka, Kb in T. specialize (T eq_refl eq_refl).
  rewrite <- Zlt_Qlt in T. exact T.
Qed.

Section Vaisala.
  Variables (expected : option Z) (factor : option Q) (data : list (Z * shot)) (n : nat).
  Hypothesis nonempty : data <> [].
  Hypothesis G : gates data n.
  Lemma first_shot : exists t0 p0 rest, data = (t0, p0) :: rest /\ length (p_beta p0) = n.
  Proof. destruct data as [|[t0 p0] rest] eqn:E; [congruence|]. do 3 eexists. split; [reflexivity|]. apply (G t0 p0). left. reflexivity. Qed.
  (** What sorting by time gives. *)
  Lemma sort_spec c : c_time c = map fst data -> length (c_beta c) = length data ->
    exists U c', sort_ceilo c = Ok c' /\ rows_of U (c_time c) (c_time c') /\ rows_of U (c_beta c) (c_beta c') /\
      (forall i, In i U <-> exists t, nth_error (map fst data) i = Some t /\ forall j, j < i -> nth_error (map fst data) j <> Some t) /\
      (forall i j a b, i < j -> nth_error (c_time c') i = Some a -> nth_error (c_time c') j = Some b -> (a < b)%Z) /\
      (forall t, In t (c_time c') <-> In t (map fst data)) /\
      (length (c_range c) <> length data -> c_range c' = c_range c) /\
      c_factor c' = c_factor c /\ c_zenith c' = c_zenith c.
  Proof.
    intros T B. unfold sort_ceilo. rewrite T. set (times := map fst data) in *. set (U := unique_index (map inject_Z times)).
    assert (LT : length times = length data) by (unfold times; apply map_length).
    assert (X : forall t, In t times -> exists i, In i U /\ nth_error times i = Some t).
    { intros t I. assert (I' : In (inject_Z t) (map inject_Z times)) by (apply in_map, I).
      destruct (first_occurrence_exists _ _ I') as (i & x & F & E & Q). exists i.
      split; [apply (proj1 (unique_spec (map inject_Z times)) i), F|]. rewrite nth_error_map' in E.
      destruct (nth_error times i) as [s|]; [|discriminate]. cbn in E. assert (x = inject_Z s) by congruence. subst x.
      apply (proj1 (inject_Z_injective s t)) in Q. congruence. }
    assert (NE : U <> []).
    { destruct times as [|t r] eqn:E; [destruct data; [congruence|discriminate]|]. destruct (X t (or_introl eq_refl)) as (i & I & _). intros Z. rewrite Z in I. destruct I. }
    assert (F : Forall (fun i => i < length (c_time c)) U).
    { pose proof (unique_bound (map inject_Z times)) as Y. rewrite map_length in Y. rewrite T. exact Y. }
    assert (B' : length (c_beta c) = length (c_time c)) by (rewrite T; congruence).
    destruct (screen_ceilo_ok U c NE F B') as (c' & E & RT & RB & RR & EF & EZ & _). exists U, c'.
    split; [exact E|]. rewrite T in RT. split; [exact RT|]. split; [exact RB|].
    split; [intros i; apply unique_z|].
    split; [apply (sorted_rows times U _ (proj2 (unique_spec (map inject_Z times))) RT)|].
    split; [|split; [rewrite T, LT in RR; exact RR|auto]].
    intros t. split.
    - intros I. apply In_nth_error in I as (i & I). destruct (rows_of_nth _ _ _ _ _ RT I) as (k & _ & K). exact (nth_error_In _ _ K).
    - intros I. destruct (X t I) as (i & IU & Ei). apply In_nth_error in IU as (k & K). destruct (proj2 RT _ _ K) as (y & Y & Y').
      assert (y = t) by congruence. subst y. exact (nth_error_In _ _ Y').
  Qed.
  Lemma increasing_nodup (l : list Z) : (forall i j a b, i < j -> nth_error l i = Some a -> nth_error l j = Some b -> (a < b)%Z) -> NoDup l.
  Proof.
    intros H. apply NoDup_nth_error. intros i j I E. destruct (nth_error l i) as [a|] eqn:A; [|apply nth_error_None in A; lia].
    destruct (Nat.lt_trichotomy i j) as [L|[L|L]]; [|exact L|]; [specialize (H i j a a L A (eq_sym E))|specialize (H j i a a L (eq_sym E) A)]; lia.
  Qed.
  (** What the choice of the day gives. *)
  Lemma date_spec c : (forall i j a b, i < j -> nth_error (c_time c) i = Some a -> nth_error (c_time c) j = Some b -> (a < b)%Z) ->
    (forall t, In t (c_time c) <-> In t (map fst data)) -> length (c_beta c) = length (c_time c) ->
    exists d, file_day expected data d /\
      (~ (exists t, In t (c_time c) /\ on_day t d) /\ screen_date expected c = Raise ValidTimeStampError \/
       exists V c', screen_date expected c = Ok c' /\ rows_of V (c_time c) (c_time c') /\ rows_of V (c_beta c) (c_beta c') /\
         (forall k, In k V <-> exists t, nth_error (c_time c) k = Some t /\ on_day t d) /\ StronglySorted lt V /\ V <> [] /\
         (length (c_range c) <> length (c_time c) -> c_range c' = c_range c) /\
         c_factor c' = c_factor c /\ c_zenith c' = c_zenith c /\ c_date c' = d).
  Proof.
    intros S I B. unfold screen_date. destruct (c_time c) as [|t0 r] eqn:T.
    { exfalso. destruct data as [|[t p] rest]; [congruence|]. apply (proj2 (I t)). left. reflexivity. }
    set (d := match expected with Some e => e | None => date_of t0 end). exists d. split.
    { unfold file_day, d. destruct expected as [e|]; [reflexivity|]. exists t0. split; [apply I; left; reflexivity|]. split; [apply date_of_iff; reflexivity|].
      intros t' H. apply I in H. apply In_nth_error in H as ([|k] & K); [cbn in K; assert (t' = t0) by congruence; lia|].
      specialize (S 0 (Datatypes.S k) t0 t' ltac:(lia) eq_refl K). lia. }
    replace (match expected with Some d0 => d0 | None => date_of t0 end) with d by reflexivity.
    set (V := where1 _). set (c1 := {| c_time := t0 :: r; c_range := c_range c; c_beta := c_beta c; c_factor := c_factor c; c_zenith := c_zenith c; c_date := d |}).
    assert (VI : forall k, In k V <-> exists t, nth_error (t0 :: r) k = Some t /\ on_day t d).
    { intros k. unfold V. rewrite where1_in, nth_error_map'. destruct (nth_error (t0 :: r) k) as [t|] eqn:E; cbn [option_map].
      - split; [intros H; exists t; split; [reflexivity|]; apply date_of_iff, Z.eqb_eq; congruence|].
        intros (t' & E' & H). assert (t' = t) by congruence. subst t'. f_equal. apply Z.eqb_eq, date_of_iff, H.
      - split; [discriminate|intros (t & H & _); discriminate]. }
    destruct (list_eq_dec Nat.eq_dec V []) as [Z|NE].
    - left. split; [|rewrite Z; reflexivity]. intros (t & H & D). apply In_nth_error in H as (k & K).
      assert (In k V) as J by (apply VI; eauto). rewrite Z in J. destruct J.
    - right. assert (F : Forall (fun i => i < length (c_time c1)) V).
      { apply Forall_forall. intros k K. apply VI in K as (t & K & _). apply nth_error_Some. cbn [c_time c1]. congruence. }
      destruct (screen_ceilo_ok V c1 NE F B) as (c' & E & RT & RB & RR & EF & EZ & ED). exists V, c'. split; [exact E|].
      split; [exact RT|]. split; [exact RB|]. split; [exact VI|]. split; [apply where1_sorted|]. split; [exact NE|]. split; [exact RR|auto].
  Qed.
  (** The whole file. *)
  Lemma read_spec : exists d t0 p0 rest m, data = (t0, p0) :: rest /\ file_day expected data d /\ is_median (map (fun x : Z * shot => p_tilt (snd x)) data) m /\
    (~ (exists t, In t (map fst data) /\ on_day t d) /\ read_vaisala expected factor data = Raise ValidTimeStampError \/
     exists c h kept, read_vaisala expected factor data = Ok (c, h) /\ kept <> [] /\
       (forall i, In i kept <-> wanted data d i) /\ NoDup kept /\
       holds_profiles data d (factor_or_one factor) kept h (c_beta c) /\ increasing h /\
       c_factor c = factor_or_one factor /\ c_zenith c = m /\ c_date c = d /\
       (n <> length data -> ~ different_times data n -> gate_centres n (p_res p0) (c_range c))).
  Proof.
    destruct first_shot as (t0 & p0 & rest & D & N0).
    pose proof (median_iff (map (fun x : Z * shot => p_tilt (snd x)) data)) as M.
    destruct (median (map (fun x : Z * shot => p_tilt (snd x)) data)) as [m|] eqn:EM; [|rewrite D in M; discriminate].
    set (range := map (fun i => (inject_Z (Z.of_nat i) * p_res p0 + p_res p0 / 2)%Q) (seq 0 (length (p_beta p0)))).
    set (f := factor_or_one factor).
    set (c0 := {| c_time := map fst data; c_range := range; c_beta := map (map (fun x => (x * f)%Q)) (map (fun d : Z * shot => p_beta (snd d)) data);
                  c_factor := f; c_zenith := m; c_date := 0%Z |}).
    assert (ST : stack (map (fun d : Z * shot => p_beta (snd d)) data) = Ok (map (fun d : Z * shot => p_beta (snd d)) data)).
    { apply stack_ok with (r := p_beta p0) (rest := map (fun d : Z * shot => p_beta (snd d)) rest); [rewrite D; reflexivity|].
      intros x X. apply in_map_iff in X as ([t p] & <- & X). cbn [snd]. rewrite N0. apply (G t p X). }
    assert (E0 : read_vaisala expected factor data = bind (sort_ceilo c0) (fun c => bind (screen_date expected c) (fun c => Ok (c, fraction_hour (c_time c))))).
    { unfold read_vaisala. rewrite D at 1. rewrite ST. cbn [bind]. rewrite EM. reflexivity. }
    destruct (sort_spec c0 eq_refl) as (U & c1 & E1 & RT1 & RB1 & UI & S1 & I1 & RR1 & F1 & Z1); [unfold c0; cbn [c_beta]; rewrite !map_length; reflexivity|].
    assert (B1 : length (c_beta c1) = length (c_time c1)) by (rewrite (proj1 RT1), (proj1 RB1); reflexivity).
    destruct (date_spec c1 S1 I1 B1) as (d & FD & C). exists d, t0, p0, rest, m. split; [exact D|]. split; [exact FD|]. split; [exact M|].
    rewrite E0, E1. cbn [bind]. destruct C as [(NO & E2)|(V & c2 & E2 & RT2 & RB2 & VI & VS & VN & RR2 & F2 & Z2 & D2)].
    { left. split; [|rewrite E2; reflexivity]. intros (t & I & O). apply NO. exists t. split; [apply I1, I|exact O]. }
    right. rewrite E2. cbn [bind].
    assert (FV : Forall (fun i => i < length U) V).
    { apply Forall_forall. intros k K. rewrite <- (proj1 RT1). apply VI in K as (t & K & _). apply nth_error_Some. congruence. }
    destruct (gather_rows_of U V FV) as (kept & _ & RK).
    pose proof (rows_of_trans V U kept _ _ _ RK RT1 RT2) as RT. pose proof (rows_of_trans V U kept _ _ _ RK RB1 RB2) as RB.
    exists c2, (fraction_hour (c_time c2)), kept. split; [reflexivity|].
    assert (T2 : forall i t, nth_error (c_time c2) i = Some t -> on_day t d).
    { intros i t H. destruct (rows_of_nth _ _ _ _ _ RT2 H) as (k & K & K'). apply nth_error_In in K. apply VI in K as (t' & K & O). congruence. }
    assert (S2 : forall i j a b, i < j -> nth_error (c_time c2) i = Some a -> nth_error (c_time c2) j = Some b -> (a < b)%Z).
    { intros i j a b L A B. destruct (rows_of_nth _ _ _ _ _ RT2 A) as (ka & Ia & Ka). destruct (rows_of_nth _ _ _ _ _ RT2 B) as (kb & Ib & Kb).
      apply (S1 ka kb a b); [exact (strong_nth_inv _ _ VS i j ka kb L Ia Ib)|exact Ka|exact Kb]. }
    assert (HH : fraction_hour (c_time c2) = map (fun t => (inject_Z (t - d * 86400000000) / 3600000000)%Q) (c_time c2)).
    { unfold fraction_hour. destruct (c_time c2) as [|u l] eqn:TT; [reflexivity|]. assert (date_of u = d) as ->; [|reflexivity].
      apply date_of_iff, (T2 0). reflexivity. }
    split.
    { intros K. apply VN. destruct V; [reflexivity|]. pose proof (proj1 RK) as L. rewrite K in L. discriminate. }
    split.
    { intros i. unfold wanted. split.
      - intros I. apply In_nth_error in I as (a & A). destruct (rows_of_nth _ _ _ _ _ RK A) as (v & Iv & Kv).
        pose proof (nth_error_In _ _ Kv) as IU. apply UI in IU as (t & Et & Hj). destruct (proj2 RT _ _ A) as (t' & Et' & A').
        change (c_time c0) with (map fst data) in Et'. assert (t' = t) by congruence. subst t'.
        rewrite nth_error_map' in Et. destruct (nth_error data i) as [[s p]|] eqn:Ed; [|discriminate]. cbn in Et. assert (s = t) by congruence. subst s.
        exists t, p. split; [reflexivity|]. split; [apply (T2 a), A'|]. intros j q J Ej. apply (Hj j J). rewrite nth_error_map', Ej. reflexivity.
      - intros (t & p & Ed & O & H). assert (Et : nth_error (map fst data) i = Some t) by (rewrite nth_error_map', Ed; reflexivity).
        assert (IU : In i U).
        { apply UI. exists t. split; [exact Et|]. intros j J Ej. rewrite nth_error_map' in Ej. destruct (nth_error data j) as [[s q]|] eqn:Ej'; [|discriminate].
          cbn in Ej. assert (s = t) by congruence. subst s. apply (H j q J Ej'). }
        apply In_nth_error in IU as (k & K). destruct (proj2 RT1 _ _ K) as (t' & Et' & K1). change (c_time c0) with (map fst data) in Et'. assert (t' = t) by congruence. subst t'.
        assert (In k V) as IV by (apply VI; eauto). apply In_nth_error in IV as (a & A). destruct (proj2 RK _ _ A) as (i' & Ei & A'). assert (i' = i) by congruence. subst i'.
        exact (nth_error_In _ _ A'). }
    split.
    { apply NoDup_nth_error. intros i j I E. destruct (nth_error kept i) as [k|] eqn:A; [|apply nth_error_None in A; lia].
      destruct (proj2 RT _ _ A) as (t & _ & A1). destruct (proj2 RT _ _ (eq_sym E)) as (t' & X & A2). destruct (proj2 RT _ _ A) as (t'' & X' & A3).
      assert (t'' = t') by congruence. assert (t = t'') by congruence. subst t'' t'.
      destruct (Nat.lt_trichotomy i j) as [L|[L|L]]; [|exact L|]; [specialize (S2 i j _ _ L A1 A2)|specialize (S2 j i _ _ L A2 A1)]; lia. }
    split.
    { unfold holds_profiles. rewrite HH, map_length. split; [exact (proj1 RT)|]. split; [exact (proj1 RB)|]. intros i k K.
      destruct (proj2 RT _ _ K) as (t & Et & At). destruct (proj2 RB _ _ K) as (row & Er & Ar).
      change (c_time c0) with (map fst data) in Et. rewrite nth_error_map' in Et. destruct (nth_error data k) as [[s p]|] eqn:Ed; [|discriminate].
      cbn in Et. assert (s = t) by congruence. subst s. unfold c0 in Er. cbn [c_beta] in Er. rewrite !nth_error_map', Ed in Er. cbn in Er.
      assert (row = map (fun x => (x * f)%Q) (p_beta p)) by congruence. subst row.
      exists t, p. do 2 eexists. split; [reflexivity|]. split; [rewrite nth_error_map', At; reflexivity|]. split; [exact Ar|]. split; [field|].
      unfold scaled_by. clear. induction (p_beta p); cbn [map]; constructor; [reflexivity|assumption]. }
    split.
    { unfold increasing. rewrite HH. intros i a b A B. rewrite nth_error_map' in A, B. destruct (nth_error (c_time c2) i) as [x|] eqn:X; [|discriminate].
      destruct (nth_error (c_time c2) (S i)) as [y|] eqn:Y; [|discriminate]. cbn [option_map] in A, B.
      assert (a = (inject_Z (x - d * 86400000000) / 3600000000)%Q) by congruence. assert (b = (inject_Z (y - d * 86400000000) / 3600000000)%Q) by congruence. subst a b.
      specialize (S2 i (Datatypes.S i) x y ltac:(lia) X Y). apply Qmult_lt_compat_r; [reflexivity|]. rewrite <- Zlt_Qlt. lia. }
    split; [rewrite F2, F1; reflexivity|]. split; [rewrite Z2, Z1; reflexivity|]. split; [exact D2|].
    intros NL ND. assert (LR : length range = n) by (unfold range; rewrite map_length, seq_length; exact N0).
    rewrite RR2, RR1.
    - split; [exact LR|]. intros i x X. unfold c0 in X. cbn [c_range] in X. unfold range in X. rewrite nth_error_map' in X.
      destruct (nth_error (seq 0 (length (p_beta p0))) i) as [k|] eqn:K; [|discriminate]. cbn in X.
      assert (k = i). { assert (i < length (p_beta p0)) by (rewrite <- (seq_length (length (p_beta p0)) 0); apply nth_error_Some; congruence). rewrite nth_error_seq0 in K by assumption. congruence. }
      subst k. assert (x = (inject_Z (Z.of_nat i) * p_res p0 + p_res p0 / 2)%Q) by congruence. subst x. field.
    - change (c_range c0) with range. congruence.
    - rewrite RR1 by (change (c_range c0) with range; congruence). change (c_range c0) with range. rewrite LR. intros E. apply ND.
      exists (c_time c1). split; [apply increasing_nodup, S1|]. split; [exact I1|symmetry; exact E].
  Qed.
End Vaisala.
Lemma factor_spec factor : exists c, c = factor_or_one factor /\ applied_factor factor c.
Proof.
  eexists. split; [reflexivity|]. unfold factor_or_one, applied_factor. destruct factor as [f|]; [|left; split; [reflexivity|left; reflexivity]].
  destruct (Qeq_bool f 0) eqn:E.
  - left. split; [reflexivity|]. right. exists f. split; [reflexivity|apply Qeq_bool_iff, E].
  - right. split; [reflexivity|]. intros Z. apply Qeq_bool_iff in Z. congruence.
Qed.

(** ** The choice of the reader *)
Definition header (r : reader) (line : string) : Prop :=
  exists rest, line = String "001" ("CL" ++ rest) /\ r = ClReader \/ line = String "001" ("CT" ++ rest) /\ r = CtReader.
Definition reader_name (m : string) : reader := if String.eqb m "cl31_or_cl51" then ClReader else CtReader.
Lemma line_model_spec acc line :
  (exists r, header r line /\ exists m, line_model acc line = Some m /\ (m = "cl31_or_cl51" \/ m = "ct25k") /\ reader_name m = r /\ forall r', header r' line -> r' = r) \/
  ((forall r, ~ header r line) /\ line_model acc line = acc).
Proof.
  unfold line_model. destruct (String.prefix (String "001" "CL") line) eqn:L.
  - left. apply prefix_iff in L as (s & ->). exists ClReader. split; [exists s; left; split; reflexivity|]. eexists. split; [reflexivity|]. split; [left; reflexivity|].
    split; [reflexivity|]. intros r' (s' & [(E & ->)|(E & ->)]); [reflexivity|discriminate E].
  - destruct (String.prefix (String "001" "CT") line) eqn:T.
    + left. apply prefix_iff in T as (s & ->). exists CtReader. split; [exists s; right; split; reflexivity|]. eexists. split; [reflexivity|]. split; [right; reflexivity|].
      split; [reflexivity|]. intros r' (s' & [(E & ->)|(E & ->)]); [discriminate E|reflexivity].
    + right. split; [|reflexivity]. intros r (s & [(E & _)|(E & _)]).
      * assert (String.prefix (String "001" "CL") line = true) by (apply prefix_iff; exists s; exact E). congruence.
      * assert (String.prefix (String "001" "CT") line = true) by (apply prefix_iff; exists s; exact E). congruence.
Qed.
Lemma lines_spec l :
  (exists i line r m, nth_error l i = Some line /\ header r line /\ (forall j line' r', i < j -> nth_error l j = Some line' -> ~ header r' line') /\
     fold_left line_model l None = Some m /\ (m = "cl31_or_cl51" \/ m = "ct25k") /\ reader_name m = r) \/
  ((forall j line r, nth_error l j = Some line -> ~ header r line) /\ fold_left line_model l None = None).
Proof.
  induction l as [|line l IH] using rev_ind; [right; split; [intros [|j] ? ?; discriminate|reflexivity]|].
  rewrite fold_left_app. cbn [fold_left]. set (acc := fold_left line_model l None) in *.
  destruct (line_model_spec acc line) as [(r & H & m & E & O & N & _)|(NO & E)].
  - left. exists (length l), line, r, m. split; [rewrite nth_error_app2, Nat.sub_diag by lia; reflexivity|]. split; [exact H|].
    split; [|auto]. intros j line' r' J Ej. assert (j < length (l ++ [line])) by (apply nth_error_Some; congruence). rewrite app_length in *. cbn in *. lia.
  - rewrite E. destruct IH as [(i & x & r & m & Ex & H & LA & F)|(NO' & F)].
    + left. exists i, x, r, m. assert (i < length l) by (apply nth_error_Some; congruence).
      split; [rewrite nth_error_app1 by lia; exact Ex|]. split; [exact H|]. split; [|exact F]. intros j line' r' J Ej.
      destruct (Nat.lt_ge_cases j (length l)); [rewrite nth_error_app1 in Ej by lia; apply (LA j); assumption|].
      rewrite nth_error_app2 in Ej by lia. destruct (j - length l) as [|[|k]]; cbn in Ej; try discriminate. assert (line' = line) by congruence. subst. apply NO.
    + right. split; [|exact F]. intros j line' r' Ej. destruct (Nat.lt_ge_cases j (length l)); [rewrite nth_error_app1 in Ej by lia; apply (NO' j); assumption|].
      rewrite nth_error_app2 in Ej by lia. destruct (j - length l) as [|[|k]]; cbn in Ej; try discriminate. assert (line' = line) by congruence. subst. apply NO.
Qed.
Lemma nth_error_firstn {A} (l : list A) : forall n i, nth_error (firstn n l) i = if i <? n then nth_error l i else None.
Proof.
  induction l as [|x l IH]; intros [|n] [|i]; cbn [firstn nth_error]; try reflexivity; [destruct (S i <? S n); reflexivity|]. rewrite IH. reflexivity.
Qed.
Lemma announces_iff lines i r : announces lines i r <-> exists line, nth_error (firstn 100 lines) i = Some line /\ header r line.
Proof.
  unfold announces, header. rewrite nth_error_firstn. split.
  - intros (L & s & H). rewrite (proj2 (Nat.ltb_lt _ _) L). destruct H as [(E & ->)|(E & ->)]; eexists; (split; [exact E|]); exists s; [left|right]; split; reflexivity.
  - destruct (i <? 100) eqn:L; [|intros (? & ? & _); discriminate]. apply Nat.ltb_lt in L. intros (line & E & s & [(-> & ->)|(-> & ->)]); (split; [exact L|]); exists s; [left|right]; split; auto.
Qed.
Lemma header_unique r r' line : header r line -> header r' line -> r = r'.
Proof. intros (s & [(E & ->)|(E & ->)]) (s' & [(E' & ->)|(E' & ->)]); try reflexivity; rewrite E in E'; discriminate E'. Qed.
Lemma text_reader path lines :
  (exists i r, announces lines i r /\ (forall j r', i < j -> ~ announces lines j r') /\ initialize None path (Lines lines) = Ok r) \/
  ((forall i r, ~ announces lines i r) /\ initialize None path (Lines lines) = Raise RuntimeError).
Proof.
  unfold initialize, find_model. destruct (lines_spec (firstn 100 lines)) as [(i & line & r & m & E & H & LA & F & O & N)|(NO & F)].
  - left. exists i, r. split; [apply announces_iff; eauto|]. split.
    + intros j r' J A. apply announces_iff in A as (line' & Ej & H'). exact (LA _ _ _ J Ej H').
    + rewrite F. cbn [bind]. destruct O as [-> | ->]; cbn in N |- *; congruence.
  - right. split; [|rewrite F; reflexivity]. intros i r A. apply announces_iff in A as (line & E & H). exact (NO _ _ _ E H).
Qed.

(** ** netCDF files *)
Lemma nth_error_removelast {A} (l : list A) : forall i, nth_error (removelast l) i = if S i <? length l then nth_error l i else None.
Proof.
  induction l as [|x l IH]; intros i; [destruct i; reflexivity|]. destruct l as [|y l]; [destruct i; reflexivity|].
  change (removelast (x :: y :: l)) with (x :: removelast (y :: l)). destruct i as [|i]; [reflexivity|]. cbn [nth_error]. rewrite IH. reflexivity.
Qed.
Lemma removelast_length {A} (l : list A) : length (removelast l) = length l - 1.
Proof. induction l as [|x [|y l] IH]; [reflexivity|reflexivity|]. change (removelast (x :: y :: l)) with (x :: removelast (y :: l)). cbn [List.length] in *. lia. Qed.
Lemma nth_error_tl {A} (l : list A) i : nth_error (tl l) i = nth_error l (S i).
Proof. destruct l; [destruct i; reflexivity|reflexivity]. Qed.
Lemma tl_length {A} (l : list A) : length (tl l) = length l - 1.
Proof. destruct l; cbn; lia. Qed.
Section Edges.
  Variable data : list Q.
  Let gaps := map2 (fun a b => ((b - a) / 2)%Q) (removelast data) (tl data).
  Lemma gaps_length : length gaps = length data - 1.
  Proof. unfold gaps. rewrite map2_length, removelast_length, tl_length. lia. Qed.
  Lemma gaps_nth i : nth_error gaps i = match nth_error data i, nth_error data (S i) with Some a, Some b => Some ((b - a) / 2)%Q | _, _ => None end.
  Proof.
    unfold gaps. rewrite nth_error_map2, nth_error_removelast, nth_error_tl. destruct (S i <? length data) eqn:L; [reflexivity|].
    apply Nat.ltb_ge in L. replace (nth_error data (S i)) with (@None Q) by (symmetry; apply nth_error_None; exact L). destruct (nth_error data i); reflexivity.
  Qed.
  Lemma edges_short upper : length data < 2 -> edges2mid data upper = Raise IndexError.
  Proof.
    intros L. unfold edges2mid. fold gaps. assert (gaps = []) as -> by (apply length_zero_iff_nil; rewrite gaps_length; lia). destruct upper; reflexivity.
  Qed.
  Lemma edges_upper : 2 <= length data -> exists mid, edges2mid data true = Ok mid /\ middle_of_upper data mid.
  Proof.
    intros L. unfold edges2mid. fold gaps. destruct gaps as [|g r] eqn:G; [exfalso; pose proof gaps_length as X; rewrite G in X; cbn in X; lia|].
    eexists. split; [reflexivity|]. rewrite <- G. split; [rewrite map2_length; cbn [List.length]; rewrite gaps_length; lia|]. split.
    - intros i a b m A B M. rewrite nth_error_map2, B in M. cbn [nth_error] in M. rewrite gaps_nth, A, B in M.
      assert (m = b - (b - a) / 2)%Q by congruence. subst m. field.
    - intros a b m A B M. rewrite nth_error_map2, A in M. cbn [nth_error] in M. pose proof (gaps_nth 0) as X. rewrite G, A, B in X. cbn [nth_error] in X.
      assert (m = a - (b - a) / 2)%Q by congruence. subst m. field.
  Qed.
  Lemma edges_lower : 2 <= length data -> exists mid, edges2mid data false = Ok mid /\ middle_of_lower data mid.
  Proof.
    intros L. unfold edges2mid. fold gaps. destruct (rev gaps) as [|g r] eqn:G; [exfalso; pose proof gaps_length as X; rewrite <- rev_length, G in X; cbn in X; lia|].
    eexists. split; [reflexivity|]. split; [rewrite map2_length, app_length; cbn [List.length]; rewrite gaps_length; lia|]. split.
    - intros i a b m A B M. assert (S i < length data) by (apply nth_error_Some; congruence). rewrite nth_error_map2, A, nth_error_app1 in M by (rewrite gaps_length; lia).
      rewrite gaps_nth, A, B in M. assert (m = a + (b - a) / 2)%Q by congruence. subst m. field.
    - intros i a b m LI A B M. rewrite nth_error_map2, B, nth_error_app2 in M by (rewrite gaps_length; lia).
      replace (S i - length gaps) with 0 in M by (rewrite gaps_length; lia). cbn [nth_error] in M.
      assert (E : gaps = rev r ++ [g]) by (rewrite <- (rev_involutive gaps), G; reflexivity).
      pose proof (gaps_nth i) as X. rewrite A, B, E, nth_error_app2 in X.
      + replace (i - length (rev r)) with 0 in X; [cbn [nth_error] in X; assert (m = b + (b - a) / 2)%Q by congruence; subst m; field|].
        pose proof gaps_length as Y. rewrite E, app_length in Y. cbn in Y. lia.
      + pose proof gaps_length as Y. rewrite E, app_length in Y. cbn in Y. lia.
  Qed.
End Edges.
Lemma lower_increasing edges mid : 2 <= length edges -> middle_of_lower edges mid -> increasing edges -> increasing mid.
Proof.
  intros L (LM & H & HL) I i a b A B. assert (S i < length edges) by (rewrite <- LM; apply nth_error_Some; congruence).
  destruct (nth_error edges i) as [x|] eqn:X; [|apply nth_error_None in X; lia]. destruct (nth_error edges (S i)) as [y|] eqn:Y; [|apply nth_error_None in Y; lia].
  pose proof (I _ _ _ X Y) as XY. pose proof (H _ _ _ _ X Y A) as Ha. destruct (nth_error edges (S (S i))) as [z|] eqn:Z.
  - pose proof (I _ _ _ Y Z). pose proof (H _ _ _ _ Y Z B). lra.
  - apply nth_error_None in Z. pose proof (HL i x y b ltac:(lia) X Y B). lra.
Qed.
Lemma upper_increasing edges mid : 2 <= length edges -> middle_of_upper edges mid -> increasing edges -> increasing mid.
Proof.
  intros L (LM & H & HL) I i a b A B. assert (S i < length edges) by (rewrite <- LM; apply nth_error_Some; congruence).
  destruct (nth_error edges i) as [x|] eqn:X; [|apply nth_error_None in X; lia]. destruct (nth_error edges (S i)) as [y|] eqn:Y; [|apply nth_error_None in Y; lia].
  pose proof (I _ _ _ X Y) as XY. pose proof (H _ _ _ _ X Y B) as Hb. destruct i as [|i].
  - pose proof (HL _ _ _ X Y A). lra.
  - destruct (nth_error edges i) as [w|] eqn:W; [|apply nth_error_None in W; lia]. pose proof (I _ _ _ W X). pose proof (H _ _ _ _ W X A). lra.
Qed.

(** *** Version *)
Lemma compare_digit c d e k : Z.of_nat (nat_of_ascii c) = (48 + d)%Z -> Z.of_nat (nat_of_ascii e) = (48 + k)%Z -> (c ?= e)%char = (d ?= k)%Z.
Proof.
  intros C E. unfold Ascii.compare. unfold nat_of_ascii in *. rewrite N_nat_Z in C, E.
  rewrite <- (N2Z.inj_compare). rewrite C, E.
  destruct (Z.compare_spec d k) as [->|L|L]; [apply Z.compare_refl|apply Z.compare_lt_iff; lia|apply Z.compare_gt_iff; lia].
Qed.
Definition digit_char (c : ascii) (d : Z) : Prop := (0 <= d <= 9)%Z /\ Z.of_nat (nat_of_ascii c) = (48 + d)%Z.
Lemma decimal_one s z : decimal 1 s z -> exists c, s = String c "" /\ digit_char c z.
Proof.
  intros H. inversion H as [|n s' z' c d D R E]; subst. inversion D; subst. exists c. split; [reflexivity|]. split; [exact R|]. rewrite E. lia.
Qed.
Lemma decimal_three s z : decimal 3 s z -> exists a b c x y w, s = String a (String b (String c "")) /\ digit_char a x /\ digit_char b y /\ digit_char c w /\ z = (100 * x + 10 * y + w)%Z.
Proof.
  intros H. inversion H as [|n s1 z1 c d D R E]; subst. inversion D as [|n s2 z2 b d2 D2 R2 E2]; subst. apply decimal_one in D2 as (a & -> & A).
  exists a, b, c, z2, d2, d. split; [reflexivity|]. split; [exact A|]. split; [split; assumption|]. split; [split; assumption|lia].
Qed.
Lemma firmware_old s z : firmware_number s z -> (String.ltb s "0.702" = true <-> (z < 702)%Z).
Proof.
  intros (a & b & x & y & -> & A & B & ->). apply decimal_one in A as (c0 & -> & R0 & C0).
  apply decimal_three in B as (c1 & c2 & c3 & d1 & d2 & d3 & -> & (R1 & C1) & (R2 & C2) & (R3 & C3) & ->).
  unfold String.ltb. cbn [append String.compare].
  rewrite (compare_digit c0 x "0" 0 C0 eq_refl), (compare_digit c1 d1 "7" 7 C1 eq_refl), (compare_digit c2 d2 "0" 0 C2 eq_refl), (compare_digit c3 d3 "2" 2 C3 eq_refl).
  replace ("." ?= ".")%char with Eq by reflexivity.
  destruct (Z.compare_spec x 0); destruct (Z.compare_spec d1 7); destruct (Z.compare_spec d2 0); destruct (Z.compare_spec d3 2); split; intros; try reflexivity; try discriminate; lia.
Qed.

(** *** Lufft *)
Lemma known_unmasked l : known l (unmasked l).
Proof. unfold known. induction l as [|[x|] l IH]; cbn; congruence. Qed.
Lemma known_eq l v : known l v -> v = unmasked l.
Proof.
  intros K. pose proof (known_unmasked l) as K'. unfold known in *. rewrite <- K' in K. clear K'. revert K. generalize (unmasked l) as w.
  induction v as [|x v IH]; intros [|y w] E; cbn in E; try discriminate; [reflexivity|]. f_equal; [congruence|]. apply IH. congruence.
Qed.
Lemma qlt_between a b m : qlt a m && qlt m b = true <-> (a < m < b)%Q.
Proof. rewrite andb_true_iff, !qlt_iff. reflexivity. Qed.
Lemma get_nn_spec power nn1 :
  match get_nn power nn1 with
  | Some l => length l = length nn1 /\ forall i x, nth_error nn1 i = Some x -> exists g, nth_error l i = Some g /\ gain power nn1 x g
  | None => forall x, gain power nn1 x (Some 1%Q)
  end.
Proof.
  unfold get_nn. pose proof (median_iff (unmasked nn1)) as M. destruct (median (unmasked nn1)) as [m|] eqn:E.
  - assert (P : forall s r k, gain_parameters m (s, r, k) -> ~ (k == 0)%Q -> let l := map (option_map (fun x : Q => power s (- (x - r) / k)%Q)) nn1 in
      length l = length nn1 /\ forall i x, nth_error nn1 i = Some x -> exists g, nth_error l i = Some g /\ gain power nn1 x g).
    { intros s r k GP K l. split; [apply map_length|]. intros i x X. unfold l. rewrite nth_error_map', X. eexists. split; [reflexivity|].
      left. exists (unmasked nn1), m, s, r, k. split; [apply known_unmasked|]. split; [exact M|]. split; [exact GP|]. destruct x as [q|]; [|reflexivity].
      cbn [option_map]. eexists. split; [|reflexivity]. field. exact K. }
    destruct (qlt 120 m && qlt m 160) eqn:A.
    + apply qlt_between in A. apply (P (124 # 100)%Q 140%Q 5%Q); [left; split; [exact A|reflexivity]|]. intros Z. discriminate Z.
    + destruct (qlt 3200 m && qlt m 4000) eqn:B.
      * apply qlt_between in B. apply (P (1035 # 1000)%Q 3685%Q 1%Q); [right; split; [exact B|reflexivity]|]. intros Z. discriminate Z.
      * intros x. right. split; [|reflexivity]. intros v m' p K M' GP. apply known_eq in K. subst v. pose proof (FreezeProofs.median_unique _ _ _ M M') as Q.
        destruct GP as [((L & R) & _)|((L & R) & _)].
        -- assert (qlt 120 m && qlt m 160 = true) by (apply qlt_between; lra). congruence.
        -- assert (qlt 3200 m && qlt m 4000 = true) by (apply qlt_between; lra). congruence.
  - intros x. right. split; [|reflexivity]. intros v m' p K M' _. apply known_eq in K. subst v. apply FreezeProofs.median_nonempty in M'. contradiction.
Qed.
Lemma getvar_two {A} (vars : OutputModel.dict A) a b v : getvar [a; b] vars = Ok v <-> variable_of vars a b v.
Proof.
  unfold variable_of. cbn [getvar]. destruct (lookup a vars) as [x|] eqn:Ea.
  - split; [intros H; left; congruence|intros [H|(H & _)]; congruence].
  - destruct (lookup b vars) as [y|] eqn:Eb; split; [intros H; right; split; congruence|intros [H|(_ & H)]; congruence|discriminate|intros [H|(_ & H)]; discriminate].
Qed.
Lemma getvar_two_raise {A} (vars : OutputModel.dict A) a b : lookup a vars = None -> lookup b vars = None -> getvar [a; b] vars = Raise ValueError.
Proof. intros Ha Hb. cbn [getvar]. rewrite Ha, Hb. reflexivity. Qed.
Lemma getvar_one {A} (vars : OutputModel.dict A) a v : getvar [a] vars = Ok v <-> lookup a vars = Some v.
Proof. cbn [getvar]. destruct (lookup a vars); split; congruence. Qed.
(** The column of factors. *)
Lemma std_column_spec power std nn1 c : std_column std (get_nn power nn1) = Ok c ->
  1 < length std /\ length c = length std /\
  forall i s, nth_error std i = Some s -> exists g o, gain power nn1 (nth i nn1 None) g /\ nth_error c i = Some o /\
    match s, g with
    | Some a, Some b => (b == 0)%Q /\ o = None \/ ~ (b == 0)%Q /\ exists q, o = Some q /\ (q * b == a)%Q
    | _, _ => o = None
    end.
Proof.
  unfold std_column. pose proof (get_nn_spec power nn1) as N. destruct (get_nn power nn1) as [l|].
  - destruct N as (L & N). destruct (Nat.eqb_spec (length l) (length std)) as [E|]; [|discriminate]. destruct (Nat.ltb_spec 1 (length std)) as [B|]; [|discriminate].
    intros H. assert (c = map2 mdiv std l) by congruence. subst c. split; [exact B|]. split; [rewrite map2_length; lia|]. intros i s S.
    assert (I : i < length nn1) by (rewrite <- L, E; apply nth_error_Some; congruence). destruct (nth_error nn1 i) as [x|] eqn:X; [|apply nth_error_None in X; lia].
    destruct (N i x X) as (g & Eg & G). exists g, (mdiv s g). split; [rewrite (nth_error_nth nn1 i None X); exact G|]. split; [rewrite nth_error_map2, S, Eg; reflexivity|].
    destruct s as [a|], g as [b|]; cbn [mdiv]; try reflexivity. destruct (Qeq_bool b 0) eqn:Z.
    + left. split; [apply Qeq_bool_iff, Z|reflexivity].
    + right. assert (Z' : ~ (b == 0)%Q) by (intros Z'; apply Qeq_bool_iff in Z'; congruence). split; [exact Z'|]. eexists. split; [reflexivity|]. field. exact Z'.
  - destruct (Nat.ltb_spec 1 (length std)) as [B|]; [|discriminate]. intros H. assert (c = std) by congruence. subst c. split; [exact B|]. split; [reflexivity|].
    intros i s S. exists (Some 1%Q), s. split; [apply N|]. split; [exact S|]. destruct s as [a|]; [|reflexivity]. right. split; [intros Z; discriminate Z|]. exists a. split; [reflexivity|ring].
Qed.
Lemma times_column_nth beta c out : times_column beta c = Ok out -> length c = length beta /\ same_shape beta out /\
  forall i j f x, nth_error c i = Some f -> pixel beta i j = Some x -> pixel out i j = Some (mmul x f).
Proof.
  unfold times_column. destruct (Nat.eqb_spec (length c) (length beta)) as [L|]; [|discriminate]. intros H.
  assert (out = map2 (fun row f => map (fun x => mmul x f) row) beta c) by congruence. subst out. split; [exact L|]. split.
  - unfold same_shape. clear H. revert c L. induction beta as [|r beta IH]; intros [|f c] L; cbn in *; try discriminate; constructor; [rewrite map_length; reflexivity|]. apply IH. lia.
  - intros i j f x F X. unfold pixel in *. rewrite nth_error_map2, F. destruct (nth_error beta i) as [row|]; [|discriminate]. rewrite nth_error_map', X. reflexivity.
Qed.
Lemma times_row_nth beta r out : times_row beta r = Ok out -> (forall row, In row beta -> length row = length r) /\ same_shape beta out /\
  forall i j f x, nth_error r j = Some f -> pixel beta i j = Some x -> pixel out i j = Some (option_map (fun v => (v * f)%Q) x).
Proof.
  unfold times_row. destruct (forallb _ beta) eqn:L; [|discriminate]. intros H.
  assert (out = map (fun row => map2 (fun (x : masked Q) f => option_map (fun v => (v * f)%Q) x) row r) beta) by congruence. subst out.
  assert (L' : forall row, In row beta -> length row = length r) by (rewrite forallb_forall in L; intros row I; apply Nat.eqb_eq, L, I). split; [exact L'|]. split.
  - unfold same_shape. clear H L. induction beta as [|b beta IH]; cbn [map]; constructor; [rewrite map2_length, (L' b (or_introl eq_refl)); lia|]. apply IH. intros row I. apply L'. right. exact I.
  - intros i j f x F X. unfold pixel in *. rewrite nth_error_map'. destruct (nth_error beta i) as [row|]; [|discriminate]. cbn [option_map]. rewrite nth_error_map2, X, F. reflexivity.
Qed.
Lemma same_shape_trans {A B C} (a : image A) (b : image B) (c : image C) : same_shape a b -> same_shape b c -> same_shape a c.
Proof.
  unfold same_shape. intros H. revert c. induction H as [|x y a b E H IH]; intros c H2; inversion H2; subst; constructor; [congruence|]. apply IH. assumption.
Qed.
Lemma same_shape_map {A B} (f : A -> B) (m : image A) : same_shape m (map (map f) m).
Proof. unfold same_shape. induction m; cbn [map]; constructor; [rewrite map_length; reflexivity|assumption]. Qed.
Lemma pixel_map {A B} (f : A -> B) m i j : pixel (map (map f) m) i j = option_map f (pixel m i j).
Proof. exact (pixel_imap f m i j). Qed.
