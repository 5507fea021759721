(** Proofs about the dissipation rate. *)
From Verif Require Import Base ArrayModel ArrayProofs TimeModel TimeSpec TimeProofs GridModel GridSpec GridProofs DropletModel DropletSpec DropletProofs
  MpProofs NwpProofs RpgProofs EpsilonModel EpsilonSpec.
From Coq Require Import Qround Lqa.

(** ** Sums *)
Definition total (l : list Q) : Q := fold_right Qplus 0%Q l.
Lemma total_cons x l : total (x :: l) = (x + total l)%Q.
Proof. reflexivity. Qed.
Lemma cumulative_nth l : forall s k, k <= length l -> (nth k (cumulative s l) 0 == s + total (firstn k l))%Q.
Proof.
  induction l as [|x l IH]; intros s k L; cbn [cumulative].
  - assert (k = 0) by (cbn in L; lia). subst k. cbn. ring.
  - destruct k as [|k]; [cbn; ring|]. cbn [nth firstn length] in *. rewrite IH by lia. rewrite total_cons. ring.
Qed.
Lemma total_app a b : (total (a ++ b) == total a + total b)%Q.
Proof. induction a as [|x a IH]; cbn [List.app]; [change (total []) with 0%Q; ring|]. rewrite !total_cons, IH. ring. Qed.
Lemma between_section l lo hi : lo <= hi <= length l -> (between (cumulative 0 l) lo hi == total (section lo hi l))%Q.
Proof.
  intros (L & H). unfold between, section. rewrite !cumulative_nth by lia.
  assert (E : firstn hi l = firstn lo l ++ firstn (hi - lo) (skipn lo l)).
  { rewrite <- (firstn_skipn lo l) at 1. rewrite firstn_app. rewrite firstn_length_le by lia. rewrite firstn_firstn. f_equal. f_equal. lia. }
  rewrite E, total_app. ring.
Qed.
Lemma section_map {A B} (f : A -> B) lo hi l : section lo hi (map f l) = map f (section lo hi l).
Proof. unfold section. rewrite skipn_map, firstn_map. reflexivity. Qed.
Lemma map2_same {A B C D} (f : B -> C -> D) (g : A -> B) (h : A -> C) l : map2 f (map g l) (map h l) = map (fun x => f (g x) (h x)) l.
Proof. induction l as [|x l IH]; [reflexivity|]. cbn [map map2]. rewrite IH. reflexivity. Qed.
(** ** Points of a band *)
Lemma below_filter (ps : list (Q * Q)) b : ascending (map fst ps) -> firstn (searchsorted_left (map fst ps) b) ps = filter (fun p => qlt (fst p) b) ps.
Proof.
  induction ps as [|p ps IH]; intros S; [reflexivity|]. cbn [map] in S. inversion S as [|? ? S' F]; subst. cbn [map searchsorted_left filter]. destruct (qlt (fst p) b) eqn:E.
  - cbn [firstn]. rewrite IH by exact S'. reflexivity.
  - cbn [firstn]. symmetry. assert (G : forall q, In q ps -> qlt (fst q) b = false).
    { intros q I. rewrite Forall_forall in F. specialize (F _ (in_map fst _ _ I)). apply qlt_false in E. apply qlt_false. cbv beta in F. lra. }
    clear - G. induction ps as [|q ps IH]; [reflexivity|]. cbn [filter]. rewrite (G q (or_introl eq_refl)). apply IH. intros x I. apply G. right. exact I.
Qed.
Lemma band_filter (ps : list (Q * Q)) a b : ascending (map fst ps) -> (a < b)%Q ->
  section (searchsorted_right (map fst ps) a) (searchsorted_left (map fst ps) b) ps = filter (fun p => qlt a (fst p) && qlt (fst p) b) ps /\
  searchsorted_right (map fst ps) a <= searchsorted_left (map fst ps) b.
Proof.
  intros S L. induction ps as [|p ps IH]; [split; reflexivity|]. pose proof S as S0. cbn [map] in S. inversion S as [|? ? S' F]; subst. cbn [map searchsorted_left searchsorted_right filter].
  destruct (Qle_bool (fst p) a) eqn:E.
  - apply Qle_bool_iff in E. assert (Eb : qlt (fst p) b = true) by (apply qlt_iff; lra). assert (Ea : qlt a (fst p) = false) by (apply qlt_false; lra). rewrite Eb, Ea. cbn [andb].
    destruct (IH S') as (I1 & I2). split; [|lia]. unfold section in *. cbn [skipn]. rewrite <- I1. f_equal.
  - split; [|lia]. unfold section. rewrite Nat.sub_0_r. cbn [skipn]. pose proof (below_filter (p :: ps) b S0) as G. cbn [map searchsorted_left filter] in G. 
    assert (Ea : (a < fst p)%Q) by (destruct (Qlt_le_dec a (fst p)) as [X|X]; [exact X|]; apply Qle_bool_iff in X; congruence).
    assert (All : forall q, In q (p :: ps) -> qlt a (fst q) = true).
    { intros q [<-|I]; [apply qlt_iff, Ea|]. rewrite Forall_forall in F. specialize (F _ (in_map fst _ _ I)). apply qlt_iff. cbv beta in F. lra. }
    transitivity (filter (fun p => qlt (fst p) b) (p :: ps)); [exact G|].
    change (filter (fun p0 => qlt (fst p0) b) (p :: ps) = filter (fun p0 => qlt a (fst p0) && qlt (fst p0) b) (p :: ps)).
    clear - All. induction (p :: ps) as [|q l IH]; [reflexivity|]. cbn [filter]. rewrite (All q (or_introl eq_refl)). cbn [andb]. rewrite IH; [reflexivity|]. intros x I. apply All. right. exact I.
Qed.
(** ** Least squares *)
Definition Sx (pts : list (Q * Q)) := total (map fst pts).
Definition Sy (pts : list (Q * Q)) := total (map snd pts).
Definition Sxx (pts : list (Q * Q)) := total (map (fun p => fst p * fst p)%Q pts).
Definition Sxy (pts : list (Q * Q)) := total (map (fun p => fst p * snd p)%Q pts).
Definition Syy (pts : list (Q * Q)) := total (map (fun p => snd p * snd p)%Q pts).
Definition Nq {A} (pts : list A) : Q := inject_Z (Z.of_nat (length pts)).
Lemma Nq_cons {A} (x : A) l : (Nq (x :: l) == Nq l + 1)%Q.
Proof. unfold Nq. cbn [length]. rewrite Nat2Z.inj_succ, <- Z.add_1_r, inject_Z_plus. reflexivity. Qed.
Lemma deviation_sums pts s c :
  (deviation pts s c == Syy pts - 2 * s * Sxy pts - 2 * c * Sy pts + s * s * Sxx pts + 2 * s * c * Sx pts + c * c * Nq pts)%Q.
Proof.
  unfold deviation. change (fold_right Qplus 0%Q) with total. induction pts as [|p pts IH]; [unfold Syy, Sxy, Sxx, Sx, Sy, Nq, total; cbn; ring|]. rewrite Nq_cons. unfold Syy, Sxy, Sxx, Sx, Sy in *. cbn [map]. rewrite !total_cons.
  rewrite IH. ring.
Qed.
Definition spread (pts : list (Q * Q)) : Q := (Nq pts * Sxx pts - Sx pts * Sx pts)%Q.
Lemma spread_cons p pts : (spread (p :: pts) == spread pts + total (map (fun q => (fst q - fst p) * (fst q - fst p))%Q pts))%Q.
Proof.
  unfold spread. rewrite Nq_cons. assert (E : (total (map (fun q => (fst q - fst p) * (fst q - fst p))%Q pts) == Sxx pts - 2 * fst p * Sx pts + Nq pts * (fst p * fst p))%Q).
  { clear. induction pts as [|q pts IH]; [unfold Sxx, Sx, Nq, total; cbn; ring|]. rewrite Nq_cons. unfold Sxx, Sx in *. cbn [map]. rewrite !total_cons. rewrite IH. ring. }
  rewrite E. unfold Sxx, Sx. cbn [map]. rewrite !total_cons. ring.
Qed.
Lemma square_nonneg x : (0 <= x * x)%Q.
Proof. destruct (Qlt_le_dec x 0) as [H|H]; [setoid_replace (x * x)%Q with ((- x) * (- x))%Q by ring|]; apply Qmult_le_0_compat; lra. Qed.
Lemma squares_nonneg {A} (f : A -> Q) l : (0 <= total (map (fun q => f q * f q)%Q l))%Q.
Proof. induction l as [|x l IH]; [cbn; lra|]. cbn [map]. rewrite !total_cons. pose proof (square_nonneg (f x)). lra. Qed.
Lemma square_pos x : ~ (x == 0)%Q -> (0 < x * x)%Q.
Proof. intros N. pose proof (square_nonneg x) as H. destruct (Qle_lt_or_eq _ _ H) as [H'|H']; [exact H'|]. exfalso. apply N. symmetry in H'. apply Qmult_integral in H'. tauto. Qed.
Lemma spread_nonneg pts : (0 <= spread pts)%Q.
Proof.
  induction pts as [|p pts IH]; [unfold spread, Sxx, Sx, Nq, total; cbn; lra|]. rewrite spread_cons. pose proof (squares_nonneg (fun q : Q * Q => fst q - fst p)%Q pts) as H. cbv beta in H. lra.
Qed.
Lemma spread_pos p q pts : ~ (fst p == fst q)%Q -> (0 < spread (p :: q :: pts))%Q.
Proof.
  intros N. rewrite spread_cons. pose proof (spread_nonneg (q :: pts)). cbn [map]. rewrite !total_cons.
  pose proof (squares_nonneg (fun r : Q * Q => fst r - fst p)%Q pts) as H1. cbv beta in H1. assert (H2 : (0 < (fst q - fst p) * (fst q - fst p))%Q) by (apply square_pos; intros Z; apply N; lra). lra.
Qed.
Lemma small_spread pts : length pts < 2 -> (spread pts == 0)%Q.
Proof. intros L. destruct pts as [|p [|q l]]; [unfold spread, Sxx, Sx, Nq, total; cbn; ring|unfold spread, Nq, Sxx, Sx, total; cbn; ring|cbn in L; lia]. Qed.
(** The line of the formulas. *)
Section Line.
  Variables (pts : list (Q * Q)) (s c : Q).
  Hypothesis D : (0 < spread pts)%Q.
  Hypothesis S : (s * spread pts == Nq pts * Sxy pts - Sx pts * Sy pts)%Q.
  Hypothesis C : (c * Nq pts == Sy pts - s * Sx pts)%Q.
  Lemma count_pos : (0 < Nq pts)%Q.
  Proof.
    clear S C. destruct pts as [|p l]; [unfold spread, Sxx, Sx, Nq, total in D; cbn in D; lra|]. unfold Nq. cbn [length]. change 0%Q with (inject_Z 0). rewrite <- Zlt_Qlt. lia.
  Qed.
  Lemma normal1 : (s * Sx pts + c * Nq pts - Sy pts == 0)%Q.
  Proof. rewrite C. ring. Qed.
  Lemma normal2 : (s * Sxx pts + c * Sx pts - Sxy pts == 0)%Q.
  Proof.
    pose proof count_pos as P. assert (E : (Nq pts * (s * Sxx pts + c * Sx pts - Sxy pts) == 0)%Q).
    { setoid_replace (Nq pts * (s * Sxx pts + c * Sx pts - Sxy pts))%Q with (s * spread pts + Sx pts * (s * Sx pts + c * Nq pts - Sy pts) - (Nq pts * Sxy pts - Sx pts * Sy pts))%Q by (unfold spread; ring).
      rewrite S, normal1. ring. }
    apply Qmult_integral in E. destruct E as [E|E]; [lra|exact E].
  Qed.
  Lemma excess s' c' : (Nq pts * (deviation pts s' c' - deviation pts s c) ==
    spread pts * ((s' - s) * (s' - s)) + (Nq pts * (c' - c) + Sx pts * (s' - s)) * (Nq pts * (c' - c) + Sx pts * (s' - s)))%Q.
  Proof.
    rewrite !deviation_sums. pose proof normal1 as N1. pose proof normal2 as N2. unfold spread.
    assert (E : forall a b, (a - b == 0 -> a == b)%Q) by (intros; lra). apply E.
    match goal with |- (?l == 0)%Q => setoid_replace l with (2 * Nq pts * (s' - s) * (s * Sxx pts + c * Sx pts - Sxy pts) + 2 * Nq pts * (c' - c) * (s * Sx pts + c * Nq pts - Sy pts))%Q by ring end.
    rewrite N1, N2. ring.
  Qed.
  Lemma line_least : least_squares pts s c.
  Proof.
    intros s' c'. pose proof (excess s' c') as E. pose proof count_pos as P. pose proof (square_nonneg (s' - s)) as Q1. pose proof (square_nonneg (Nq pts * (c' - c) + Sx pts * (s' - s))) as Q2.
    assert (Q3 : (0 <= spread pts * ((s' - s) * (s' - s)))%Q) by (apply Qmult_le_0_compat; lra).
    destruct (Qlt_le_dec (deviation pts s' c') (deviation pts s c)) as [X|X]; [|exact X]. exfalso.
    assert (Y : (0 < Nq pts * (deviation pts s c - deviation pts s' c'))%Q) by (apply Qmult_lt_0_compat; lra).
    setoid_replace (Nq pts * (deviation pts s c - deviation pts s' c'))%Q with (- (Nq pts * (deviation pts s' c' - deviation pts s c)))%Q in Y by ring. lra.
  Qed.
  Lemma line_unique s' c' : least_squares pts s' c' -> (s' == s)%Q.
  Proof.
    intros L. pose proof (excess s' c') as E. pose proof count_pos as P. specialize (L s c). pose proof (line_least s' c') as L'.
    assert (Z : (deviation pts s' c' - deviation pts s c == 0)%Q) by lra. rewrite Z in E. pose proof (square_nonneg (Nq pts * (c' - c) + Sx pts * (s' - s))) as Q2.
    destruct (Qeq_dec s' s) as [X|X]; [exact X|]. exfalso. assert (Y : (0 < spread pts * ((s' - s) * (s' - s)))%Q) by (apply Qmult_lt_0_compat; [exact D|apply square_pos; intros W; apply X; lra]). lra.
  Qed.
End Line.
(** ** Bands *)
Lemma total_proper_map {A} (f g : A -> Q) l : (forall x, In x l -> f x == g x)%Q -> (total (map f l) == total (map g l))%Q.
Proof. induction l as [|x l IH]; intros H; [reflexivity|]. cbn [map]. rewrite !total_cons. rewrite IH by (intros y Y; apply H; right; exact Y). rewrite (H x (or_introl eq_refl)). reflexivity. Qed.
Lemma combine_fst {A B} (a : list A) : forall (b : list B), length b = length a -> map fst (combine a b) = a.
Proof. induction a as [|x a IH]; intros [|y b] L; try discriminate; [reflexivity|]. cbn [combine map fst]. rewrite IH by (cbn in L; lia). reflexivity. Qed.
Lemma combine_snd {A B} (a : list A) : forall (b : list B), length b = length a -> map snd (combine a b) = b.
Proof. induction a as [|x a IH]; intros [|y b] L; try discriminate; [reflexivity|]. cbn [combine map snd]. rewrite IH by (cbn in L; lia). reflexivity. Qed.
Section Bands.
  Variables (log : Q -> Q) (freq power : list Q).
  Hypothesis L : length power = length freq.
  Hypothesis A : strictly_increasing freq.
  Hypothesis M : forall x y, In x freq -> In y freq -> (x < y)%Q -> (log x < log y)%Q.
  Let ps := combine freq power.
  Lemma freq_ascending : ascending freq.
  Proof. unfold ascending. clear - A. unfold strictly_increasing in A. induction A as [|x l S IH F]; [constructor|]. constructor; [exact (IH S)|]. rewrite Forall_forall in *. intros y Y. specialize (F y Y). lra. Qed.
  Lemma fit_sums a b : (a < b)%Q -> forall pts, inside log freq power (a, b) pts ->
    let r := fit (map log freq) (map log power) freq (a, b) in
    fst r = length pts /\
    match snd r with
    | None => (spread pts == 0)%Q
    | Some (s, c) => ~ (spread pts == 0)%Q /\ (s * spread pts == Nq pts * Sxy pts - Sx pts * Sy pts)%Q /\ (c == (Sy pts - s * Sx pts) / Nq pts)%Q
    end.
  Proof.
    intros Lt pts I. pose proof freq_ascending as As. assert (Ef : freq = map fst ps) by (symmetry; apply combine_fst, L). assert (Ep : power = map snd ps) by (symmetry; apply combine_snd, L).
    rewrite Ef in As. destruct (band_filter ps a b As Lt) as (F & Le). unfold inside in I. fold ps in I. cbn [fst snd] in I. rewrite <- F in I.
    cbv zeta. unfold fit. cbn [fst snd].
    replace (searchsorted_right freq a) with (searchsorted_right (map fst ps) a) by (rewrite <- Ef; reflexivity). replace (searchsorted_left freq b) with (searchsorted_left (map fst ps) b) by (rewrite <- Ef; reflexivity).
    assert (Hle : searchsorted_left (map fst ps) b <= length ps) by (pose proof (ss_left_le (map fst ps) b) as X; rewrite map_length in X; exact X).
    set (lo := searchsorted_right (map fst ps) a) in *. set (hi := searchsorted_left (map fst ps) b) in *.
    assert (Hn : hi - lo = length pts). { rewrite I, map_length. unfold section. rewrite firstn_length, skipn_length. lia. }
    assert (E1 : (between (cumulative 0 (map log freq)) lo hi == Sx pts)%Q).
    { rewrite between_section by (rewrite map_length; rewrite Ef, map_length; lia). rewrite Ef. rewrite map_map, section_map. unfold Sx. rewrite I, map_map. reflexivity. }
    assert (E2 : (between (cumulative 0 (map log power)) lo hi == Sy pts)%Q).
    { rewrite between_section by (rewrite map_length; rewrite Ep, map_length; lia). rewrite Ep. rewrite map_map, section_map. unfold Sy. rewrite I, map_map. reflexivity. }
    assert (E3 : (between (cumulative 0 (map2 Qmult (map log freq) (map log freq))) lo hi == Sxx pts)%Q).
    { rewrite map2_same. rewrite between_section by (rewrite map_length; rewrite Ef, map_length; lia). rewrite Ef. rewrite map_map, section_map. unfold Sxx. rewrite I, map_map. reflexivity. }
    assert (E4 : (between (cumulative 0 (map2 Qmult (map log freq) (map log power))) lo hi == Sxy pts)%Q).
    { assert (X : map2 Qmult (map log freq) (map log power) = map (fun p => log (fst p) * log (snd p))%Q ps) by (rewrite Ef at 1; rewrite Ep at 1; rewrite !map_map, map2_same; reflexivity).
      rewrite X. rewrite between_section by (rewrite map_length; lia). rewrite section_map. unfold Sxy. rewrite I, map_map. reflexivity. }
    set (sx := between (cumulative 0 (map log freq)) lo hi) in *. set (sy := between (cumulative 0 (map log power)) lo hi) in *.
    set (sxx := between (cumulative 0 (map2 Qmult (map log freq) (map log freq))) lo hi) in *. set (sxy := between (cumulative 0 (map2 Qmult (map log freq) (map log power))) lo hi) in *.
    clearbody sx sy sxx sxy. rewrite Hn. fold (Nq pts). split; [reflexivity|].
    assert (Ed : (Nq pts * sxx - sx * sx == spread pts)%Q) by (unfold spread; rewrite E1, E3; reflexivity).
    destruct (Qeq_bool (Nq pts * sxx - sx * sx) 0) eqn:Z.
    - apply Qeq_bool_iff in Z. rewrite <- Ed. exact Z.
    - assert (NZ : ~ (spread pts == 0)%Q) by (intros X; rewrite <- Ed in X; apply Qeq_bool_iff in X; congruence). split; [exact NZ|]. split.
      + rewrite Ed, E1, E2, E4. field. exact NZ.
      + rewrite E1, E2. reflexivity.
  Qed.
  Lemma inside_spread a b pts : inside log freq power (a, b) pts -> 2 <= length pts -> (0 < spread pts)%Q.
  Proof.
    intros I H. assert (Ef : map fst ps = freq) by (apply combine_fst, L).
    assert (S : StronglySorted Qlt (map fst pts)).
    { unfold inside in I. fold ps in I. cbn [fst snd] in I. rewrite I, map_map. cbn [fst].
      assert (S0 : StronglySorted Qlt (map fst ps)) by (rewrite Ef; exact A). assert (Mf : forall p, In p ps -> In (fst p) freq) by (intros p P; rewrite <- Ef; apply in_map, P).
      clearbody ps. clear - S0 M Mf. induction ps as [|p l IH]; [constructor|]. cbn [map] in S0. inversion S0 as [|? ? S' F]; subst. cbn [filter].
      assert (IH' := IH S' (fun q Q => Mf q (or_intror Q))). destruct (qlt a (fst p) && qlt (fst p) b); [|exact IH']. cbn [map]. constructor; [exact IH'|].
      apply Forall_forall. intros y Y. apply in_map_iff in Y. destruct Y as (q & <- & Q). apply filter_In in Q. destruct Q as (Q & _). rewrite Forall_forall in F.
      apply M; [apply Mf; left; reflexivity|apply Mf; right; exact Q|apply F, in_map, Q]. }
    destruct pts as [|p [|q l]]; cbn [length] in H; try lia. apply spread_pos. cbn [map] in S. apply StronglySorted_inv in S. destruct S as (_ & F). apply Forall_inv in F. lra.
  Qed.
  Lemma band_outcome a b : (a < b)%Q -> outcome log freq power (a, b) (accepted (fit (map log freq) (map log power) freq (a, b))).
  Proof.
    intros Lt pts I. destruct (fit_sums a b Lt pts I) as (N & F). set (r := fit _ _ _ _) in *. clearbody r. unfold accepted. destruct (snd r) as [[s c]|].
    - destruct F as (NZ & Fs & Fc). destruct (Nat.leb_spec 2 (fst r)) as [G|G]; cbn [andb].
      + rewrite N in G. pose proof (inside_spread a b pts I G) as P. pose proof (count_pos pts P) as Pn.
        assert (Fc' : (c * Nq pts == Sy pts - s * Sx pts)%Q) by (rewrite Fc; field; lra).
        destruct (qlt (-2) s && qlt s (- (133 # 100))) eqn:In.
        * apply andb_true_iff in In. destruct In as (I1 & I2). apply qlt_iff in I1, I2. split; [exact G|]. exists s. split; [apply (line_least pts s c P Fs Fc')|]. split; assumption.
        * right. intros s' c' Ls Is. pose proof (line_unique pts s c P Fs Fc' s' c' Ls) as U. destruct Is as (J1 & J2). apply andb_false_iff in In. destruct In as [X|X]; apply qlt_false in X; lra.
      + left. lia.
    - left. destruct (le_lt_dec 2 (length pts)) as [G|G]; [|exact G]. pose proof (inside_spread a b pts I G). lra.
  Qed.
End Bands.
Lemma bands_table : Forall2 (fun a b => (fst a == fst b /\ snd a == snd b /\ fst a < snd a)%Q) band_table bands.
Proof. vm_compute. repeat (apply Forall2_cons; [repeat split; reflexivity|]). apply Forall2_nil. Qed.
Lemma qlt_same a b a' b' : (a == a')%Q -> (b == b')%Q -> qlt a b = qlt a' b'.
Proof.
  intros E F. destruct (qlt a b) eqn:X, (qlt a' b') eqn:Y; try reflexivity.
  - apply qlt_iff in X. apply qlt_false in Y. lra.
  - apply qlt_iff in Y. apply qlt_false in X. lra.
Qed.
Lemma inside_same log freq power b b' pts : (fst b == fst b')%Q -> (snd b == snd b')%Q -> inside log freq power b pts -> inside log freq power b' pts.
Proof.
  intros E F I. unfold inside in *. rewrite I. f_equal. apply filter_ext. intros p. rewrite (qlt_same _ _ (fst b') (fst p) E (Qeq_refl _)). rewrite (qlt_same _ _ (fst p) (snd b') (Qeq_refl _) F). reflexivity.
Qed.
Lemma flatten_nil {A} (l : list (masked A)) : flatten l = [] -> forall o, In o l -> o = None.
Proof. induction l as [|[x|] l IH]; intros H o I; [destruct I|discriminate|]. destruct I as [<-|I]; [reflexivity|]. apply IH; [exact H|exact I]. Qed.
Section Estimate.
  Variables (log rate root : Q -> Q).
  Lemma estimate freq power : length power = length freq -> strictly_increasing freq ->
    (forall x y, In x freq -> In y freq -> (x < y)%Q -> (log x < log y)%Q) ->
    spectrum_estimate log rate root freq power (epsilon_from_spectrum log rate root freq power).
  Proof.
    intros L S M. set (outs := map (fun b => accepted (fit (map log freq) (map log power) freq b)) bands).
    exists outs. split.
    - unfold outs. pose proof bands_table as B. clear outs. induction B as [|b b' l l' H B IH]; [apply Forall2_nil|]. cbn [map]. apply Forall2_cons; [|exact IH].
      destruct H as (H1 & H2 & H3). destruct b' as [lo hi]. cbn [fst snd] in *. intros pts I. apply (band_outcome log freq power L S M lo hi); [lra|]. apply (inside_same _ _ _ b (lo, hi)); assumption.
    - unfold epsilon_from_spectrum. cbv zeta. fold outs. unfold summary. change (flat_map _ outs) with (flatten outs). pose proof (flatten_nil outs) as N. clearbody outs. destruct (flatten outs) as [|x l]; [exact (N eq_refl)|].
      cbv zeta. set (eps := map rate (x :: l)). assert (Le : length eps = Datatypes.S (length l)) by (unfold eps; rewrite map_length; reflexivity).
      assert (Pn : (0 < inject_Z (Z.of_nat (length eps)))%Q) by (change 0%Q with (inject_Z 0); rewrite <- Zlt_Qlt; lia).
      split; [intros X; rewrite X in Le; discriminate|]. split; [unfold mean; field; lra|].
      destruct (Nat.leb_spec 2 (length eps)) as [G|G]; [|lia]. split; [exact G|]. exists (variance eps). split; [reflexivity|]. unfold variance. cbv zeta.
      assert (Pz : (0 < inject_Z (Z.of_nat (length eps) - 1))%Q) by (change 0%Q with (inject_Z 0); rewrite <- Zlt_Qlt; lia).
      assert (Em : (inject_Z (Z.of_nat (length eps)) - 1 == inject_Z (Z.of_nat (length eps) - 1))%Q) by (unfold Z.sub; rewrite inject_Z_plus; reflexivity).
      rewrite Em. field. lra.
  Qed.
End Estimate.
(** ** Pixels *)
Lemma flatten_count (vel : list (masked Q)) : length vel - length (filter missing vel) = valid_count vel.
Proof.
  assert (H : length vel = length (filter missing vel) + valid_count vel); [|lia].
  unfold valid_count. induction vel as [|[x|] l IH]; [reflexivity| |]; cbn [length filter missing flat_map List.app]; lia.
Qed.
Lemma valid_count_le vel : valid_count vel <= length vel.
Proof. rewrite <- flatten_count. lia. Qed.
Lemma all_missing l : forallb missing l = false <-> exists i (x : Q), nth_error l i = Some (Some x).
Proof.
  split.
  - induction l as [|[x|] l IH]; intros H; [discriminate|exists 0, x; reflexivity|]. destruct (IH H) as (i & x & E). exists (S i), x. exact E.
  - intros (i & x & E). apply nth_error_In in E. destruct (forallb missing l) eqn:F; [|reflexivity]. rewrite forallb_forall in F. specialize (F _ E). discriminate.
Qed.
Lemma nth_error_firstn_lt {A} (l : list A) n i : i < n -> nth_error (firstn n l) i = nth_error l i.
Proof. revert n i. induction l as [|x l IH]; intros [|n] [|i] H; try lia; try reflexivity. cbn [firstn nth_error]. apply IH. lia. Qed.
Lemma nth_error_skipn' {A} (l : list A) n i : nth_error (skipn n l) i = nth_error l (n + i).
Proof. revert n. induction l as [|x l IH]; intros [|n]; try reflexivity; [destruct i; reflexivity|]. cbn [skipn]. apply IH. Qed.
Lemma min_valid_iff n c : min_valid n <= c <-> 2 <= c /\ 9 * n < 10 * (c + 1).
Proof.
  unfold min_valid. set (q := ((9 # 10) * inject_Z (Z.of_nat n))%Q).
  assert (E : (q * 10 == inject_Z (9 * Z.of_nat n))%Q) by (unfold q; rewrite inject_Z_mult; change (inject_Z 9) with 9%Q; ring).
  pose proof (Qfloor_le q) as F1. pose proof (Qlt_floor q) as F2. set (z := Qfloor q) in *. clearbody z.
  assert (G1 : (10 * z <= 9 * Z.of_nat n)%Z). { rewrite Zle_Qle, <- E, inject_Z_mult. change (inject_Z 10) with 10%Q. lra. }
  assert (G2 : (9 * Z.of_nat n < 10 * (z + 1))%Z). { rewrite Zlt_Qlt, <- E, inject_Z_mult. change (inject_Z 10) with 10%Q. lra. }
  split; intros H; lia.
Qed.
Lemma usable_iff (vel : list (masked Q)) n : n = length vel ->
  (forallb missing (firstn 2 vel) || forallb missing (skipn (length vel - 2) vel) = false /\ (length vel - length (filter missing vel) <? min_valid n) = false) <-> usable vel.
Proof.
  intros ->. rewrite orb_false_iff, !all_missing, flatten_count. rewrite Nat.ltb_ge, min_valid_iff. unfold usable. split.
  - intros (((i & x & Ei) & (j & y & Ej)) & N & M). split; [|split; [|split; assumption]].
    + assert (i < 2). { assert (X : i < length (firstn 2 vel)) by (apply nth_error_Some; congruence). rewrite firstn_length in X. lia. } exists i, x. split; [assumption|]. rewrite nth_error_firstn_lt in Ei by assumption. exact Ei.
    + rewrite nth_error_skipn' in Ej. exists (length vel - 2 + j), y. split; [lia|exact Ej].
  - intros ((i & x & I & Ei) & (j & y & J & Ej) & N & M). split; [split|split; assumption].
    + exists i, x. rewrite nth_error_firstn_lt by exact I. exact Ei.
    + exists (j - (length vel - 2)), y. rewrite nth_error_skipn'. rewrite <- Ej. f_equal. lia.
Qed.
Lemma nth_error_seq_one n k : k < n -> nth_error (seq 1 n) k = Some (Datatypes.S k).
Proof.
  intros H. assert (X : forall m n k, k < n -> nth_error (seq m n) k = Some (m + k)); [|apply (X 1 n k H)].
  clear. intros m n. revert m. induction n as [|n IH]; intros m [|k] H; try lia; cbn [seq nth_error]; [f_equal; lia|]. rewrite IH by lia. f_equal. lia.
Qed.
Lemma StronglySorted_seq_map (f : nat -> Q) : (forall i j, i < j -> (f i < f j)%Q) -> forall n m, StronglySorted Qlt (map f (seq m n)).
Proof.
  intros H. induction n as [|n IH]; intros m; [constructor|]. cbn [seq map]. constructor; [apply IH|]. apply Forall_forall. intros x X. apply in_map_iff in X. destruct X as (k & <- & K). apply in_seq in K. apply H. lia.
Qed.
Lemma sorted_points (g : Q * Q -> bool) freq : StronglySorted Qlt freq -> forall power, StronglySorted Qlt (map fst (filter g (combine freq power))).
Proof.
  induction 1 as [|x l S IH F]; intros [|p power]; try constructor. cbn [combine filter]. destruct (g (x, p)); [|apply IH]. cbn [map fst]. constructor; [apply IH|].
  apply Forall_forall. intros y Y. apply in_map_iff in Y. destruct Y as ((f & q) & <- & Y). apply filter_In in Y. destruct Y as (Y & _). apply in_combine_l in Y. rewrite Forall_forall in F. apply F, Y.
Qed.
Section Pixel.
  Variables (log rate root : Q -> Q) (pi : Q) (spectrum : list Q -> list Q) (spline : list (Q * Q) -> Q -> Q).
  Hypothesis Ppi : (0 < pi)%Q.
  Hypothesis Mlog : forall x y, (0 < x)%Q -> (x < y)%Q -> (log x < log y)%Q.
  Lemma filled_gapless times vel : length times = length vel -> gapless spline times vel (filled spline times vel) /\ length (filled spline times vel) = length vel.
  Proof.
    intros L. unfold filled, gapless. destruct (existsb missing vel) eqn:E.
    - split; [|rewrite map_length; exact L]. right. split; [apply existsb_exists in E; destruct E as ([x|] & I & M); [discriminate|exact I]|].
      eexists. split; [reflexivity|]. f_equal. f_equal. revert times L. clear. induction vel as [|v vel IH]; intros [|t times] L; try discriminate; [reflexivity|].
      cbn [map2 combine flatten flat_map]. change (flat_map _ (map2 ?f ?a ?b)) with (flatten (map2 f a b)). rewrite IH by (cbn in L; lia). destruct v; reflexivity.
    - assert (X : vel = map Some (flatten vel)); [|split; [left; exact X|rewrite X at 2; rewrite map_length; reflexivity]].
      clear L. induction vel as [|[x|] vel IH]; [reflexivity| |discriminate]. cbn [flatten flat_map List.app map]. f_equal. apply IH. exact E.
  Qed.
  Lemma periodogram_spec vel dt w : vel <> [] -> (0 < w)%Q ->
    match periodogram pi spectrum vel dt w with
    | Raise e => e = ZeroDivisionError /\ (dt == 0)%Q
    | Ok points => ~ (dt == 0)%Q /\ wave_points pi spectrum vel (dt * w) points /\ ((0 < dt)%Q -> strictly_increasing (map fst points) /\ Forall (fun x => 0 < x)%Q (map fst points))
    end.
  Proof.
    intros NE W. unfold periodogram. cbv zeta. set (n := inject_Z (Z.of_nat (length vel))). assert (Pn : (0 < n)%Q) by (unfold n; change 0%Q with (inject_Z 0); rewrite <- Zlt_Qlt; destruct vel; [congruence|cbn [length]; lia]).
    destruct (Qeq_bool (n * (dt * w)) 0) eqn:E.
    - split; [reflexivity|]. apply Qeq_bool_iff in E. apply Qmult_integral in E. destruct E as [E|E]; [lra|]. apply Qmult_integral in E. destruct E as [E|E]; [exact E|lra].
    - assert (NZ : ~ (dt == 0)%Q) by (intros Z; apply Qeq_bool_neq in E; apply E; rewrite Z; ring).
      assert (NX : ~ (dt * w == 0)%Q) by (intros Z; apply Qmult_integral in Z; destruct Z; [contradiction|lra]).
      split; [exact NZ|]. set (F := fun k => (inject_Z (Z.of_nat k) / (n * (dt * w)) * 2 * pi)%Q). set (freq := map F (seq 1 (length vel / 2))). set (power := map (fun m => (dt * w / n * m / pi)%Q) (spectrum vel)). split.
      + exists (combine freq power). split; [|split; [unfold freq, power; rewrite combine_length, !map_length, seq_length; reflexivity|reflexivity]].
        intros k m Em Lk. exists (F (Datatypes.S k)), (dt * w / n * m / pi)%Q. split; [|split].
        * rewrite nth_error_combine. unfold freq, power. rewrite !nth_error_map', Em. rewrite nth_error_seq_one by lia. reflexivity.
        * unfold F. fold n. field. split; [lra|split; [exact NZ|lra]].
        * fold n. field. split; lra.
      + intros Pd. assert (Pdw : (0 < n * (dt * w))%Q) by (apply Qmult_lt_0_compat; [exact Pn|apply Qmult_lt_0_compat; assumption]).
        assert (Ff : forall k, (F k == inject_Z (Z.of_nat k) * (2 * pi / (n * (dt * w))))%Q) by (intros k; unfold F; field; split; [lra|split; [exact NZ|lra]]).
        assert (Pc : (0 < 2 * pi / (n * (dt * w)))%Q) by (apply Qlt_shift_div_l; [exact Pdw|lra]).
        assert (I : strictly_increasing freq).
        { unfold strictly_increasing, freq. apply StronglySorted_seq_map. intros i j Ij. rewrite !Ff. apply Qmult_lt_compat_r; [exact Pc|]. rewrite <- Zlt_Qlt. lia. }
        split; [apply sorted_points, I|]. apply Forall_forall. intros x X. apply in_map_iff in X. destruct X as ((f & p) & <- & X). apply filter_In in X. destruct X as (X & _). apply in_combine_l in X. unfold freq in X. apply in_map_iff in X. destruct X as (k & <- & K).
        apply in_seq in K. cbn [fst]. rewrite Ff. apply Qmult_lt_0_compat; [|exact Pc]. change 0%Q with (inject_Z 0). rewrite <- Zlt_Qlt. lia.
  Qed.
  Lemma pixel_spec dt times vel wind : length times = length vel -> (0 <= dt)%Q ->
    match epsilon_pixel log rate root pi spectrum spline dt times vel wind with
    | Ok r => pixel_value log rate root pi spectrum spline dt times vel wind r
    | Raise e => e = ZeroDivisionError /\ usable vel /\ (exists w, wind = Some w /\ 0 < w)%Q /\ (dt == 0)%Q
    end.
  Proof.
    intros L Pd. unfold epsilon_pixel. pose proof (usable_iff vel (length times) L) as U. destruct (forallb missing (firstn 2 vel) || forallb missing (skipn (length vel - 2) vel)) eqn:E1.
    { right. split; [reflexivity|]. left. intros X. apply U in X. destruct X as (X & _). discriminate. }
    destruct (length vel - length (filter missing vel) <? min_valid (length times)) eqn:E2.
    { right. split; [reflexivity|]. left. intros X. apply U in X. destruct X as (_ & X). discriminate. }
    assert (Us : usable vel) by (apply U; split; reflexivity). destruct wind as [w|]; [|right; split; [reflexivity|]; right; left; reflexivity].
    destruct (Qle_bool w 0) eqn:Ew. { right. split; [reflexivity|]. right. right. exists w. split; [reflexivity|]. apply Qle_bool_iff, Ew. }
    assert (W : (0 < w)%Q) by (destruct (Qlt_le_dec 0 w) as [X|X]; [exact X|]; apply Qle_bool_iff in X; congruence).
    destruct (filled_gapless times vel L) as (G & Lg). assert (NE : filled spline times vel <> []).
    { intros X. rewrite X in Lg. destruct Us as ((i & x & _ & Ei) & _). assert (Y : i < length vel) by (apply nth_error_Some; congruence). cbn [length] in Lg. lia. }
    pose proof (periodogram_spec (filled spline times vel) dt w NE W) as P. destruct (periodogram pi spectrum (filled spline times vel) dt w) as [points|e]; cbn [bind].
    - destruct P as (NZ & Wp & Po). destruct (Po ltac:(destruct (Qle_lt_or_eq _ _ Pd) as [X|X]; [exact X|exfalso; apply NZ; symmetry; exact X])) as (Si & Fp).
      assert (Go : forall r, (length points < 2 /\ r = None) \/ (2 <= length points /\ spectrum_estimate log rate root (map fst points) (map snd points) r) -> pixel_value log rate root pi spectrum spline dt times vel (Some w) r).
      { intros r H. left. exists w, (filled spline times vel), points. repeat (split; [assumption || reflexivity|]). destruct H; [right|left]; assumption. }
      destruct (Nat.ltb_spec (length points) 2) as [X|X]; apply Go; [left; split; [exact X|reflexivity]|right]. split; [exact X|]. apply estimate; [rewrite !map_length; reflexivity|exact Si|].
      intros x y Ix Iy. rewrite Forall_forall in Fp. apply Mlog, Fp, Ix.
    - destruct P as (-> & Z). split; [reflexivity|]. split; [exact Us|]. split; [exists w; split; [reflexivity|exact W]|exact Z].
  Qed.
  Lemma pixel_fails dt times vel w : length times = length vel -> usable vel -> (0 < w)%Q -> (dt == 0)%Q ->
    epsilon_pixel log rate root pi spectrum spline dt times vel (Some w) = Raise ZeroDivisionError.
  Proof.
    intros L Us W Z. unfold epsilon_pixel. pose proof (proj2 (usable_iff vel (length times) L) Us) as (-> & ->). destruct (Qle_bool w 0) eqn:Ew; [apply Qle_bool_iff in Ew; lra|].
    unfold periodogram. cbv zeta. match goal with |- context [Qeq_bool ?a 0] => assert (X : (a == 0)%Q) by (rewrite Z; ring); apply Qeq_bool_iff in X; rewrite X end. reflexivity.
  Qed.
End Pixel.
(** ** The product *)
Lemma section_part {A} (l : list A) a b : b <= length l -> length (section a b l) = b - a /\ forall k, k < b - a -> nth_error (section a b l) k = nth_error l (a + k).
Proof.
  intros H. unfold section. split; [rewrite firstn_length, skipn_length; lia|]. intros k K. rewrite nth_error_firstn_lt by exact K. apply nth_error_skipn'.
Qed.
Lemma section_column (vel : image (masked Q)) a b j m : b <= length vel -> Forall (fun r => length r = m) vel -> j < m ->
  column_part vel a b j (map (fun row => nth j row None) (section a b vel)).
Proof.
  intros H F J. destruct (section_part vel a b H) as (L & N). split; [rewrite map_length; exact L|]. intros k K. rewrite nth_error_map', (N k K). unfold pixel.
  destruct (nth_error vel (a + k)) as [row|] eqn:E; [|reflexivity]. cbn [option_map]. apply nth_error_In in E. rewrite Forall_forall in F. specialize (F _ E). symmetry. apply nth_error_nth'. lia.
Qed.
Lemma window_spec grid rt t a b : ascending rt -> In (t, (a, b)) (windows grid rt) -> In t grid /\ five_minutes rt t a b.
Proof.
  intros S I. unfold windows in I. apply filter_In in I. destruct I as (I & K). cbn [fst snd] in K. apply Nat.ltb_lt in K. apply in_map_iff in I. destruct I as (t' & E & I).
  assert (t' = t) by congruence. subst t'. assert (Ea : searchsorted_right rt t = a) by congruence. assert (Eb : searchsorted_right rt (t + (5 # 60)) = b) by congruence. clear E. split; [exact I|].
  split; [exact K|]. split; [rewrite <- Eb; apply ss_right_le|]. intros i x X. split.
  - intros (A & B). split.
    + rewrite <- Ea in A. apply (ss_right_after rt t S i x A X).
    + rewrite <- Eb in B. pose proof (ss_right_before rt (t + (5 # 60)) i x B X). lra.
  - intros (A & B). split.
    + destruct (le_lt_dec a i) as [G|G]; [exact G|]. rewrite <- Ea in G. pose proof (ss_right_before rt t i x G X). lra.
    + destruct (le_lt_dec b i) as [G|G]; [|exact G]. rewrite <- Eb in G. pose proof (ss_right_after rt _ S i x G X). lra.
Qed.
Lemma five_minutes_followed rt t a b : five_minutes rt t a b -> followed rt t.
Proof.
  intros (K & B & F). destruct (nth_error rt a) as [x|] eqn:E; [|apply nth_error_None in E; lia]. exists x. split; [apply (nth_error_In _ _ E)|]. apply (F a x E). lia.
Qed.
Lemma windows_times grid rt : ascending rt -> followed_times grid rt (map fst (windows grid rt)).
Proof.
  intros S. exists (fun t => searchsorted_right rt t <? searchsorted_right rt (t + (5 # 60))). split.
  - unfold windows. clear. induction grid as [|t grid IH]; [reflexivity|]. cbn [map filter fst snd]. destruct (searchsorted_right rt t <? searchsorted_right rt (t + (5 # 60))); cbn [map fst]; rewrite IH; reflexivity.
  - intros t I. rewrite Nat.ltb_lt. split.
    + intros K. assert (X : In (t, (searchsorted_right rt t, searchsorted_right rt (t + (5 # 60)))) (windows grid rt)).
      { unfold windows. apply filter_In. split; [apply in_map_iff; exists t; split; [reflexivity|exact I]|]. apply Nat.ltb_lt, K. }
      apply (window_spec _ _ _ _ _ S) in X. destruct X as (_ & X). apply (five_minutes_followed _ _ _ _ X).
    + intros (x & Ix & A & B). apply In_nth_error in Ix. destruct Ix as (i & Ei). destruct (le_lt_dec (searchsorted_right rt (t + (5 # 60))) (searchsorted_right rt t)) as [G|G]; [exfalso|exact G].
      destruct (le_lt_dec (searchsorted_right rt t) i) as [H|H].
      * pose proof (ss_right_after rt (t + (5 # 60))%Q S i x ltac:(lia) Ei). lra.
      * pose proof (ss_right_before rt t i x H Ei). lra.
Qed.
Lemma window_in grid rt t a b : ascending rt -> In t grid -> five_minutes rt t a b -> exists a' b', In (t, (a', b')) (windows grid rt) /\ a' = a /\ b' = b.
Proof.
  intros S I F. exists (searchsorted_right rt t), (searchsorted_right rt (t + (5 # 60))).
  assert (X : In (t, (searchsorted_right rt t, searchsorted_right rt (t + (5 # 60)))) (windows grid rt)).
  { pose proof (five_minutes_followed _ _ _ _ F) as Fo. destruct (windows_times grid rt S) as (keep & E & K). apply (K t I) in Fo. assert (G : In t (map fst (windows grid rt))) by (rewrite E; apply filter_In; split; assumption).
    apply in_map_iff in G. destruct G as ((t' & w) & Et & G). cbn [fst] in Et. subst t'. unfold windows in G |- *. pose proof G as G0. apply filter_In in G. destruct G as (G & _). apply in_map_iff in G. destruct G as (t' & Et & _). assert (t' = t) by congruence. subst t'. rewrite <- Et in G0. exact G0. }
  split; [exact X|]. apply (window_spec _ _ _ _ _ S) in X. destruct X as (_ & X). set (a' := searchsorted_right rt t) in *. set (b' := searchsorted_right rt (t + (5 # 60))) in *. clearbody a' b'.
  destruct F as (F1 & F2 & F3), X as (X1 & X2 & X3). assert (Q : forall i, i < length rt -> (a <= i < b <-> a' <= i < b')).
  { intros i Hi. destruct (nth_error rt i) as [x|] eqn:E; [|apply nth_error_None in E; lia]. rewrite (F3 i x E), (X3 i x E). reflexivity. }
  pose proof (Q a ltac:(lia)). pose proof (Q a' ltac:(lia)). pose proof (Q (b - 1) ltac:(lia)). pose proof (Q (b' - 1) ltac:(lia)). lia.
Qed.
Lemma resolution_spec rt : 2 <= length rt -> seconds_between rt (resolution rt).
Proof.
  intros L. unfold resolution, seconds_between. pose proof (diffs_steps rt ltac:(destruct rt; [cbn in L; lia|discriminate])) as D. pose proof (median_iff (diffs rt)) as M. destruct (median (diffs rt)) as [m|].
  - exists (diffs rt), m. split; [exact D|]. split; [exact M|reflexivity].
  - exfalso. destruct D as (D & _). rewrite M in D. cbn in D. lia.
Qed.
Lemma diffs_nonneg rt : ascending rt -> Forall (fun d => 0 <= d)%Q (diffs rt).
Proof.
  unfold diffs. induction 1 as [|x l S IH F]; [constructor|]. cbn [tl]. destruct l as [|y l]; [constructor|]. cbn [map2]. constructor; [|exact IH]. apply Forall_inv in F. lra.
Qed.
Lemma resolution_nonneg rt : ascending rt -> (0 <= resolution rt)%Q.
Proof.
  intros S. unfold resolution. pose proof (median_iff (diffs rt)) as M. destruct (median (diffs rt)) as [m|]; [|lra]. pose proof (diffs_nonneg rt S) as D. rewrite Forall_forall in D.
  destruct M as (s & a & b & P & _ & A & B & E). apply nth_error_In in A, B. assert (Pa : (0 <= a)%Q) by (apply D; eapply Permutation_in; [apply Permutation_sym, P|exact A]). assert (Pb : (0 <= b)%Q) by (apply D; eapply Permutation_in; [apply Permutation_sym, P|exact B]).
  assert (Pm : (0 <= m)%Q) by lra. assert (Z : (0 <= round_half_even (m * 3600))%Z).
  { destruct (Z_lt_le_dec (round_half_even (m * 3600)) 0) as [G|G]; [exfalso|exact G]. assert (G' : (round_half_even (m * 3600) <= -1)%Z) by lia. rewrite Zle_Qle in G'. change (inject_Z (-1)) with (-1)%Q in G'.
    pose proof (Coq.QArith.Qabs.Qle_Qabs (m * 3600 - inject_Z (round_half_even (m * 3600)))) as Q1. destruct (round_half_even_spec (m * 3600)) as [H|(H & _)]; lra. }
  change 0%Q with (inject_Z 0). rewrite <- Zle_Qle. exact Z.
Qed.
Section Product.
  Variables (log rate root : Q -> Q) (pi : Q) (spectrum : list Q -> list Q) (spline : list (Q * Q) -> Q -> Q).
  Hypothesis Ppi : (0 < pi)%Q.
  Hypothesis Mlog : forall x y, (0 < x)%Q -> (x < y)%Q -> (log x < log y)%Q.
  Variables (grid rt height : list Q) (vel : image (masked Q)) (wind : Q -> Q -> masked Q).
  Hypothesis S : ascending rt.
  Hypothesis Lv : length vel = length rt.
  Hypothesis Rv : Forall (fun r => length r = length height) vel.
  Let pix t a b j h := epsilon_pixel log rate root pi spectrum spline (resolution rt) (section a b rt) (map (fun row => nth j row None) (section a b vel)) (wind t h).
  Let row (tw : Q * (nat * nat)) := let '(t, (a, b)) := tw in sequence (map (fun jh => pix t a b (fst jh) (snd jh)) (enumerate height)).
  Lemma sections_equal a b j : b <= length rt -> length (section a b rt) = length (map (fun r => nth j r (@None Q)) (section a b vel)).
  Proof. intros B. rewrite map_length. rewrite (proj1 (section_part rt a b B)). rewrite (proj1 (section_part vel a b ltac:(lia))). reflexivity. Qed.
  Lemma product_ok ts rows : append_epsilon log rate root pi spectrum spline grid rt height vel wind = Ok (ts, rows) ->
    followed_times grid rt ts /\ length rows = length ts /\
    forall i t, nth_error ts i = Some t -> exists a b times r, five_minutes rt t a b /\ part rt a b times /\ nth_error rows i = Some r /\ length r = length height /\
      forall j h, nth_error height j = Some h -> exists v p, column_part vel a b j v /\ nth_error r j = Some p /\
        pixel_value log rate root pi spectrum spline (resolution rt) times v (wind t h) p.
  Proof.
    unfold append_epsilon. cbv zeta. intros H. apply bind_ok in H. destruct H as (rows' & H & E). assert (map fst (windows grid rt) = ts) by congruence. assert (rows' = rows) by congruence. subst ts rows'. clear E.
    apply sequence_iff in H. split; [apply windows_times, S|]. split; [rewrite map_length; symmetry; apply forall2_len in H; exact H|]. intros i t T. rewrite nth_error_map' in T. destruct (nth_error (windows grid rt) i) as [[t' [a b]]|] eqn:Ew; [|discriminate].
    cbn [option_map fst] in T. assert (t' = t) by congruence. subst t'. destruct (forall2_nth _ _ _ H i _ Ew) as (r & Er & Fr). apply nth_error_In in Ew. apply (window_spec _ _ _ _ _ S) in Ew. destruct Ew as (_ & W).
    exists a, b, (section a b rt), r. assert (B : b <= length rt) by (destruct W as (_ & B & _); exact B). split; [exact W|]. split; [apply (section_part rt a b B)|]. split; [exact Er|]. apply sequence_iff in Fr.
    pose proof (forall2_len _ _ _ Fr) as Ln. unfold enumerate in Ln. rewrite enumerate_from_length in Ln. split; [symmetry; exact Ln|]. intros j h Eh.
    assert (Ej : nth_error (enumerate height) j = Some (j, h)) by (rewrite nth_error_enumerate, Eh; reflexivity). destruct (forall2_nth _ _ _ Fr j _ Ej) as (p & Ep & Fp). cbn [fst snd] in Fp.
    exists (map (fun row => nth j row None) (section a b vel)), p. split; [apply (section_column vel a b j (length height)); [lia|exact Rv|apply nth_error_Some; congruence]|]. split; [exact Ep|].
    pose proof (pixel_spec log rate root pi spectrum spline Ppi Mlog (resolution rt) (section a b rt) (map (fun row => nth j row None) (section a b vel)) (wind t h) (sections_equal a b j B) (resolution_nonneg rt S)) as P.
    rewrite Fp in P. exact P.
  Qed.
  (** A pixel that needs the resolution. *)
  Definition needs (t : Q) (j : nat) : Prop := exists a b v h w, In t grid /\ five_minutes rt t a b /\ nth_error height j = Some h /\ column_part vel a b j v /\ usable v /\ wind t h = Some w /\ (0 < w)%Q.
  Lemma sequence_error {A B} (f : A -> result B) l e : sequence (map f l) = Raise e -> exists x, In x l /\ f x = Raise e.
  Proof.
    induction l as [|x l IH]; intros H; [discriminate|]. cbn [map sequence] in H. destruct (f x) as [y|e'] eqn:E; [|exists x; split; [left; reflexivity|congruence]].
    destruct (sequence (map f l)) as [ys|e'] eqn:Es; cbn [bind] in H; [discriminate|]. destruct (IH ltac:(congruence)) as (z & I & F). exists z. split; [right; exact I|exact F].
  Qed.
  Lemma pix_cases t a b j h : b <= length rt -> (exists r, pix t a b j h = Ok r) \/ pix t a b j h = Raise ZeroDivisionError.
  Proof.
    intros B. pose proof (pixel_spec log rate root pi spectrum spline Ppi Mlog (resolution rt) (section a b rt) (map (fun row => nth j row None) (section a b vel)) (wind t h) (sections_equal a b j B) (resolution_nonneg rt S)) as P.
    fold (pix t a b j h) in P. destruct (pix t a b j h) as [r|e]; [left; eauto|right]. destruct P as (-> & _). reflexivity.
  Qed.
  Lemma product_error e : append_epsilon log rate root pi spectrum spline grid rt height vel wind = Raise e <->
    e = ZeroDivisionError /\ (resolution rt == 0)%Q /\ exists t j, needs t j.
  Proof.
    unfold append_epsilon. cbv zeta. change (bind (sequence (map row (windows grid rt))) (fun rows => Ok (map fst (windows grid rt), rows)) = Raise e <-> e = ZeroDivisionError /\ (resolution rt == 0)%Q /\ exists t j, needs t j). split.
    - intros H. destruct (sequence (map row (windows grid rt))) as [rows|e'] eqn:Es; cbn [bind] in H; [discriminate|]. assert (e' = e) by congruence. subst e'. apply sequence_error in Es. destruct Es as ([t [a b]] & I & F). cbn [row] in F.
      apply sequence_error in F. destruct F as ([j h] & Ij & F). cbn [fst snd] in F. apply In_nth_error in Ij. destruct Ij as (k & Ek). rewrite nth_error_enumerate in Ek. destruct (nth_error height k) as [h'|] eqn:Eh; [|discriminate]. cbn [option_map] in Ek. assert (k = j) by congruence. assert (h' = h) by congruence. subst k h'. clear Ek.
      apply (window_spec _ _ _ _ _ S) in I. destruct I as (It & W). assert (B : b <= length rt) by (destruct W as (_ & B & _); exact B).
      pose proof (pixel_spec log rate root pi spectrum spline Ppi Mlog (resolution rt) (section a b rt) (map (fun row => nth j row None) (section a b vel)) (wind t h) (sections_equal a b j B) (resolution_nonneg rt S)) as P.
      fold (pix t a b j h) in P. rewrite F in P. destruct P as (-> & U & (w & Ew & Pw) & Z). split; [reflexivity|]. split; [exact Z|]. exists t, j, a, b, (map (fun row => nth j row None) (section a b vel)), h, w.
      split; [exact It|]. split; [exact W|]. split; [exact Eh|]. split; [apply (section_column vel a b j (length height)); [lia|exact Rv|apply nth_error_Some; congruence]|]. split; [exact U|]. split; [exact Ew|exact Pw].
    - intros (-> & Z & t & j & a & b & v & h & w & It & W & Eh & Cv & U & Ew & Pw). destruct (window_in grid rt t a b S It W) as (a' & b' & Iw & -> & ->). assert (B : b <= length rt) by (destruct W as (_ & B & _); exact B).
      rewrite (sequence_raise row (windows grid rt) (t, (a, b)) ZeroDivisionError Iw); [reflexivity| |].
      + cbn [row]. apply (sequence_raise (fun jh => pix t a b (fst jh) (snd jh)) (enumerate height) (j, h)).
        * apply (nth_error_In _ j). rewrite nth_error_enumerate, Eh. reflexivity.
        * cbn [fst snd]. unfold pix. rewrite Ew. assert (Ev : v = map (fun row => nth j row None) (section a b vel)).
          { destruct Cv as (C1 & C2). destruct (section_column vel a b j (length height) ltac:(lia) Rv ltac:(apply nth_error_Some; congruence)) as (D1 & D2). apply nth_error_ext. intros k. destruct (le_lt_dec (b - a) k) as [G|G].
            - rewrite (proj2 (nth_error_None v k)) by lia. rewrite (proj2 (nth_error_None _ k)) by lia. reflexivity.
            - rewrite (C2 k G), (D2 k G). reflexivity. }
          subst v. apply pixel_fails; [apply sections_equal, B|exact U|exact Pw|exact Z].
        * intros [j' h'] _. cbn [fst snd]. destruct (pix_cases t a b j' h' B) as [(r & ->)| ->]; [right; exists r; reflexivity|left; reflexivity].
      + intros [t' [a' b']] I'. cbn [row]. apply (window_spec _ _ _ _ _ S) in I'. destruct I' as (_ & W'). assert (B' : b' <= length rt) by (destruct W' as (_ & B' & _); exact B').
        destruct (sequence (map (fun jh => pix t' a' b' (fst jh) (snd jh)) (enumerate height))) as [r|e] eqn:Es; [right; exists r; reflexivity|left].
        apply sequence_error in Es. destruct Es as ([j' h'] & _ & F). cbn [fst snd] in F. destruct (pix_cases t' a' b' j' h' B') as [(r & X)|X]; congruence.
  Qed.
End Product.
(** ** Doppler lidar *)
Lemma extent_of r0 r : extent (r0 :: r) (list_max r0 r - list_min r0 r)%Q.
Proof.
  destruct (list_max_spec r r0) as (A1 & A2 & A3). destruct (list_min_spec r r0) as (B1 & B2 & B3). exists (list_min r0 r), (list_max r0 r).
  split; [destruct B3 as [->|B3]; [left; reflexivity|right; exact B3]|]. split; [destruct A3 as [->|A3]; [left; reflexivity|right; exact A3]|]. split; [|reflexivity].
  intros x [<-|I]; [split; assumption|split; [apply B2, I|apply A2, I]].
Qed.
Lemma extent_unique range d d' : extent range d -> extent range d' -> (d == d')%Q.
Proof.
  intros (a & b & A & B & F & ->) (a' & b' & A' & B' & F' & ->). pose proof (F _ A'). pose proof (F _ B'). pose proof (F' _ A). pose proof (F' _ B). lra.
Qed.
Lemma pulse_spec range d : extent range d ->
  ((d < 299792458 / 30000)%Q -> pulse_frequency range = Ok 15000%Q) /\
  ((299792458 / 30000 <= d)%Q -> (d < 299792458 / 20000)%Q -> pulse_frequency range = Ok 10000%Q) /\
  ((299792458 / 20000 <= d)%Q -> pulse_frequency range = Raise ValueError).
Proof.
  intros E. destruct range as [|r0 r]; [destruct E as (? & ? & [] & _)|]. unfold pulse_frequency. cbv zeta. pose proof (extent_unique _ _ _ E (extent_of r0 r)) as X.
  set (m := (list_max r0 r - list_min r0 r)%Q) in *. clearbody m.
  assert (Y1 : (2 * m / 299792458 / (1 # 15000) == d * (30000 # 299792458))%Q) by (rewrite X; field).
  assert (Y2 : (2 * m / 299792458 / (1 # 10000) == d * (20000 # 299792458))%Q) by (rewrite X; field).
  assert (C1 : (299792458 / 30000 == 299792458 # 30000)%Q) by reflexivity. assert (C2 : (299792458 / 20000 == 299792458 # 20000)%Q) by reflexivity. rewrite C1, C2.
  rewrite (qlt_same _ _ _ 1%Q Y1 (Qeq_refl _)), (qlt_same _ _ _ 1%Q Y2 (Qeq_refl _)). clear. split; [|split].
  - intros H. replace (qlt (d * (30000 # 299792458)) 1) with true; [reflexivity|]. symmetry. apply qlt_iff. lra.
  - intros H G. replace (qlt (d * (30000 # 299792458)) 1) with false; [|symmetry; apply qlt_false; lra]. replace (qlt (d * (20000 # 299792458)) 1) with true; [reflexivity|]. symmetry. apply qlt_iff. lra.
  - intros H. replace (qlt (d * (30000 # 299792458)) 1) with false; [|symmetry; apply qlt_false; lra]. replace (qlt (d * (20000 # 299792458)) 1) with false; [reflexivity|]. symmetry. apply qlt_false. lra.
Qed.
Lemma unique_three l : 3 <= length (unique l) <-> three_distinct l.
Proof.
  assert (E : length (unique l) = length (unique_index l)) by (unfold unique_index; rewrite map_length; reflexivity). rewrite E. destruct (unique_spec l) as (I & S). split.
  - intros H. destruct (unique_index l) as [|i [|j [|k r]]] eqn:Eu; cbn [length] in H; try lia.
    assert (Oi : first_occurrence l i) by (apply I; left; reflexivity). assert (Oj : first_occurrence l j) by (apply I; right; left; reflexivity). assert (Ok : first_occurrence l k) by (apply I; right; right; left; reflexivity).
    destruct Oi as (x & Ex & _), Oj as (y & Ey & _), Ok as (z & Ez & _). apply StronglySorted_inv in S. destruct S as (S & F1). apply StronglySorted_inv in S. destruct S as (_ & F2). apply Forall_inv in F1, F2.
    exists x, y, z. split; [apply (nth_error_In _ _ Ex)|]. split; [apply (nth_error_In _ _ Ey)|]. split; [apply (nth_error_In _ _ Ez)|]. split; [apply F1; assumption|apply F2; assumption].
  - intros (a & b & c & A & B & C & L1 & L2). destruct (first_occurrence_exists l a A) as (i & x & Fi & Ei & Xi). destruct (first_occurrence_exists l b B) as (j & y & Fj & Ej & Xj). destruct (first_occurrence_exists l c C) as (k & z & Fk & Ek & Xk).
    change 3 with (length [i; j; k]). apply NoDup_incl_length.
    + assert (N1 : i <> j) by (intros ->; assert (x = y) by congruence; subst y; lra). assert (N2 : i <> k) by (intros ->; assert (x = z) by congruence; subst z; lra). assert (N3 : j <> k) by (intros ->; assert (y = z) by congruence; subst z; lra).
      constructor; [cbn; intros [X|[X|[]]]; congruence|]. constructor; [cbn; intros [X|[]]; congruence|]. constructor; [intros []|constructor].
    + intros n [<-|[<-|[<-|[]]]]; apply I; assumption.
Qed.
Lemma in_flatten {A} (x : A) l : In x (flatten l) <-> In (Some x) l.
Proof.
  unfold flatten. rewrite in_flat_map. split; [intros ([y|] & I & H); [destruct H as [<-|[]]; exact I|destruct H]|]. intros I. exists (Some x). split; [exact I|left; reflexivity].
Qed.
Definition rect {A} (n m : nat) (l : image A) : Prop := length l = n /\ Forall (fun r => length r = m) l.
Lemma rect_pixel {A} n m (l : image A) i j : rect n m l -> i < n -> j < m -> exists x, pixel l i j = Some x.
Proof.
  intros (L & F) I J. unfold pixel. destruct (nth_error l i) as [r|] eqn:E; [|apply nth_error_None in E; lia]. rewrite Forall_forall in F. specialize (F r (nth_error_In _ _ E)). destruct (nth_error r j) as [x|] eqn:X; [exists x; reflexivity|apply nth_error_None in X; lia].
Qed.
Lemma pixel_map2' {A B C} (f : A -> B -> C) a b i j : pixel (map2 (map2 f) a b) i j = match pixel a i j, pixel b i j with Some x, Some y => Some (f x y) | _, _ => None end.
Proof.
  unfold pixel. rewrite nth_error_map2. destruct (nth_error a i) as [r|]; [|reflexivity]. destruct (nth_error b i) as [r'|]; [rewrite nth_error_map2; reflexivity|]. destruct (nth_error r j); reflexivity.
Qed.
Lemma rect_map2 {A B C} (f : A -> B -> C) n m a b : rect n m a -> rect n m b -> rect n m (map2 (map2 f) a b).
Proof.
  intros (L & F) (L' & F'). split; [rewrite map2_length; lia|]. apply Forall_forall. intros r R. apply In_nth_error in R. destruct R as (i & E). rewrite nth_error_map2 in E. destruct (nth_error a i) as [x|] eqn:Ex; [|discriminate]. destruct (nth_error b i) as [y|] eqn:Ey; [|discriminate].
  assert (r = map2 f x y) by congruence. subst r. rewrite Forall_forall in F, F'. rewrite map2_length, (F x (nth_error_In _ _ Ex)), (F' y (nth_error_In _ _ Ey)). lia.
Qed.
Section Wind.
  Variables (speed : Q -> Q -> Q) (linear : list (Q * Q * Q) -> Q -> Q -> masked Q) (nearest : list (Q * Q * Q) -> Q -> Q -> Q) (time height : list Q) (u v : wind_field).
  Hypothesis Su : wind_shape (length time) (length height) u.
  Hypothesis Sv : wind_shape (length time) (length height) v.
  Lemma either_spec : match either_mask u v with
    | None => f_mask u = None /\ f_mask v = None
    | Some mask => rect (length time) (length height) mask /\ forall i j, i < length time -> j < length height -> (pixel mask i j = Some false <-> ~ masked_at u i j /\ ~ masked_at v i j)
    end.
  Proof.
    destruct Su as (_ & Mu), Sv as (_ & Mv). unfold either_mask, masked_at. destruct (f_mask u) as [a|], (f_mask v) as [b|]; [| | |split; reflexivity].
    - specialize (Mu a eq_refl). specialize (Mv b eq_refl). split; [apply rect_map2; assumption|]. intros i j I J. rewrite pixel_map2'. destruct (rect_pixel _ _ _ i j Mu I J) as (x & X). destruct (rect_pixel _ _ _ i j Mv I J) as (y & Y). rewrite X, Y. split.
      + intros H. split; intros (m & E & P); destruct x, y; cbn in H; congruence.
      + intros (H1 & H2). destruct x; [exfalso; apply H1; exists a; auto|]. destruct y; [exfalso; apply H2; exists b; auto|]. reflexivity.
    - specialize (Mu a eq_refl). split; [exact Mu|]. intros i j I J. destruct (rect_pixel _ _ _ i j Mu I J) as (x & X). rewrite X. split.
      + intros H. split; intros (m & E & P); congruence.
      + intros (H1 & _). destruct x; [exfalso; apply H1; exists a; auto|reflexivity].
    - specialize (Mv b eq_refl). split; [exact Mv|]. intros i j I J. destruct (rect_pixel _ _ _ i j Mv I J) as (x & X). rewrite X. split.
      + intros H. split; intros (m & E & P); congruence.
      + intros (_ & H1). destruct x; [exfalso; apply H1; exists b; auto|reflexivity].
  Qed.
  Definition points_of (mask : image bool) : list (Q * Q * Q) :=
    concat (map2 (fun t rows => flatten (map2 (fun h bx => if fst bx : bool then None else Some (t, h, snd bx)) height rows)) time (map2 (@combine bool Q) mask (map2 (map2 speed) (f_data u) (f_data v)))).
  Lemma in_points mask p : either_mask u v = Some mask -> (In p (points_of mask) <-> wind_point speed time height u v p).
  Proof.
    intros Em. pose proof either_spec as E. rewrite Em in E. destruct E as (R & M). destruct Su as (Du & _), Sv as (Dv & _). unfold points_of. rewrite in_concat. split.
    - intros (l & Il & Ip). apply In_nth_error in Il. destruct Il as (i & Ei). rewrite nth_error_map2 in Ei. destruct (nth_error time i) as [t|] eqn:Et; [|discriminate]. rewrite nth_error_map2 in Ei. destruct (nth_error mask i) as [mr|] eqn:Emr; [|discriminate].
      destruct (nth_error (map2 (map2 speed) (f_data u) (f_data v)) i) as [vr|] eqn:Ev; [|discriminate]. assert (l = flatten (map2 (fun h bx => if fst bx : bool then None else Some (t, h, snd bx)) height (combine mr vr))) by congruence. subst l. clear Ei.
      apply in_flatten in Ip. apply In_nth_error in Ip. destruct Ip as (j & Ej). rewrite nth_error_map2 in Ej. destruct (nth_error height j) as [h|] eqn:Eh; [|discriminate]. rewrite nth_error_combine in Ej. destruct (nth_error mr j) as [m|] eqn:Emj; [|discriminate]. destruct (nth_error vr j) as [s|] eqn:Es; [|discriminate]. cbn [fst snd] in Ej.
      destruct m; [discriminate|]. assert (p = (t, h, s)) by congruence. subst p. assert (I : i < length time) by (apply nth_error_Some; congruence). assert (J : j < length height) by (apply nth_error_Some; congruence).
      assert (Pm : pixel mask i j = Some false) by (unfold pixel; rewrite Emr; exact Emj). apply (M i j I J) in Pm. assert (Ps : pixel (map2 (map2 speed) (f_data u) (f_data v)) i j = Some s) by (unfold pixel; rewrite Ev; exact Es).
      rewrite pixel_map2' in Ps. destruct (pixel (f_data u) i j) as [x|] eqn:X; [|discriminate]. destruct (pixel (f_data v) i j) as [y|] eqn:Y; [|discriminate]. exists i, j, t, h, x, y. destruct Pm as (P1 & P2). repeat (split; [assumption|]). congruence.
    - intros (i & j & t & h & x & y & Et & Eh & X & Y & M1 & M2 & ->). assert (I : i < length time) by (apply nth_error_Some; congruence). assert (J : j < length height) by (apply nth_error_Some; congruence).
      assert (Pm : pixel mask i j = Some false) by (apply (M i j I J); split; assumption). unfold pixel in Pm. destruct (nth_error mask i) as [mr|] eqn:Emr; [|discriminate].
      assert (Ps : pixel (map2 (map2 speed) (f_data u) (f_data v)) i j = Some (speed x y)) by (rewrite pixel_map2', X, Y; reflexivity). unfold pixel in Ps. destruct (nth_error (map2 (map2 speed) (f_data u) (f_data v)) i) as [vr|] eqn:Ev; [|discriminate].
      eexists. split; [apply (nth_error_In _ i); rewrite nth_error_map2, Et, nth_error_map2, Emr, Ev; reflexivity|]. apply in_flatten. apply (nth_error_In _ j). rewrite nth_error_map2, Eh, nth_error_combine, Pm, Ps. reflexivity.
  Qed.
  Lemma enough_iff mask : either_mask u v = Some mask ->
    ((length (unique (map (fun p => fst (fst p)) (points_of mask))) <? 3) || (length (unique (map (fun p => snd (fst p)) (points_of mask))) <? 3) = false <-> enough_points speed time height u v).
  Proof.
    intros Em. rewrite orb_false_iff, !Nat.ltb_ge, !unique_three. unfold enough_points.
    assert (T : forall f : Q * Q * Q -> Q, three_distinct (map f (points_of mask)) <-> (exists a b c, wind_point speed time height u v a /\ wind_point speed time height u v b /\ wind_point speed time height u v c /\ f a < f b /\ f b < f c)%Q).
    { intros f. split.
      - intros (x & y & z & A & B & C & L1 & L2). apply in_map_iff in A, B, C. destruct A as (a & <- & A), B as (b & <- & B), C as (c & <- & C). exists a, b, c. split; [apply (in_points mask a Em), A|]. split; [apply (in_points mask b Em), B|]. split; [apply (in_points mask c Em), C|]. split; assumption.
      - intros (a & b & c & A & B & C & L). apply (in_points mask a Em) in A. apply (in_points mask b Em) in B. apply (in_points mask c Em) in C. exists (f a), (f b), (f c). repeat (split; [apply in_map; assumption|]). exact L. }
    rewrite (T (fun p => fst (fst p))), (T (fun p => snd (fst p))). reflexivity.
  Qed.
  Lemma all_masked mask : either_mask u v = Some mask -> forallb (forallb (fun b => b)) mask = true -> ~ enough_points speed time height u v.
  Proof.
    intros Em H ((a & _ & _ & A & _) & _). destruct A as (i & j & t & h & x & y & Et & Eh & _ & _ & M1 & M2 & _).
    pose proof either_spec as E. rewrite Em in E. destruct E as (_ & M). assert (P : pixel mask i j = Some false) by (apply M; [apply nth_error_Some; congruence|apply nth_error_Some; congruence|split; assumption]).
    unfold pixel in P. destruct (nth_error mask i) as [r|] eqn:Er; [|discriminate]. rewrite forallb_forall in H. specialize (H r (nth_error_In _ _ Er)). rewrite forallb_forall in H. specialize (H false (nth_error_In _ _ P)). discriminate.
  Qed.
  Lemma wind_spec : match horizontal_wind speed linear nearest time height u v with
    | Ok out => enough_points speed time height u v /\ exists points, (forall p, In p points <-> wind_point speed time height u v p) /\
        length out = length time /\ Forall (fun r => length r = length height) out /\
        forall i j t h, nth_error time i = Some t -> nth_error height j = Some h ->
          pixel out i j = Some (match linear points t h with Some x => x | None => nearest points t h end)
    | Raise e => (e = ValueError /\ f_mask u = None /\ f_mask v = None) \/
                 (e = ValidTimeStampError /\ (f_mask u <> None \/ f_mask v <> None) /\ ~ enough_points speed time height u v)
    end.
  Proof.
    unfold horizontal_wind. pose proof either_spec as E. destruct (either_mask u v) as [mask|] eqn:Em; [|left; destruct E; auto].
    assert (Nm : f_mask u <> None \/ f_mask v <> None) by (unfold either_mask in Em; destruct (f_mask u); [left; discriminate|]; destruct (f_mask v); [right; discriminate|discriminate]).
    cbv zeta. destruct (forallb (forallb (fun b : bool => b)) mask) eqn:Ea; [right; split; [reflexivity|]; split; [exact Nm|apply (all_masked mask Em Ea)]|].
    fold (points_of mask). pose proof (enough_iff mask Em) as En. destruct ((length (unique (map (fun p => fst (fst p)) (points_of mask))) <? 3) || (length (unique (map (fun p => snd (fst p)) (points_of mask))) <? 3)).
    - right. split; [reflexivity|]. split; [exact Nm|]. intros X. apply En in X. discriminate.
    - split; [apply En; reflexivity|]. exists (points_of mask). split; [intros p; apply in_points, Em|]. split; [apply map_length|]. split; [apply Forall_forall; intros r I; apply in_map_iff in I; destruct I as (t & <- & _); apply map_length|].
      intros i j t h Et Eh. unfold pixel. rewrite nth_error_map', Et. cbn [option_map]. rewrite nth_error_map', Eh. reflexivity.
  Qed.
End Wind.
