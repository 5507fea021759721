(** Proofs about the noise screening of ceilometer profiles. *)
From Verif Require Import Base ArrayModel ArraySpec ArrayProofs FillModel TimeModel TimeSpec TimeProofs GridModel GridSpec GridProofs FillProofs
  OutputModel TelegramModel TelegramSpec TelegramProofs MeltModel MeltProofs DropletProofs RadarModel RadarSpec RadarProofs WeatherRadarProofs CeiloModel CeiloSpec.
From Coq Require Import Qabs Qround String Lqa.
Open Scope string_scope.
Open Scope nat_scope.
Open Scope list_scope.
Local Notation length := List.length (only parsing).

(** ** Gates that are range corrected *)
Lemma alt_limit_iff c r : qlt r (alt_limit c) = true <-> corrected_gate c r.
Proof.
  rewrite GridProofs.qlt_iff. unfold alt_limit, corrected_gate.
  change (inject_Z 1000000000000) with 1000000000000%Q.
  destruct (y_range_corrected c); [split; [intros H; split; [exact H|discriminate]|intros [H _]; exact H]|].
  destruct (y_model c) as [m|]; [|split; [intros H; split; [exact H|discriminate]|intros [H _]; exact H]].
  cbv zeta. destruct (String.eqb_spec (lower m) "ct25k") as [E|N].
  - split; [intros H|intros [_ H]; apply (H eq_refl m eq_refl); exact E].
    split; [lra|]. intros _ m' [= <-]. split; [intros _; exact H|]. rewrite E. intros [X|X]; discriminate X.
  - destruct (String.eqb_spec (lower m) "cl31") as [E|N1]; cbn [orb].
    + split; [intros H|intros [_ H]; apply (H eq_refl m eq_refl); left; exact E].
      split; [lra|]. intros _ m' [= <-]. split; [intros X; congruence|intros _; exact H].
    + destruct (String.eqb_spec (lower m) "cl51") as [E|N2].
      * split; [intros H|intros [_ H]; apply (H eq_refl m eq_refl); right; exact E].
        split; [lra|]. intros _ m' [= <-]. split; [intros X; congruence|intros _; exact H].
      * split; [intros H; split; [exact H|]|intros [H _]; exact H].
        intros _ m' [= <-]. split; [intros X; congruence|intros [X|X]; congruence].
Qed.
Lemma alt_limit_not c r : qlt r (alt_limit c) = false <-> ~ corrected_gate c r.
Proof. rewrite <- alt_limit_iff. destruct (qlt r (alt_limit c)); split; congruence. Qed.

Lemma range_squared_pos r : ~ (r == 0)%Q -> ~ (range_squared r == 0)%Q.
Proof.
  unfold range_squared. intros N E. apply N.
  destruct (Qlt_le_dec r 0) as [H|H]; [|destruct (Qlt_le_dec 0 r) as [G|G]; [|lra]]; exfalso.
  - assert (0 < (r * (1 # 1000)) * (r * (1 # 1000)))%Q; [|lra]. setoid_replace ((r * (1 # 1000)) * (r * (1 # 1000)))%Q with ((-r) * (-r) * (1 # 1000000))%Q by ring.
    apply Qmult_lt_0_compat; [|lra]. apply Qmult_lt_0_compat; lra.
  - assert (0 < (r * (1 # 1000)) * (r * (1 # 1000)))%Q; [|lra]. apply Qmult_lt_0_compat; apply Qmult_lt_0_compat; lra.
Qed.
Lemma uncorrected_signals c range xs : length range = length xs -> Forall (fun r => ~ r == 0)%Q range ->
  signals c range xs (calc_range_uncorrected c range xs).
Proof.
  intros L Nz. unfold calc_range_uncorrected. split; [rewrite map2_length; lia|].
  intros i r x R X. rewrite nth_error_map2, R, X. eexists. split; [reflexivity|]. unfold signal_at.
  assert (N := range_squared_pos r). rewrite Forall_forall in Nz. specialize (N (Nz r (nth_error_In _ _ R))).
  destruct (qlt r (alt_limit c)) eqn:E.
  - apply alt_limit_iff in E. split; [intros _|contradiction].
    setoid_replace (r * r)%Q with (range_squared r * 1000000)%Q by (unfold range_squared; ring). field. exact N.
  - apply alt_limit_not in E. split; [contradiction|reflexivity].
Qed.

(** ** Noise *)
Lemma var_ok l : l <> [] -> variance l (var l).
Proof.
  intros N. assert (P : ~ (inject_Z (Z.of_nat (length l)) == 0)%Q).
  { destruct l as [|x l]; [congruence|]. intros E. unfold inject_Z, Qeq in E. cbn [Qnum Qden] in E. cbn [List.length] in E. lia. }
  exists (mean l). unfold var, mean. rewrite map_length. split.
  - rewrite fold_qsum. field. exact P.
  - rewrite !fold_qsum. field. exact P.
Qed.
Lemma tenth_ok n : tenth n (Z.to_nat (round_half_even (inject_Z (Z.of_nat n) * (1 # 10))%Q)).
Proof.
  set (q := (inject_Z (Z.of_nat n) * (1 # 10))%Q). pose proof (round_half_even_spec q) as H.
  set (t := round_half_even q) in *.
  assert (Q10 : (q * 10 == inject_Z (Z.of_nat n))%Q) by (unfold q; ring).
  assert (NN : (0 <= inject_Z (Z.of_nat n))%Q) by (change 0%Q with (inject_Z 0); rewrite <- Zle_Qle; lia).
  clearbody q.
  assert (B : ((2 * (inject_Z (Z.of_nat n) - 10 * inject_Z t) < 10 /\ - (10) < 2 * (inject_Z (Z.of_nat n) - 10 * inject_Z t)) \/
               ((inject_Z (Z.of_nat n) - 10 * inject_Z t == 5 \/ inject_Z (Z.of_nat n) - 10 * inject_Z t == - (5)) /\ Z.even t = true))%Q).
  { destruct H as [H|[H E]].
    - left. revert H. apply Qabs_case; intros; split; lra.
    - right. split; [|exact E]. revert H. apply Qabs_case; intros; [left|right]; lra. }
  clear H.
  assert (C : ((2 * (Z.of_nat n - 10 * t) < 10 /\ - 10 < 2 * (Z.of_nat n - 10 * t)) \/
               ((Z.of_nat n - 10 * t = 5 \/ Z.of_nat n - 10 * t = - 5) /\ Z.even t = true))%Z).
  { assert (K : forall k : Z, (inject_Z (Z.of_nat n) - 10 * inject_Z t == inject_Z k)%Q <-> (Z.of_nat n - 10 * t = k)%Z).
    { intros k. change 10%Q with (inject_Z 10). rewrite <- inject_Z_mult. unfold Qminus. rewrite <- inject_Z_opp, <- inject_Z_plus, inject_Z_injective. lia. }
    destruct B as [[B1 B2]|[B E]].
    - left. assert (X := proj2 (K (Z.of_nat n - 10 * t)%Z) eq_refl). rewrite X in B1, B2.
      change (- (10))%Q with (inject_Z (- 10)) in B2. change 10%Q with (inject_Z 10) in B1. change 2%Q with (inject_Z 2) in B1, B2.
      rewrite <- inject_Z_mult, <- Zlt_Qlt in B1. rewrite <- inject_Z_mult, <- Zlt_Qlt in B2. lia.
    - right. split; [|exact E]. destruct B as [B|B]; [left|right]; apply K; rewrite B; reflexivity. }
  assert (T0 : (0 <= t)%Z) by lia.
  unfold tenth. destruct C as [C|[C E]]; [left; lia|right]. split; [lia|].
  rewrite <- E. replace t with (Z.of_nat (Z.to_nat t)) at 2 by lia.
  clear. generalize (Z.to_nat t) as k. intros k. destruct (Nat.even k) eqn:X.
  - apply Nat.even_spec in X. destruct X as [j ->]. symmetry. apply Z.even_spec. exists (Z.of_nat j). lia.
  - symmetry. rewrite <- Z.negb_odd. assert (Z.odd (Z.of_nat k) = true) as ->; [|reflexivity]. apply Z.odd_spec.
    assert (Nat.odd k = true) by (rewrite <- Nat.negb_even, X; reflexivity). apply Nat.odd_spec in H. destruct H as [j ->]. exists (Z.of_nat j). lia.
Qed.
Lemma top_variance_ok l : l <> [] -> top_variance l (calc_var_from_top_gates l).
Proof.
  intros N. unfold calc_var_from_top_gates. pose proof (tenth_ok (length l)) as T. cbv zeta. revert T.
  set (t := Z.to_nat _). clearbody t. intros T.
  assert (Ln : 0 < length l) by (destruct l; [congruence|cbn; lia]).
  destruct (Nat.eqb_spec t 0) as [E|E].
  - exists l. split; [|apply var_ok; exact N]. exists [], t. split; [reflexivity|]. split; [exact T|]. split; [reflexivity|lia].
  - assert (t <= length l) by (unfold tenth in T; lia).
    exists (skipn (length l - t) l). split.
    + exists (firstn (length l - t) l), t. rewrite firstn_skipn. split; [reflexivity|]. split; [exact T|]. split; [lia|]. intros _. rewrite skipn_length. lia.
    + apply var_ok. intros Z. assert (L := skipn_length (length l - t) l). rewrite Z in L. cbn [List.length] in L. lia.
Qed.

Lemma tenth_unique n t t' : tenth n t -> tenth n t' -> t = t'.
Proof.
  unfold tenth. intros A B. destruct A as [A|[A E]], B as [B|[B F]]; try lia.
  apply Nat.even_spec in E, F. destruct E as [i ->], F as [j ->]. lia.
Qed.
Lemma top_gates_unique l a b : top_gates l a -> top_gates l b -> a = b.
Proof.
  intros (la & ta & Ea & Ta & Za & Na) (lb & tb & Eb & Tb & Zb & Nb).
  assert (ta = tb) by (eapply tenth_unique; eassumption). subst tb.
  destruct (Nat.eq_dec ta 0) as [Z|N].
  - rewrite (Za Z) in Ea. rewrite (Zb Z) in Eb. cbn [app] in Ea, Eb. congruence.
  - specialize (Na N). specialize (Nb N). assert (L : length la = length lb).
    { assert (length l = length la + ta) by (rewrite Ea, app_length; lia). assert (length l = length lb + ta) by (rewrite Eb, app_length; lia). lia. }
    rewrite Ea in Eb. clear - L Eb. revert lb L Eb. induction la as [|x la IH]; intros [|y lb] L E; cbn in L; try lia; [exact E|].
    cbn [app] in E. assert (la ++ a = lb ++ b) as E2 by congruence. apply (IH lb); [lia|exact E2].
Qed.
Lemma qsum_ext {A} (f g : A -> Q) l : (forall x, f x == g x)%Q -> (RadarSpec.qsum (map f l) == RadarSpec.qsum (map g l))%Q.
Proof. intros H. induction l as [|x l IH]; cbn [map RadarSpec.qsum]; [reflexivity|]. rewrite H, IH. reflexivity. Qed.
Lemma variance_unique l v w : l <> [] -> variance l v -> variance l w -> (v == w)%Q.
Proof.
  intros N (m & M & V) (m' & M' & W).
  assert (P : ~ (inject_Z (Z.of_nat (length l)) == 0)%Q).
  { destruct l as [|x l]; [congruence|]. intros E. unfold inject_Z, Qeq in E. cbn [Qnum Qden] in E. cbn [List.length] in E. lia. }
  assert (E : (m == m')%Q) by (apply (Qmult_inj_r _ _ _ P); rewrite M, M'; reflexivity).
  apply (Qmult_inj_r _ _ _ P). rewrite V, W. apply qsum_ext. intros x. rewrite E. reflexivity.
Qed.
Lemma top_variance_unique l v w : l <> [] -> top_variance l v -> top_variance l w -> (v == w)%Q.
Proof.
  intros N (a & A & V) (b & B & W). assert (a = b) by (eapply top_gates_unique; eassumption). subst b.
  apply (variance_unique a); [|exact V|exact W]. intros ->. destruct A as (low & t & E & T & Z0 & N0).
  destruct (Nat.eq_dec t 0) as [Z|NZ]; [rewrite (Z0 Z) in E; cbn in E; congruence|specialize (N0 NZ); cbn in N0; lia].
Qed.

(** ** Negatives in a row *)
Lemma since_zero_exists l : forall i, i < length l -> exists s, since_zero l i s.
Proof.
  induction i as [|i IH]; intros Hi.
  - destruct (nth_error_lt_Some l 0 Hi) as (x & X). destruct (Qeq_dec x 0) as [E|N].
    + exists 1. split; [lia|]. split; [intros; lia|]. right. exists x. auto.
    + exists 0. split; [lia|]. split; [|left; reflexivity]. intros k y A B Y. assert (k = 0) by lia. subst k. assert (y = x) by congruence. subst y. exact N.
  - destruct (nth_error_lt_Some l (Datatypes.S i) Hi) as (x & X). destruct (Qeq_dec x 0) as [E|N].
    + exists (Datatypes.S (Datatypes.S i)). split; [lia|]. split; [intros; lia|]. right. exists x. split; [exact X|exact E].
    + destruct (IH ltac:(lia)) as (s & S1 & S2 & S3). exists s. split; [lia|]. split; [|exact S3].
      intros k y A B Y. destruct (Nat.eq_dec k (Datatypes.S i)) as [->|Nk]; [assert (y = x) by congruence; subst y; exact N|]. apply (S2 k y A ltac:(lia) Y).
Qed.
Lemma qsum_ones l : (forall x, In x l -> x = 1%Q) -> (ArraySpec.qsum l == inject_Z (Z.of_nat (length l)))%Q.
Proof.
  induction l as [|x l IH]; intros H; [reflexivity|]. cbn [ArraySpec.qsum List.length].
  rewrite IH by (intros y I; apply H; right; exact I). rewrite (H x (or_introl eq_refl)).
  rewrite Nat2Z.inj_succ. unfold Z.succ. rewrite inject_Z_plus. ring.
Qed.
Lemma run_of_ones (bs : list bool) N i y :
  nth_error (cumsumr (map (fun b : bool => if b then 1 else 0)%Q bs)) i = Some y ->
  (inject_Z (Z.of_nat N) < y)%Q <-> N <= i /\ forall j, i - N <= j -> j <= i -> nth_error bs j = Some true.
Proof.
  set (l := map (fun b : bool => if b then 1 else 0)%Q bs). intros Y.
  assert (Nn : Forall (fun x => 0 <= x)%Q l).
  { apply Forall_forall. intros x I. apply in_map_iff in I. destruct I as (b & <- & _). destruct b; lra. }
  destruct (cumsumr_correct l Nn) as [L H].
  assert (Li : i < length l) by (rewrite <- L; apply (nth_error_Some_lt _ _ _ Y)).
  assert (Lb : length l = length bs) by (unfold l; apply map_length).
  destruct (since_zero_exists l i Li) as (s & Sz). specialize (H i y s Y Sz). destruct Sz as (S1 & S2 & S3).
  assert (One : forall k, s <= k -> k <= i -> nth_error bs k = Some true).
  { intros k A B. destruct (nth_error_lt_Some bs k ltac:(lia)) as (b & Eb).
    assert (X : nth_error l k = Some (if b then 1 else 0)%Q) by (unfold l; rewrite nth_error_map', Eb; reflexivity).
    specialize (S2 k _ A B X). destruct b; [exact Eb|]. exfalso. apply S2. reflexivity. }
  assert (Sum : (y == inject_Z (Z.of_nat (Datatypes.S i - s)))%Q).
  { rewrite H, qsum_ones.
    - unfold slice. rewrite firstn_length, skipn_length. replace (Nat.min (Datatypes.S i - s) (length l - s)) with (Datatypes.S i - s) by lia. reflexivity.
    - intros x I. unfold slice in I. apply In_nth_error in I. destruct I as (k & K).
      assert (k < Datatypes.S i - s). { apply nth_error_Some_lt in K. rewrite firstn_length in K. lia. }
      rewrite nth_error_firstn' in K. destruct (Nat.ltb_spec k (Datatypes.S i - s)) as [_|C]; [|lia]. rewrite nth_error_skipn' in K.
      unfold l in K. rewrite nth_error_map' in K. rewrite One in K by lia. cbn in K. congruence. }
  rewrite Sum, <- Zlt_Qlt. split.
  - intros G. split; [lia|]. intros j A B. apply One; lia.
  - intros [A B]. destruct S3 as [->|(x & X & Z)]; [lia|]. destruct (Nat.le_gt_cases s (i - N)) as [C|C]; [lia|].
    exfalso. destruct s as [|s]; [lia|]. replace (Datatypes.S s - 1) with s in X by lia.
    unfold l in X. rewrite nth_error_map' in X. rewrite B in X by lia. cbn in X. assert (x = 1%Q) by congruence. subst x. lra.
Qed.

Lemma consequent_iff c us k : y_filter_negatives c = true ->
  (In k (consequent_negatives (y_negatives c) us) <-> negatives_end c us k).
Proof.
  intros Fn. set (N := y_negatives c).
  unfold consequent_negatives. cbv zeta. rewrite in_map_iff.
  set (bs := map (fun x => qlt x 0) (firstn 95 (skipn 5 us))).
  assert (E : map (fun x => if qlt x 0 then 1 else 0)%Q (firstn 95 (skipn 5 us)) = map (fun b : bool => if b then 1 else 0)%Q bs).
  { unfold bs. rewrite map_map. reflexivity. }
  rewrite E. clear E.
  assert (Bit : forall j, nth_error bs j = Some true <-> j < 95 /\ exists u, nth_error us (5 + j) = Some u /\ (u < 0)%Q).
  { intros j. unfold bs. rewrite nth_error_map', nth_error_firstn'. destruct (Nat.ltb_spec j 95) as [C|C]; [|cbn; split; [discriminate|lia]].
    rewrite nth_error_skipn'. destruct (nth_error us (5 + j)) as [u|]; cbn [option_map].
    - split; [intros X; split; [exact C|]; exists u; split; [reflexivity|]; apply GridProofs.qlt_iff; congruence|].
      intros (_ & u' & U & L). f_equal. apply GridProofs.qlt_iff. congruence.
    - split; [discriminate|]. intros (_ & u' & U & _). discriminate U. }
  split.
  - intros (i & <- & I). apply where1_in in I. rewrite nth_error_map' in I.
    destruct (nth_error (cumsumr _) i) as [y|] eqn:Y; [|discriminate I]. cbn [option_map] in I.
    assert (G : (inject_Z (Z.of_nat N) < y)%Q) by (apply GridProofs.qlt_iff; congruence).
    apply (run_of_ones bs N i y Y) in G. destruct G as [A B].
    split; [exact Fn|]. fold N. split; [lia|]. split; [destruct (proj1 (Bit i) (B i ltac:(lia) ltac:(lia))); lia|].
    intros j J1 J2. destruct (proj1 (Bit (j - 5)) (B (j - 5) ltac:(lia) ltac:(lia))) as (_ & u & U & L). exists u. replace (5 + (j - 5)) with j in U by lia. auto.
  - intros (_ & A & B & R). fold N in A, R. exists (k - 5). split; [lia|]. apply where1_in. rewrite nth_error_map'.
    assert (On : forall j, k - 5 - N <= j -> j <= k - 5 -> nth_error bs j = Some true).
    { intros j J1 J2. apply Bit. split; [lia|]. apply R; lia. }
    assert (Lb : k - 5 < length bs) by (apply (nth_error_Some_lt _ _ true); apply On; lia).
    assert (Ly : length (cumsumr (map (fun b : bool => if b then 1 else 0)%Q bs)) = length bs).
    { destruct (cumsumr_correct (map (fun b : bool => if b then 1 else 0)%Q bs)) as [L _]; [|rewrite L; apply map_length].
      apply Forall_forall. intros x I. apply in_map_iff in I. destruct I as (b & <- & _). destruct b; lra. }
    destruct (nth_error_lt_Some (cumsumr (map (fun b : bool => if b then 1 else 0)%Q bs)) (k - 5) ltac:(lia)) as (y & Y).
    rewrite Y. cbn [option_map]. f_equal. apply GridProofs.qlt_iff. apply (run_of_ones bs N (k - 5) y Y). split; [lia|]. exact On.
Qed.

(** ** Masks of one profile *)
(** The profile has the data of [us] and hides the gates of which [p] holds. *)
Definition hiding (p : nat -> Prop) (us : list Q) (prof : list entry) : Prop :=
  length prof = length us /\
  forall i u, nth_error us i = Some u -> exists b, nth_error prof i = Some (u, b) /\ (b = true <-> p i).

Lemma hiding_ext p q us prof : (forall i, i < length us -> (p i <-> q i)) -> hiding p us prof -> hiding q us prof.
Proof.
  intros E [L H]. split; [exact L|]. intros i u U. destruct (H i u U) as (b & B & I). exists b. split; [exact B|].
  rewrite I. apply E. apply (nth_error_Some_lt _ _ _ U).
Qed.
Definition low_at (us : list Q) (t : Q) (i : nat) : Prop := exists u, nth_error us i = Some u /\ (u < t)%Q.
Lemma mask_from_hiding p us prof k t : hiding p us prof ->
  hiding (fun i => p i \/ (k <= i /\ low_at us t i)) us (mask_from k t prof).
Proof.
  intros [L H]. unfold mask_from. split; [rewrite map_length; unfold enumerate; rewrite enumerate_from_length; exact L|].
  intros i u U. destruct (H i u U) as (b & B & I). rewrite nth_error_map'. unfold enumerate. rewrite nth_error_enumerate_from, B.
  cbn [option_map Nat.add]. unfold raw. cbn [fst].
  destruct ((k <=? i) && qlt u t) eqn:C.
  - apply andb_true_iff in C. destruct C as [C1 C2]. apply Nat.leb_le in C1. apply GridProofs.qlt_iff in C2.
    exists true. split; [reflexivity|]. split; [intros _|reflexivity]. right. split; [exact C1|]. exists u. auto.
  - exists b. split; [reflexivity|]. rewrite I. split; [tauto|]. intros [X|[X (u' & U' & Lw)]]; [exact X|].
    exfalso. assert (u' = u) by congruence. subst u'. apply Nat.leb_le in X. apply GridProofs.qlt_iff in Lw. rewrite X, Lw in C. discriminate C.
Qed.
Lemma mask_low_hiding us : forall alts p prof, hiding p us prof ->
  hiding (fun i => p i \/ ((exists k, In k alts /\ k <= i) /\ low_at us (8 # 1000000) i)) us (mask_low_values alts prof).
Proof.
  induction alts as [|k alts IH]; intros p prof H; unfold mask_low_values; cbn [fold_left].
  - revert H. apply hiding_ext. intros i _. split; [tauto|]. intros [X|[(k & [] & _) _]]. exact X.
  - change (fold_left _ alts ?z) with (mask_low_values alts z).
    pose proof (IH _ _ (mask_from_hiding p us prof k (8 # 1000000) H)) as G. revert G. apply hiding_ext. intros i _. split.
    + intros [[X|[X Y]]|[(k' & X & Z) Y]]; [left; exact X|right; split; [exists k; split; [left; reflexivity|exact X]|exact Y]|right; split; [exists k'; split; [right; exact X|exact Z]|exact Y]].
    + intros [X|[(k' & [<-|X] & Z) Y]]; [left; left; exact X|left; right; split; assumption|right; split; [exists k'; split; assumption|exact Y]].
Qed.

Lemma nonempty_length {A} (l : list A) : l <> [] -> 0 < length l.
Proof. destruct l; [congruence|cbn; lia]. Qed.

(** ** Fog *)
Lemma foggy_iff c beta_raw : beta_raw <> [] -> (y_fog c && is_fog beta_raw = true <-> foggy c beta_raw).
Proof.
  intros N. rewrite andb_true_iff. unfold foggy, is_fog. rewrite orb_true_iff, FillProofs.qgt_iff, GridProofs.qlt_iff, fold_qsum.
  assert (E : (calc_var_from_top_gates beta_raw < 1 # 1000000000000000)%Q <-> exists v, top_variance beta_raw v /\ (v < 1 # 1000000000000000)%Q).
  { split; [intros H; eexists; split; [apply (top_variance_ok _ N)|exact H]|].
    intros (v & V & H). rewrite (top_variance_unique _ _ _ N (top_variance_ok _ N) V). exact H. }
  rewrite E. tauto.
Qed.

(** Fog cleaning of a profile that hides what [p] holds of. *)
Definition peak_of (p : nat -> Prop) (us : list Q) (k : nat) : Prop :=
  exists u, nth_error us k = Some u /\ ~ p k /\
    forall j w, nth_error us j = Some w -> ~ p j -> (w <= u)%Q /\ (j < k -> (w < u)%Q).
Lemma clean_fog_hiding p us prof : us <> [] -> hiding p us prof ->
  exists prof', clean_fog prof = Ok prof' /\
    hiding (fun i => p i \/ ((exists k, peak_of p us k /\ k <= i) /\ low_at us (2 # 1000000) i)) us prof'.
Proof.
  intros Ne [L H]. unfold clean_fog. set (vis := map (fun e : entry => if hides e then None else Some (raw e)) prof).
  assert (Vis : forall j u, nth_error us j = Some u -> exists v, nth_error vis j = Some v /\
            ((v = None /\ p j) \/ (v = Some u /\ ~ p j))).
  { intros j u U. destruct (H j u U) as (b & B & I). unfold vis. rewrite nth_error_map', B. cbn [option_map]. unfold hides, raw. cbn [fst snd].
    destruct b; [exists None; split; [reflexivity|left; split; [reflexivity|apply I; reflexivity]]|].
    exists (Some u). split; [reflexivity|]. right. split; [reflexivity|]. intros X. apply I in X. discriminate X. }
  assert (Lv : length vis = length us) by (unfold vis; rewrite map_length; exact L).
  destruct (masked_argmax vis) as [k|e] eqn:M.
  - cbn [bind]. eexists. split; [reflexivity|].
    pose proof (mask_from_hiding p us prof k (2 # 1000000) (conj L H)) as G. revert G. apply hiding_ext. intros i Hi.
    destruct (masked_argmax_spec _ _ M) as (v & V & Sp).
    assert (Lk : k < length us) by (rewrite <- Lv; apply (nth_error_Some_lt _ _ _ V)).
    destruct (nth_error_lt_Some us k Lk) as (uk & Uk). destruct (Vis k uk Uk) as (v' & V' & D). assert (v' = v) by congruence. subst v'.
    destruct D as [[-> Pk]|[-> NPk]].
    + (* nothing is visible *)
      assert (All : forall j, j < length us -> p j).
      { intros j J. destruct (nth_error_lt_Some us j J) as (uj & Uj). destruct (Vis j uj Uj) as (w & W & [[_ P]|[-> _]]); [exact P|].
        exfalso. exact (Sp j uj W). }
      split; intros _; left; apply All; exact Hi.
    + assert (Pk : peak_of p us k).
      { exists uk. split; [exact Uk|]. split; [exact NPk|]. intros j w W NP. destruct (Vis j w W) as (x & X & [[_ P]|[-> _]]); [contradiction|]. apply (Sp j w X). }
      split; [intros [X|[X Y]]; [left; exact X|right; split; [exists k; auto|exact Y]]|].
      intros [X|[(k' & Pk' & X) Y]]; [left; exact X|right]. split; [|exact Y].
      destruct Pk' as (u' & U' & N' & M'). destruct (M' k uk Uk NPk) as [A B].
      destruct Pk as (u2 & U2 & _ & M2). assert (u2 = uk) by congruence. subst u2. destruct (M2 k' u' U' N') as [C D].
      destruct (Nat.lt_ge_cases i k) as [Z|Z]; [|exact Z]. exfalso. assert (k' < k) by lia. specialize (D H0). lra.
  - exfalso. assert (P := nonempty_length us Ne). destruct vis as [|x r]; [cbn in Lv; lia|]. discriminate M.
Qed.

(** ** Ratio to noise *)
Lemma under_noise_iff limit q y : under_noise limit q y = true <-> weak limit q y.
Proof.
  unfold under_noise, weak. destruct (qlt limit 0) eqn:E.
  - apply GridProofs.qlt_iff in E. rewrite andb_true_iff, !GridProofs.qlt_iff. split; [intros [A B]; right; auto|].
    intros [[A _]|[_ B]]; [lra|exact B].
  - apply GridProofs.qlt_false in E. rewrite orb_true_iff, !GridProofs.qlt_iff. split; [intros A; left; auto|].
    intros [[_ A]|[A _]]; [exact A|lra].
Qed.
Lemma abs_under_noise_iff limit q y : abs_under_noise limit q y = true <-> (0 <= limit /\ y * y < limit * limit * q)%Q.
Proof.
  unfold abs_under_noise. rewrite andb_true_iff, negb_true_iff, GridProofs.qlt_false, GridProofs.qlt_iff. reflexivity.
Qed.
Lemma weak_eq limit q q' y y' : (q == q')%Q -> (y == y')%Q -> weak limit q y -> weak limit q' y'.
Proof. unfold weak. intros E F. rewrite E, F. tauto. Qed.

(** What [weak] means for a noise that is a number. *)
Lemma weak_sigma limit sigma q y : (0 < sigma)%Q -> (sigma * sigma == q)%Q -> (weak limit q y <-> y < limit * sigma)%Q.
Proof.
  intros P E. unfold weak.
  assert (X : (limit * limit * q == (limit * sigma) * (limit * sigma))%Q) by (rewrite <- E; ring). rewrite X. clear X.
  assert (Pos : (0 <= limit -> 0 <= limit * sigma)%Q) by (intros; apply Qmult_le_0_compat; lra).
  assert (Neg : (limit < 0 -> limit * sigma < 0)%Q).
  { intros. assert (0 < (- limit) * sigma)%Q by (apply Qmult_lt_0_compat; lra). lra. }
  set (z := (limit * sigma)%Q) in *. clearbody z.
  assert (Sq : forall a b : Q, (0 <= a -> 0 <= b -> (a * a < b * b <-> a < b))%Q).
  { intros a b A B. split; intros C.
    - destruct (Qlt_le_dec a b) as [D|D]; [exact D|]. exfalso. assert (b * b <= a * a)%Q; [|lra]. apply (Qle_trans _ (a * b)); [apply Qmult_le_compat_r; assumption|].
      setoid_replace (a * b)%Q with (b * a)%Q by ring. apply Qmult_le_compat_r; assumption.
    - apply (Qle_lt_trans _ (b * a)); [apply Qmult_le_compat_r; lra|]. setoid_replace (b * a)%Q with (a * b)%Q by ring. apply Qmult_lt_compat_r; lra. }
  destruct (Qlt_le_dec limit 0) as [Ln|Lp].
  - specialize (Neg Ln). split.
    + intros [[A _]|(_ & A & B)]; [lra|]. assert (- z * - z < - y * - y)%Q as B' by (setoid_replace (- z * - z)%Q with (z * z)%Q by ring; setoid_replace (- y * - y)%Q with (y * y)%Q by ring; exact B).
      apply (Sq (- z) (- y))%Q in B'; [|clear - Neg; lra|clear - A; lra]. clear - B'. lra.
    + intros A. right. split; [exact Ln|]. split; [lra|]. assert (- z * - z < - y * - y)%Q by (apply (Sq (- z) (- y))%Q; clear - A Neg; lra).
      setoid_replace (z * z)%Q with (- z * - z)%Q by ring. setoid_replace (y * y)%Q with (- y * - y)%Q by ring. assumption.
  - specialize (Pos Lp). split.
    + intros [[_ [A|A]]|[A _]]; [lra| |lra]. destruct (Qlt_le_dec y 0) as [B|B]; [lra|]. apply (Sq y z B Pos). exact A.
    + intros A. left. split; [exact Lp|]. destruct (Qlt_le_dec y 0) as [B|B]; [left; exact B|right; apply (Sq y z B Pos); exact A].
Qed.

Lemma noise_test c q r u : y_snr c = true ->
  ((if y_keep_negative c then abs_under_noise (y_limit c) q (if negb (y_range_corrected c) && qlt r (alt_limit c) then (u * 6)%Q else u)
    else under_noise (y_limit c) q (if negb (y_range_corrected c) && qlt r (alt_limit c) then (u * 6)%Q else u)) = true
   <-> hidden_by_noise c q r u).
Proof.
  intros Sn. set (y := if negb (y_range_corrected c) && qlt r (alt_limit c) then (u * 6)%Q else u).
  assert (Y : scaled c r u y).
  { unfold scaled, y. destruct (negb (y_range_corrected c) && qlt r (alt_limit c)) eqn:E.
    - apply andb_true_iff in E. destruct E as [A B]. apply alt_limit_iff in B. left. split; [destruct (y_range_corrected c); [discriminate A|reflexivity]|]. split; [exact B|ring].
    - right. split; [|reflexivity]. intros [A B]. apply alt_limit_iff in B. rewrite A, B in E. discriminate E. }
  assert (U : forall y', scaled c r u y' -> (y' == y)%Q).
  { intros y' [(A & B & C)|[A C]]; destruct Y as [(A' & B' & C')|[A' C']]; try tauto; lra. }
  clearbody y. unfold hidden_by_noise. destruct (y_keep_negative c) eqn:K.
  - rewrite abs_under_noise_iff. split.
    + intros H. split; [exact Sn|]. exists y. split; [exact Y|]. right. auto.
    + intros (_ & y' & Y' & [[A _]|[_ A]]); [discriminate A|]. rewrite <- (U y' Y'). exact A.
  - rewrite under_noise_iff. split.
    + intros H. split; [exact Sn|]. exists y. split; [exact Y|]. left. auto.
    + intros (_ & y' & Y' & [[_ A]|[A _]]); [|discriminate A]. revert A. apply weak_eq; [reflexivity|apply U; exact Y'].
Qed.
Lemma hidden_by_noise_eq c q q' r u : (q == q')%Q -> hidden_by_noise c q r u -> hidden_by_noise c q' r u.
Proof.
  intros E (A & y & Y & H). split; [exact A|]. exists y. split; [exact Y|]. destruct H as [[B H]|[B H]]; [left|right]; (split; [exact B|]).
  - revert H. apply weak_eq; [exact E|reflexivity].
  - rewrite <- E. exact H.
Qed.
Lemma remove_noise_hiding c q range p us prof : y_snr c = true -> length range = length us -> hiding p us prof ->
  hiding (fun i => p i \/ exists r u, nth_error range i = Some r /\ nth_error us i = Some u /\ hidden_by_noise c q r u) us
    (remove_noise c range q prof).
Proof.
  intros Sn Lr [L H]. unfold remove_noise. split; [rewrite map2_length; lia|].
  intros i u U. destruct (H i u U) as (b & B & I). destruct (nth_error_lt_Some range i) as (r & R); [rewrite Lr; apply (nth_error_Some_lt _ _ _ U)|].
  match goal with |- context[map2 ?f range prof] => pose proof (nth_error_map2 f range prof i) as X end.
  rewrite R, B in X. cbv zeta in X. unfold raw in X. cbn [fst] in X.
  pose proof (noise_test c q r u Sn) as T.
  destruct (if y_keep_negative c then _ else _).
  - exists true. split; [exact X|]. split; [intros _|reflexivity]. right. exists r, u. split; [exact R|]. split; [exact U|]. apply T. reflexivity.
  - exists b. split; [exact X|]. rewrite I. split; [tauto|]. intros [Z|(r' & u' & R' & U' & Z)]; [exact Z|].
    assert (r' = r) by congruence. assert (u' = u) by congruence. subst r' u'. apply T in Z. discriminate Z.
Qed.

(** ** Whole screening *)
Lemma unmasked_hiding us : hiding (fun _ => False) us (map (fun x => (x, false)) us).
Proof.
  split; [apply map_length|]. intros i u U. rewrite nth_error_map', U. exists false. split; [reflexivity|]. split; [discriminate|contradiction].
Qed.
Definition tiny_noise : Q := ((1 # 1000000000000) * (1 # 1000000000000))%Q.

Lemma screen_profile_ok c range beta_raw xs : length range = length xs -> xs <> [] -> beta_raw <> [] ->
  let us := calc_range_uncorrected c range xs in
  exists q out, screen_profile c range beta_raw xs = Ok (calc_range_corrected c range out) /\
    noise_square c beta_raw us q /\
    hiding (fun i => ~ survives c range beta_raw us q i) us out.
Proof.
  intros Lr Nx Nb us. unfold screen_profile. fold us.
  assert (Lu : length us = length xs) by (unfold us, calc_range_uncorrected; rewrite map2_length; lia).
  assert (Nu : us <> []) by (intros E; rewrite E in Lu; apply Nx; destruct xs; [reflexivity|cbn in Lu; lia]).
  set (negs := if y_filter_negatives c then consequent_negatives (y_negatives c) us else []).
  assert (Negs : forall k, In k negs <-> negatives_end c us k).
  { intros k. unfold negs. destruct (y_filter_negatives c) eqn:E; [apply consequent_iff; exact E|].
    split; [intros []|]. intros (X & _). congruence. }
  assert (NegsE : negs <> [] <-> exists k, negatives_end c us k).
  { split.
    - intros N. destruct negs as [|k negs']; [congruence|]. exists k. apply Negs. left. reflexivity.
    - intros (k & K) E. apply Negs in K. rewrite E in K. destruct K. }
  clearbody negs. cbv zeta.
  assert (H1 : hiding (hidden_by_negatives c us) us (mask_low_values negs (map (fun x => (x, false)) us))).
  { pose proof (mask_low_hiding us negs _ _ (unmasked_hiding us)) as G. revert G. apply hiding_ext. intros i _. unfold hidden_by_negatives, low_at. split.
    - intros [[]|[(k & K & Ki) Lo]]. split; [|exact Lo]. exists k. split; [exact Ki|]. apply Negs. exact K.
    - intros [(k & Ki & K) Lo]. right. split; [|exact Lo]. exists k. split; [apply Negs; exact K|exact Ki]. }
  set (prof1 := mask_low_values negs _) in *. clearbody prof1.
  set (q1 := match negs with [] => adjust_noise c (calc_var_from_top_gates us) | _ => tiny_noise end).
  change (match negs with [] => adjust_noise c (calc_var_from_top_gates us) | _ => _ end) with q1.
  set (q := if y_fog c && is_fog beta_raw then tiny_noise else q1).
  change (if y_fog c && is_fog beta_raw then _ else q1) with q.
  assert (Noise : noise_square c beta_raw us q).
  { unfold noise_square, q. cbv zeta. pose proof (foggy_iff c beta_raw Nb) as F.
    destruct (y_fog c && is_fog beta_raw).
    - split; [intros _; reflexivity|]. intros N. exfalso. apply N. right. apply F. reflexivity.
    - assert (NF : ~ foggy c beta_raw) by (intros X; apply F in X; discriminate X).
      unfold q1. destruct negs as [|k negs'].
      + split; [intros [X|X]; [apply NegsE in X; congruence|contradiction]|]. intros _.
        exists (calc_var_from_top_gates us). split; [apply top_variance_ok; exact Nu|]. unfold adjust_noise.
        set (lo := if y_smoothed c then y_noise_smooth_min c else y_noise_min c). clearbody lo. cbv zeta.
        destruct (qlt (calc_var_from_top_gates us) (lo * lo)) eqn:E; [right|left]; (split; [|reflexivity]).
        * apply GridProofs.qlt_iff. exact E.
        * apply GridProofs.qlt_false. exact E.
      + split; [intros _; reflexivity|]. intros N. exfalso. apply N. left. apply NegsE. discriminate. }
  clearbody q. clear q1.
  assert (H2 : exists prof2, (if y_fog c && is_fog beta_raw then clean_fog prof1 else Ok prof1) = Ok prof2 /\
     hiding (fun i => hidden_by_negatives c us i \/ hidden_by_fog c beta_raw us i) us prof2).
  { pose proof (foggy_iff c beta_raw Nb) as F. destruct (y_fog c && is_fog beta_raw).
    - destruct (clean_fog_hiding _ _ _ Nu H1) as (prof2 & E & G). exists prof2. split; [exact E|]. revert G. apply hiding_ext.
      intros i _. unfold hidden_by_fog, low_at. change (peak_of (hidden_by_negatives c us) us) with (peak c us).
      assert (Fg : foggy c beta_raw) by (apply F; reflexivity). tauto.
    - exists prof1. split; [reflexivity|]. revert H1. apply hiding_ext. intros i _. split; [tauto|].
      intros [X|(X & _)]; [exact X|]. apply F in X. discriminate X. }
  destruct H2 as (prof2 & E2 & H2). rewrite E2. cbn [bind].
  exists q, (if y_snr c then remove_noise c range q prof2 else prof2). split; [reflexivity|]. split; [exact Noise|].
  destruct (y_snr c) eqn:Sn.
  - pose proof (remove_noise_hiding c q range _ us prof2 Sn ltac:(lia) H2) as G. revert G. apply hiding_ext. intros i Hi. unfold survives.
    destruct (nth_error_lt_Some us i Hi) as (u & U). destruct (nth_error_lt_Some range i ltac:(lia)) as (r & R).
    pose proof (noise_test c q r u Sn) as T.
    destruct H2 as [_ H2]. destruct (H2 i u U) as (b & _ & Ib). 
    split.
    + intros [[X|X]|(r' & u' & R' & U' & X)] (A & B & C); [exact (A X)|exact (B X)|exact (C r' u' R' U' X)].
    + intros N. destruct b; [left; apply Ib; reflexivity|right]. exists r, u. split; [exact R|]. split; [exact U|].
      destruct (if y_keep_negative c then _ else _); [apply T; reflexivity|]. exfalso. apply N.
      split; [intros X; assert (false = true) by (apply Ib; left; exact X); discriminate|].
      split; [intros X; assert (false = true) by (apply Ib; right; exact X); discriminate|].
      intros r' u' R' U' X. assert (r' = r) by congruence. assert (u' = u) by congruence. subst r' u'. apply T in X. discriminate X.
  - revert H2. intros H2'. pose proof H2' as H2. revert H2'. apply hiding_ext. intros i Hi. unfold survives.
    destruct (nth_error_lt_Some us i Hi) as (u & U). destruct H2 as [_ H2]. destruct (H2 i u U) as (b & _ & Ib).
    split.
    + intros [X|X] (A & B & _); [exact (A X)|exact (B X)].
    + intros N. destruct b; [apply Ib; reflexivity|]. exfalso. apply N.
      split; [intros X; assert (false = true) by (apply Ib; left; exact X); discriminate|].
      split; [intros X; assert (false = true) by (apply Ib; right; exact X); discriminate|].
      intros r' u' R' U' (X & _). congruence.
Qed.

Lemma survives_dec_entry c range us out (P : nat -> Prop) : length range = length us -> hiding (fun i => ~ P i) us out ->
  forall i r u, nth_error range i = Some r -> nth_error us i = Some u ->
  exists e, nth_error (calc_range_corrected c range out) i = Some e /\
    (P i -> exists v, e = (v, false) /\ (corrected_gate c r -> v * 1000000 == u * (r * r))%Q /\ (~ corrected_gate c r -> v == u)%Q) /\
    (~ P i -> e = (u, true)) /\ (snd e = false -> ~ ~ P i).
Proof.
  intros L [Lo H] i r u R U. unfold calc_range_corrected. rewrite nth_error_map2, R. destruct (H i u U) as (b & B & I). rewrite B.
  eexists. split; [reflexivity|]. unfold hides, raw. cbn [fst snd]. destruct b.
  - rewrite andb_false_r. assert (X : ~ P i) by (apply I; reflexivity). split; [intros Y; contradiction|]. split; [reflexivity|discriminate].
  - rewrite andb_true_r. split; [|split].
    + intros _. destruct (qlt r (alt_limit c)) eqn:E; eexists; (split; [reflexivity|]); split; intros X.
      * unfold range_squared. field.
      * apply alt_limit_iff in E. contradiction.
      * apply alt_limit_not in E. contradiction.
      * reflexivity.
    + intros X. apply I in X. discriminate X.
    + intros _ X. apply I in X. discriminate X.
Qed.

Lemma survives_stable c range beta_raw us q i : ~ ~ survives c range beta_raw us q i -> survives c range beta_raw us q i.
Proof.
  intros H. split; [|split].
  - intros A. apply H. intros (X & _). exact (X A).
  - intros A. apply H. intros (_ & X & _). exact (X A).
  - intros r u R U A. apply H. intros (_ & _ & X). exact (X r u R U A).
Qed.

Lemma profile_screened c range beta_raw xs : length range = length xs -> xs <> [] -> beta_raw <> [] ->
  Forall (fun r => ~ r == 0)%Q range ->
  exists out, screen_profile c range beta_raw xs = Ok out /\ screened c range beta_raw xs out.
Proof.
  intros Lr Nx Nb Nz. destruct (screen_profile_ok c range beta_raw xs Lr Nx Nb) as (q & out & E & Ns & H). cbv zeta in E, Ns, H.
  pose proof (uncorrected_signals c range xs Lr Nz) as Sg. set (us := calc_range_uncorrected c range xs) in *.
  assert (Lu : length us = length xs) by apply Sg.
  assert (Lo := proj1 H).
  exists (calc_range_corrected c range out). split; [exact E|]. split.
  { unfold calc_range_corrected. rewrite map2_length. lia. }
  exists us, q. split; [exact Sg|]. split; [exact Ns|]. intros i x u X U.
  destruct (nth_error_lt_Some range i) as (r & R); [rewrite Lr; apply (nth_error_Some_lt _ _ _ X)|].
  destruct (survives_dec_entry c range us out _ ltac:(lia) H i r u R U) as ([v b] & Ev & V1 & V2 & V3).
  exists v, b. split; [exact Ev|].
  assert (B : b = false <-> survives c range beta_raw us q i).
  { split; [intros ->; apply survives_stable, V3; reflexivity|]. intros Sv. destruct (V1 Sv) as (v' & Ee & _). congruence. }
  split; [exact B|]. split.
  - intros ->. assert (Sv : survives c range beta_raw us q i) by (apply B; reflexivity).
    destruct (V1 Sv) as (v' & Ee & C1 & C2). assert (v' = v) by congruence. subst v'.
    destruct (proj2 Sg i r x R X) as (u' & U' & D1 & D2). assert (u' = u) by congruence. subst u'.
    destruct (qlt r (alt_limit c)) eqn:Q.
    + apply alt_limit_iff in Q. specialize (C1 Q). specialize (D1 Q). rewrite D1 in C1. lra.
    + apply alt_limit_not in Q. rewrite (C2 Q). apply D2. exact Q.
  - intros ->. assert (~ survives c range beta_raw us q i) by (intros Sv; apply B in Sv; discriminate Sv).
    assert (X' := V2 H0). assert (v = u) by congruence. subst v. reflexivity.
Qed.

Lemma sequence_map2_ok {A B C} (f : A -> B -> result C) (R : A -> B -> C -> Prop) l1 : forall l2,
  (forall i x y, nth_error l1 i = Some x -> nth_error l2 i = Some y -> exists z, f x y = Ok z /\ R x y z) ->
  length l1 = length l2 ->
  exists out, sequence (map2 f l1 l2) = Ok out /\ length out = length l2 /\
    forall i x y, nth_error l1 i = Some x -> nth_error l2 i = Some y -> exists z, nth_error out i = Some z /\ R x y z.
Proof.
  induction l1 as [|x l1 IH]; intros [|y l2] H L; cbn in L; try lia.
  - exists []. split; [reflexivity|]. split; [reflexivity|]. intros [|i] a b; discriminate.
  - destruct (H 0 x y eq_refl eq_refl) as (z & E & r).
    destruct (IH l2) as (out & Eo & Lo & Ho); [intros i a b Ha Hb; apply (H (Datatypes.S i) a b Ha Hb)|lia|].
    exists (z :: out). cbn [map2 sequence]. rewrite E. rewrite Eo. cbn [bind]. split; [reflexivity|]. split; [cbn; lia|].
    intros [|i] a b Ha Hb; cbn [nth_error] in *; [|apply Ho; assumption].
    assert (a = x) by congruence. assert (b = y) by congruence. subst a b. exists z. auto.
Qed.

Lemma sized_row {A} nt n (m : image A) i : sized nt n m -> i < nt -> exists row, nth_error m i = Some row /\ length row = n.
Proof. intros [L R] Hi. destruct (nth_error_lt_Some m i ltac:(lia)) as (row & E). exists row. split; [exact E|apply (R i); exact E]. Qed.

Lemma image_screened c range nt n beta_raw data : 0 < n -> length range = n -> Forall (fun r => ~ r == 0)%Q range ->
  sized nt n beta_raw -> sized nt n data ->
  exists out, screen_data c range beta_raw data = Ok out /\ sized nt n out /\
    forall i b x, nth_error beta_raw i = Some b -> nth_error data i = Some x ->
      exists o, nth_error out i = Some o /\ screened c range b x o.
Proof.
  intros Hn Lr Nz [Lb Rb] [Ld Rd]. unfold screen_data.
  destruct (sequence_map2_ok (screen_profile c range) (fun b x o => screened c range b x o) beta_raw data) as (out & E & Lo & H).
  - intros i b x B X. specialize (Rb i b B). specialize (Rd i x X). apply profile_screened; [lia| | |exact Nz].
    + intros ->. cbn in Rd. lia.
    + intros ->. cbn in Rb. lia.
  - lia.
  - exists out. split; [exact E|]. split; [|exact H]. split; [lia|]. intros i o O.
    destruct (nth_error_lt_Some beta_raw i) as (b & B); [rewrite Lb, <- Ld, <- Lo; apply (nth_error_Some_lt _ _ _ O)|].
    destruct (nth_error_lt_Some data i) as (x & X); [rewrite <- Lo; apply (nth_error_Some_lt _ _ _ O)|].
    destruct (H i b x B X) as (o' & O' & Sc). assert (o' = o) by congruence. subst o'. rewrite (proj1 Sc). apply (Rd i x X).
Qed.

(** ** Sunbeam *)
Lemma sorted_same (l1 : list nat) : forall l2, StronglySorted lt l1 -> StronglySorted lt l2 -> (forall x, In x l1 <-> In x l2) -> l1 = l2.
Proof.
  induction l1 as [|a l1 IH]; intros [|b l2] S1 S2 E; [reflexivity|exfalso; apply (E b); left; reflexivity|exfalso; apply (E a); left; reflexivity|].
  apply StronglySorted_inv in S1. destruct S1 as [S1 F1]. apply StronglySorted_inv in S2. destruct S2 as [S2 F2].
  rewrite Forall_forall in F1, F2.
  assert (a = b).
  { destruct (proj1 (E a) (or_introl eq_refl)) as [X|X]; [congruence|]. destruct (proj2 (E b) (or_introl eq_refl)) as [Y|Y]; [congruence|].
    specialize (F1 b Y). specialize (F2 a X). lia. }
  subst b. f_equal. apply IH; [exact S1|exact S2|]. intros x. split; intros I.
  - destruct (proj1 (E x) (or_intror I)) as [X|X]; [|exact X]. subst x. specialize (F1 a I). lia.
  - destruct (proj2 (E x) (or_intror I)) as [X|X]; [|exact X]. subst x. specialize (F2 a I). lia.
Qed.
Lemma high_gates_unique range gates : high_gates range gates -> gates = where1 (map (fun r => qgt r 10000) range).
Proof.
  intros [Ss H]. apply sorted_same; [exact Ss|apply where1_sorted|]. intros g. rewrite H, where1_in, nth_error_map'.
  destruct (nth_error range g) as [r|]; cbn [option_map].
  - split; [intros (r' & E & L); f_equal; apply FillProofs.qgt_iff; congruence|].
    intros E. exists r. split; [reflexivity|]. apply FillProofs.qgt_iff. congruence.
  - split; [intros (r' & E & _); discriminate E|discriminate].
Qed.
Lemma high_gates_exist range : high_gates range (where1 (map (fun r => qgt r 10000) range)).
Proof.
  split; [apply where1_sorted|]. intros g. rewrite where1_in, nth_error_map'. destruct (nth_error range g) as [r|]; cbn [option_map].
  - split; [intros E; exists r; split; [reflexivity|]; apply FillProofs.qgt_iff; congruence|].
    intros (r' & E & L). f_equal. apply FillProofs.qgt_iff. congruence.
  - split; [discriminate|intros (r' & E & _); discriminate E].
Qed.
Lemma existsb_slice (l : list bool) a s : existsb (fun x => x) (firstn s (skipn a l)) = true <->
  exists k, a <= k /\ k < a + s /\ nth_error l k = Some true.
Proof.
  rewrite existsb_exists. split.
  - intros (x & I & ->). apply In_nth_error in I. destruct I as (k & K). rewrite nth_error_firstn' in K.
    destruct (Nat.ltb_spec k s) as [C|C]; [|discriminate K]. rewrite nth_error_skipn' in K. exists (a + k). split; [lia|]. split; [lia|exact K].
  - intros (k & A & B & K). exists true. split; [|reflexivity]. apply (nth_error_In _ (k - a)). rewrite nth_error_firstn'.
    destruct (Nat.ltb_spec (k - a) s) as [C|C]; [|lia]. rewrite nth_error_skipn'. replace (a + (k - a)) with k by lia. exact K.
Qed.

Lemma valid_profile_iff range row gates : length row = length range -> high_gates range gates ->
  (valid_profile range row = true <-> ~ sunbeam gates row).
Proof.
  intros L Hg. assert (Eg := high_gates_unique _ _ Hg). unfold valid_profile.
  set (mask := map (fun r => qgt r 10000) range) in *.
  assert (Lm : length mask = length row) by (unfold mask; rewrite map_length; lia).
  pose proof (select_rows mask row Lm) as Rw. rewrite <- Eg in Rw.
  set (sel := select mask row) in *. cbv zeta. rewrite map_length.
  assert (Ls : length sel = length gates) by apply Rw.
  rewrite Ls. set (s := length gates / 20).
  set (bits := map (fun e : entry => negb (hides e)) sel).
  assert (Bin : forall b, existsb (fun x => x) (firstn s (skipn (b * s) bits)) = true <-> bin_has_data gates row b).
  { intros b. rewrite existsb_slice. unfold bin_has_data. fold s. split.
    - intros (k & A & B & K). unfold bits in K. rewrite nth_error_map' in K. destruct (nth_error sel k) as [[x h]|] eqn:Sk; [|discriminate K].
      cbn [option_map] in K. destruct (rows_of_back gates row sel k (x, h) Rw Sk) as (g & G & X).
      exists k, g, x. split; [exact A|]. split; [lia|]. split; [exact G|]. rewrite X. unfold hides in K. cbn [snd] in K. destruct h; [discriminate K|reflexivity].
    - intros (k & g & x & A & B & G & X). exists k. split; [exact A|]. split; [lia|].
      destruct (proj2 Rw k g G) as (y & Y & Sk). assert (y = (x, false)) by congruence. subst y.
      unfold bits. rewrite nth_error_map', Sk. reflexivity. }
  set (f := fun b => existsb (fun x => x) (firstn s (skipn (b * s) bits))) in *. change (forall b, f b = true <-> bin_has_data gates row b) in Bin.
  rewrite Nat.ltb_lt. split.
  - intros Lt (bins & Nd & L15 & Hb). assert (I : incl bins (filter f (seq 0 20))).
    { intros b I. destruct (Hb b I) as [B1 B2]. apply filter_In. split; [apply in_seq; lia|apply Bin; exact B2]. }
    apply (NoDup_incl_length Nd) in I. lia.
  - intros N. destruct (Nat.lt_ge_cases (length (filter f (seq 0 20))) 15) as [C|C]; [exact C|]. exfalso. apply N.
    exists (firstn 15 (filter f (seq 0 20))). split; [|split].
    + assert (Nd : NoDup (filter f (seq 0 20))) by (apply NoDup_filter, seq_NoDup).
      clear - Nd. revert Nd. generalize (filter f (seq 0 20)). generalize 15. intros k l. revert k. induction l as [|x l IH]; intros [|k] Nd; cbn [firstn]; try constructor.
      * inversion Nd; subst. intros X. apply H1. clear - X. revert k X. induction l as [|y l IH]; intros [|k] X; cbn [firstn] in X; try contradiction. destruct X as [X|X]; [left; exact X|right; apply (IH k X)].
      * inversion Nd; subst. apply IH. assumption.
    + rewrite firstn_length. lia.
    + intros b I. assert (I' : In b (filter f (seq 0 20))).
      { clear - I. revert I. generalize (filter f (seq 0 20)). generalize 15. intros k l. revert k. induction l as [|y l IH]; intros [|k] X; cbn [firstn] in X; try contradiction. destruct X as [X|X]; [left; exact X|right; apply (IH k X)]. }
      apply filter_In in I'. destruct I' as [I1 I2]. apply in_seq in I1. split; [lia|apply Bin; exact I2].
Qed.

Lemma sunbeam_exact data range beta gates nt : lookup "range" data = Some (CVec range) -> lookup "beta" data = Some (CImage beta) ->
  sized nt (length range) beta -> high_gates range gates -> gates <> [] ->
  exists data' keep, screen_sunbeam data = Ok data' /\ StronglySorted lt keep /\
    (forall i, In i keep <-> exists row, nth_error beta i = Some row /\ ~ sunbeam gates row) /\
    Forall2 (cut_to keep nt) data data'.
Proof.
  intros Er Eb [Lb Rb] Hg Ng. unfold screen_sunbeam. rewrite Er.
  assert (Ex : existsb (fun r => qgt r 10000) range = true).
  { destruct gates as [|g gates]; [congruence|]. destruct (proj1 (proj2 Hg g) (or_introl eq_refl)) as (r & R & G).
    apply existsb_exists. exists r. split; [apply (nth_error_In _ _ R)|apply FillProofs.qgt_iff; exact G]. }
  rewrite Ex, Eb. cbv zeta. set (valid := map (valid_profile range) beta).
  assert (Lv : length valid = nt) by (unfold valid; rewrite map_length; exact Lb).
  eexists. exists (where1 valid). split; [reflexivity|]. split; [apply where1_sorted|]. split.
  - intros i. rewrite where1_in. unfold valid. rewrite nth_error_map'. destruct (nth_error beta i) as [row|] eqn:Ei; cbn [option_map].
    + pose proof (valid_profile_iff range row gates (Rb i row Ei) Hg) as V. split.
      * intros E. exists row. split; [reflexivity|]. apply V. congruence.
      * intros (row' & E' & N). assert (row' = row) by congruence. subst row'. f_equal. apply V. exact N.
    + split; [discriminate|intros (row & X & _); discriminate X].
  - clear Er Eb. induction data as [|[key value] data IH]; cbn [map]; constructor; [|exact IH].
    split; [reflexivity|]. cbn [fst snd]. destruct value as [l|m|x]; (split; [|split; [|split]]).
    + intros l' E K L. assert (l' = l) by congruence. subst l' key.
      exists (select valid l). split; [reflexivity|]. apply select_rows. congruence.
    + intros l' E K. assert (l' = l) by congruence. subst l'. destruct (String.eqb_spec key "time") as [X|X]; [contradiction|reflexivity].
    + intros m E. discriminate E.
    + intros x E. discriminate E.
    + intros l E. discriminate E.
    + intros l E. discriminate E.
    + intros m' E L. assert (m' = m) by congruence. subst m'. exists (select valid m). split; [reflexivity|]. apply select_rows. congruence.
    + intros x E. discriminate E.
    + intros l E. discriminate E.
    + intros l E. discriminate E.
    + intros m E. discriminate E.
    + intros x' E. exact E.
Qed.
Lemma sunbeam_low data range : lookup "range" data = Some (CVec range) -> (forall r, In r range -> r <= 10000)%Q ->
  screen_sunbeam data = Ok data.
Proof.
  intros Er H. unfold screen_sunbeam. rewrite Er. assert (existsb (fun r => qgt r 10000) range = false) as ->; [|reflexivity].
  apply not_true_iff_false. intros E. apply existsb_exists in E. destruct E as (r & I & G). apply FillProofs.qgt_iff in G. specialize (H r I). lra.
Qed.

(** ** Final products *)
Lemma settings_usual old model corrected m1 m2 smoothed :
  usual old model corrected smoothed m1 m2 (ceilo_settings old model corrected m1 m2 smoothed).
Proof.
  unfold usual, ceilo_settings, get_n_negatives.
  cbn [y_limit y_negatives y_smoothed y_keep_negative y_fog y_filter_negatives y_snr y_range_corrected y_model y_noise_min y_noise_smooth_min].
  split; [reflexivity|]. split; [|split; [|auto 12]].
  - intros [->|[->| ->]]; [reflexivity| |]; cbn [String.eqb Ascii.eqb]; rewrite ?orb_true_r; destruct old; reflexivity.
  - intros -> A B. apply String.eqb_neq in A, B. rewrite A, B. reflexivity.
Qed.

Lemma pixel_map2 {A B C} (f : A -> B -> C) m1 m2 i j :
  pixel (map2 (map2 f) m1 m2) i j =
  match pixel m1 i j, pixel m2 i j with Some x, Some y => Some (f x y) | _, _ => None end.
Proof.
  unfold pixel. rewrite nth_error_map2. destruct (nth_error m1 i) as [r1|]; [|reflexivity].
  destruct (nth_error m2 i) as [r2|].
  - rewrite nth_error_map2. reflexivity.
  - destruct (nth_error r1 j); reflexivity.
Qed.
Lemma sized_map2 {A B C} (f : A -> B -> C) nt n m1 m2 : sized nt n m1 -> sized nt n m2 -> sized nt n (map2 (map2 f) m1 m2).
Proof.
  intros [L1 R1] [L2 R2]. split; [rewrite map2_length; lia|]. intros i row E. rewrite nth_error_map2 in E.
  destruct (nth_error m1 i) as [r1|] eqn:E1; [|discriminate E]. destruct (nth_error m2 i) as [r2|] eqn:E2; [|discriminate E].
  assert (row = map2 f r1 r2) by congruence. subst row. rewrite map2_length, (R1 i r1 E1), (R2 i r2 E2). lia.
Qed.

Lemma well_known_iff model : masked_by_smooth model true = true <-> well_known model.
Proof.
  unfold masked_by_smooth. rewrite andb_true_r, existsb_exists. unfold well_known. split.
  - intros (m & I & C). apply contains_iff in C. destruct C as (a & b & E).
    cbn [In] in I. destruct I as [<-|[<-|[<-|[<-|[<-|[<-|[]]]]]]];
    try (exists a, b; eexists; split; [exact E|]; cbn [In]; auto 8; fail).
    exists a, ("x" ++ b)%string, "chm15k". split; [|cbn [In]; auto]. rewrite E. f_equal.
  - intros (a & b & m & E & I). exists m. split; [cbn [In] in *; intuition congruence|].
    apply contains_iff. exists a, b. exact E.
Qed.

Lemma ceilo_beta_ok smooth old model corrected m1 m2 range nt n raw_beta :
  0 < n -> length range = n -> Forall (fun r => ~ r == 0)%Q range -> sized nt n raw_beta ->
  (forall m, sized nt n m -> sized nt n (smooth m)) ->
  exists c1 c2 first limited smoothed beta beta_smooth,
    ceilo_beta smooth old model corrected m1 m2 range raw_beta = Ok (beta, beta_smooth) /\
    usual old model corrected false m1 m2 c1 /\ usual old model corrected true m1 m2 c2 /\
    sized nt n first /\ sized nt n limited /\ sized nt n smoothed /\ sized nt n beta /\ sized nt n beta_smooth /\
    (forall i b, nth_error raw_beta i = Some b -> exists o, nth_error first i = Some o /\ screened c1 range b b o) /\
    (forall i j v h x, pixel first i j = Some (v, h) -> pixel raw_beta i j = Some x ->
       (1 # 1000000 < v -> pixel limited i j = Some (1 # 1000000))%Q /\ (v <= 1 # 1000000 -> pixel limited i j = Some x)%Q) /\
    (forall i j v h y, pixel first i j = Some (v, h) -> pixel (smooth limited) i j = Some y ->
       (1 # 1000000 < v -> pixel smoothed i j = Some v)%Q /\ (v <= 1 # 1000000 -> pixel smoothed i j = Some y)%Q) /\
    (forall i b x, nth_error raw_beta i = Some b -> nth_error smoothed i = Some x ->
       exists o, nth_error beta_smooth i = Some o /\ screened c2 range b x o) /\
    (corrected = true -> well_known model -> forall i j x w h,
       pixel raw_beta i j = Some x -> pixel beta_smooth i j = Some (w, h) ->
       exists h', pixel beta i j = Some (x, h') /\ (h' = false <-> h = false /\ 0 < x)%Q) /\
    (~ (corrected = true /\ well_known model) -> beta = first).
Proof.
  intros Hn Lr Nz Sr Ss. unfold ceilo_beta. cbv zeta.
  set (c1 := ceilo_settings old model corrected m1 m2 false). set (c2 := ceilo_settings old model corrected m1 m2 true).
  destruct (image_screened c1 range nt n raw_beta raw_beta Hn Lr Nz Sr Sr) as (first & E1 & S1 & H1). rewrite E1. cbn [bind].
  unfold calc_beta_smooth. cbv zeta.
  set (limited := map2 (map2 (fun e x => if is_cloud e then 1 # 1000000 else x)) first raw_beta).
  assert (Sl : sized nt n limited) by (apply sized_map2; assumption).
  set (smoothed := map2 (map2 (fun e x => if is_cloud e then raw e else x)) first (smooth limited)).
  assert (Sm : sized nt n smoothed) by (apply sized_map2; [exact S1|apply Ss; exact Sl]).
  destruct (image_screened c2 range nt n raw_beta smoothed Hn Lr Nz Sr Sm) as (bs & E2 & S2 & H2). rewrite E2. cbn [bind].
  exists c1, c2, first, limited, smoothed, (if masked_by_smooth model corrected then final_beta bs raw_beta else first), bs.
  split; [reflexivity|]. split; [apply settings_usual|]. split; [apply settings_usual|]. split; [exact S1|]. split; [exact Sl|]. split; [exact Sm|].
  split. { destruct (masked_by_smooth model corrected); [apply sized_map2; assumption|exact S1]. }
  split; [exact S2|]. split.
  { intros i b B. apply (H1 i b b B B). }
  split.
  { intros i j v h x V X. unfold limited. rewrite pixel_map2, V, X. unfold is_cloud, raw. cbn [fst].
    destruct (qgt v (1 # 1000000)) eqn:G; [apply FillProofs.qgt_iff in G|apply FillProofs.qgt_false in G]; (split; intros; [try reflexivity; lra|try reflexivity; lra]). }
  split.
  { intros i j v h y V Y. unfold smoothed. rewrite pixel_map2, V, Y. unfold is_cloud, raw. cbn [fst].
    destruct (qgt v (1 # 1000000)) eqn:G; [apply FillProofs.qgt_iff in G|apply FillProofs.qgt_false in G]; (split; intros; [try reflexivity; lra|try reflexivity; lra]). }
  split; [exact H2|]. split.
  - intros -> W i j x w h X B. apply well_known_iff in W. rewrite W. unfold final_beta. rewrite pixel_map2, B, X.
    eexists. split; [reflexivity|]. unfold hides. cbn [snd]. rewrite orb_false_iff. split.
    + intros [A C]. split; [exact A|]. destruct (Qlt_le_dec 0 x) as [G|G]; [exact G|]. apply Qle_bool_iff in G. congruence.
    + intros [A C]. split; [exact A|]. apply not_true_iff_false. intros G. apply Qle_bool_iff in G. lra.
  - intros N. destruct (masked_by_smooth model corrected) eqn:W; [|reflexivity]. exfalso. apply N.
    assert (corrected = true) by (unfold masked_by_smooth in W; apply andb_true_iff in W; apply W). subst corrected. split; [reflexivity|].
    apply well_known_iff. exact W.
Qed.

Lemma depolarisation_ok beta x_pol p_pol i j v h x p :
  pixel beta i j = Some (v, h) -> pixel x_pol i j = Some x -> pixel p_pol i j = Some p ->
  exists d h', pixel (cl61_depolarisation beta x_pol p_pol) i j = Some (d, h') /\
    (~ p == 0 -> d * p == x)%Q /\ (p == 0 -> d == x)%Q /\ (h' = false <-> h = false /\ 0 < d /\ d <= 1)%Q.
Proof.
  intros V X P. unfold cl61_depolarisation, screen_depol, set_mask, depolarisation.
  change (map (map ?f) ?m) with (imap f m). rewrite pixel_imap, pixel_map2, V, pixel_map2, X, P. cbn [option_map].
  unfold raw, hides. cbn [fst snd].
  set (d := fst (if Qeq_bool p 0 then (x, true) else ((x / p)%Q, false))).
  exists d, (h || Qle_bool d 0 || qgt d 1). split; [reflexivity|]. split; [|split].
  - intros N. unfold d. destruct (Qeq_bool p 0) eqn:E; [apply Qeq_bool_iff in E; contradiction|]. cbn [fst]. field. exact N.
  - intros Z. unfold d. apply Qeq_bool_iff in Z. rewrite Z. reflexivity.
  - clearbody d. rewrite !orb_false_iff, FillProofs.qgt_false. split.
    + intros [[A B] C]. split; [exact A|]. split; [|exact C]. destruct (Qlt_le_dec 0 d) as [G|G]; [exact G|]. apply Qle_bool_iff in G. congruence.
    + intros [A [B C]]. split; [|exact C]. split; [exact A|]. apply not_true_iff_false. intros G. apply Qle_bool_iff in G. lra.
Qed.
