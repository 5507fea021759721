(** Proofs for the instrument properties. *)
From Verif Require Import Base ArrayModel ArrayProofs GridModel OutputModel OutputProofs
  ConcatModel ConcatProofs InstrumentModel InstrumentSpec.
From Coq Require Import Lqa Qround.
Open Scope nat_scope.
Local Notation length := List.length (only parsing).

Lemma qlt_true : forall a b, qlt a b = true <-> (a < b)%Q.
Proof.
  intros a b. unfold qlt. rewrite negb_true_iff. split.
  - intros H. destruct (Qlt_le_dec a b) as [L|L]; [exact L|].
    apply Qle_bool_iff in L. congruence.
  - intros H. destruct (Qle_bool b a) eqn:E; [|reflexivity].
    apply Qle_bool_iff in E. lra.
Qed.
Lemma qlt_false : forall a b, qlt a b = false <-> (b <= a)%Q.
Proof.
  intros a b. unfold qlt. rewrite negb_false_iff. apply Qle_bool_iff.
Qed.

(** ** Cumulative amounts *)
Lemma loop_length : forall l o y, length (normalize_loop o y l) = length l.
Proof.
  induction l as [|[x|] l IH]; intros o y; simpl; auto.
Qed.
Lemma loop_none : forall l o y i,
  nth_error (normalize_loop o y l) i = Some None <-> nth_error l i = Some None.
Proof.
  induction l as [|[x|] l IH]; intros o y [|i]; simpl; try tauto; try apply IH.
  split; intros H; discriminate.
Qed.
Lemma loop_suffix : forall l o y i x, nth_error l i = Some (Some x) ->
  exists o' z, (z == x + o')%Q /\ nth_error (normalize_loop o y l) i = Some (Some z) /\
    skipn (S i) (normalize_loop o y l) = normalize_loop o' (Some z) (skipn (S i) l).
Proof.
  induction l as [|[a|] l IH]; intros o y [|i] x H; simpl in H; try discriminate.
  - injection H as ->. cbn [normalize_loop].
    set (o' := match y with Some y0 => _ | None => _ end).
    exists o', (x + o')%Q. repeat split.
  - cbn [normalize_loop]. set (o' := match y with Some y0 => _ | None => _ end).
    exact (IH o' (Some (a + o')%Q) i x H).
  - exact (IH o y i x H).
Qed.
Lemma loop_first : forall l o last j y, nth_error l j = Some (Some y) ->
  (forall k, k < j -> nth_error l k = Some None) ->
  nth_error (normalize_loop o (Some last) l) j =
    Some (Some (y + (if qlt (y + o) last then o + last else o))%Q).
Proof.
  induction l as [|[a|] l IH]; intros o last [|j] y H N; simpl in H; try discriminate.
  - injection H as ->. reflexivity.
  - specialize (N 0 ltac:(lia)). discriminate.
  - apply (IH o last j y H). intros k Hk. exact (N (S k) ltac:(lia)).
Qed.
Lemma nth_error_skipn : forall A (l : list A) n i, nth_error (skipn n l) i = nth_error l (n + i).
Proof.
  intros A l n. revert l. induction n as [|n IH]; intros [|a l] i; simpl; auto.
  destruct i; reflexivity.
Qed.

Section Amount.
Variables (x0 : Q) (rest out : list (masked Q)).
Let raw := Some x0 :: rest.
Hypothesis HO : normalize_cumulative_amount raw = Ok out.
Let norm := Some x0 :: normalize_loop 0 (Some x0) rest.
Lemma out_norm : out = map (fun x => sub_masked x (Some x0)) norm.
Proof. injection HO as <-. reflexivity. Qed.
Lemma norm_step : forall i j x y, next_valid raw i j x y ->
  exists o z w, (z == x + o)%Q /\ nth_error norm i = Some (Some z) /\
    nth_error norm j = Some (Some w) /\
    (w == y + (if qlt (y + o) z then o + z else o))%Q.
Proof.
  intros i j x y (Hij & Hi & Hj & Hk).
  assert (S : exists o z, (z == x + o)%Q /\ nth_error norm i = Some (Some z) /\
     skipn (S i) norm = normalize_loop o (Some z) (skipn (S i) raw)).
  { destruct i as [|i].
    - injection Hi as <-. exists 0%Q, x0. split; [ring|]. split; reflexivity.
    - destruct (loop_suffix rest 0 (Some x0) i x Hi) as (o & z & E & N & K).
      exists o, z. auto. }
  destruct S as (o & z & E & N & K). exists o, z.
  exists (y + (if qlt (y + o) z then o + z else o))%Q.
  split; [exact E|]. split; [exact N|]. split; [|reflexivity].
  replace j with (S i + (j - S i)) by lia. rewrite <- nth_error_skipn, K.
  apply loop_first.
  - rewrite nth_error_skipn. replace (S i + (j - S i)) with j by lia. exact Hj.
  - intros k H. rewrite nth_error_skipn. apply Hk. lia.
Qed.
Lemma out_nth : forall i z, nth_error norm i = Some (Some z) ->
  nth_error out i = Some (Some (z - x0)%Q).
Proof. intros i z H. rewrite out_norm, nth_error_map', H. reflexivity. Qed.
Lemma amount_shape : length out = length raw /\
  forall i, nth_error out i = Some None <-> nth_error raw i = Some None.
Proof.
  split.
  - rewrite out_norm, map_length. unfold norm, raw. simpl. rewrite loop_length. reflexivity.
  - intros i. rewrite out_norm, nth_error_map'. destruct i as [|i]; simpl.
    + split; discriminate.
    + rewrite <- (loop_none rest 0 (Some x0) i).
      destruct (nth_error (normalize_loop 0 (Some x0) rest) i) as [[z|]|]; simpl;
        split; congruence.
Qed.
Lemma amount_first : exists z, nth_error out 0 = Some (Some z) /\ (z == 0)%Q.
Proof. exists (x0 - x0)%Q. split; [apply out_nth; reflexivity|ring]. Qed.
Lemma amount_step : forall i j x y, next_valid raw i j x y ->
  exists a b, nth_error out i = Some (Some a) /\ nth_error out j = Some (Some b) /\
    ((x <= y)%Q -> (b - a == y - x)%Q) /\
    ((y < x)%Q -> (b - a == y + (a + x0 - x))%Q).
Proof.
  intros i j x y H. destruct (norm_step i j x y H) as (o & z & w & E & Ni & Nj & W).
  exists (z - x0)%Q, (w - x0)%Q. repeat split; try (apply out_nth; assumption).
  - intros L. assert (F : qlt (y + o) z = false) by (apply qlt_false; lra).
    rewrite F in W. lra.
  - intros L. assert (F : qlt (y + o) z = true) by (apply qlt_true; lra).
    rewrite F in W. lra.
Qed.
(* the last valid value before [j] *)
Lemma last_valid_before : forall (l : list (masked Q)) a j, j <= length l ->
  exists i x, i <= j /\ nth_error (Some a :: l) i = Some (Some x) /\
    forall k, i < k <= j -> nth_error (Some a :: l) k = Some None.
Proof.
  intros l a j. induction j as [|j IH]; intros L.
  - exists 0, a. repeat split; [lia|]. intros k Hk. lia.
  - destruct (nth_error (Some a :: l) (S j)) as [[y|]|] eqn:E.
    + exists (S j), y. repeat split; [lia|exact E|]. intros k Hk. lia.
    + destruct (IH ltac:(lia)) as (i & x & Hi & Hx & Hk). exists i, x.
      split; [lia|]. split; [exact Hx|]. intros k Hk'.
      destruct (Nat.eq_dec k (S j)) as [->|D]; [exact E|]. apply Hk. lia.
    + apply nth_error_None in E. simpl in E. lia.
Qed.
Lemma prev_valid : forall j y, nth_error raw j = Some (Some y) -> 0 < j ->
  exists i x, next_valid raw i j x y.
Proof.
  intros j y Hj L. assert (B : j < length raw) by (apply nth_error_Some_lt in Hj; exact Hj).
  unfold raw in B. simpl in B.
  destruct (last_valid_before rest x0 (j - 1) ltac:(lia)) as (i & x & Hi & Hx & Hk).
  exists i, x. split; [lia|]. split; [exact Hx|]. split; [exact Hj|].
  intros k H. apply Hk. lia.
Qed.
Lemma amount_no_reset : forall j y, nth_error raw j = Some (Some y) ->
  (forall k, k <= j -> ~ reset_at raw k) ->
  exists b, nth_error out j = Some (Some b) /\ (b == y - x0)%Q.
Proof.
  intros j. induction j as [j IH] using lt_wf_ind. intros y Hj N.
  destruct j as [|j].
  - destruct amount_first as (z & Hz & Ez). injection Hj as <-. exists z. split; [exact Hz|lra].
  - destruct (prev_valid (S j) y Hj ltac:(lia)) as (i & x & V).
    destruct (amount_step _ _ _ _ V) as (a & b & Ha & Hb & G & _).
    exists b. split; [exact Hb|].
    assert (L : (x <= y)%Q).
    { destruct (Qlt_le_dec y x) as [L|L]; [|exact L].
      exfalso. apply (N (S j)); [lia|]. exists i, x, y. split; assumption. }
    specialize (G L). destruct V as (Hi & Hx & _).
    destruct (IH i ltac:(lia) x Hx) as (a' & Ha' & E).
    { intros k Hk. apply N. lia. }
    rewrite Ha in Ha'. injection Ha' as <-. lra.
Qed.
Lemma amount_first_reset : forall i j x y, next_valid raw i j x y -> (y < x)%Q ->
  (forall k, k < j -> ~ reset_at raw k) ->
  exists a b, nth_error out i = Some (Some a) /\ nth_error out j = Some (Some b) /\
    (b - a == y)%Q.
Proof.
  intros i j x y V L N. destruct (amount_step _ _ _ _ V) as (a & b & Ha & Hb & _ & G).
  exists a, b. split; [exact Ha|]. split; [exact Hb|]. specialize (G L).
  destruct V as (Hi & Hx & _).
  destruct (amount_no_reset i x Hx) as (a' & Ha' & E). { intros k Hk. apply N. lia. }
  rewrite Ha in Ha'. injection Ha' as <-. lra.
Qed.
Hypothesis HP : forall i x, nth_error raw i = Some (Some x) -> (0 <= x)%Q.
Lemma amount_offset : forall j y, nth_error raw j = Some (Some y) ->
  exists b, nth_error out j = Some (Some b) /\ (y - x0 <= b)%Q.
Proof.
  intros j. induction j as [j IH] using lt_wf_ind. intros y Hj.
  destruct j as [|j].
  - destruct amount_first as (z & Hz & Ez). injection Hj as <-. exists z. split; [exact Hz|lra].
  - destruct (prev_valid (S j) y Hj ltac:(lia)) as (i & x & V).
    destruct (amount_step _ _ _ _ V) as (a & b & Ha & Hb & G & R).
    exists b. split; [exact Hb|]. destruct V as (Hi & Hx & _).
    destruct (IH i ltac:(lia) x Hx) as (a' & Ha' & E).
    rewrite Ha in Ha'. injection Ha' as <-. pose proof (HP _ _ Hx). pose proof (HP _ _ Hj).
    destruct (Qlt_le_dec y x) as [L|L]; [specialize (R L)|specialize (G L)]; lra.
Qed.
Lemma amount_monotone : forall j i a b, i < j -> nth_error out i = Some (Some a) ->
  nth_error out j = Some (Some b) -> (a <= b)%Q.
Proof.
  intros j. induction j as [j IH] using lt_wf_ind. intros i a b Hij Ha Hb.
  assert (R : exists y, nth_error raw j = Some (Some y)).
  { pose proof (nth_error_Some_lt _ _ _ Hb) as B. destruct amount_shape as [A1 A2].
    rewrite A1 in B. destruct (nth_error_lt_Some raw j B) as ([y|] & E); [eauto|].
    apply A2 in E. congruence. }
  destruct R as (y & Hy). destruct (prev_valid j y Hy ltac:(lia)) as (i' & x & V).
  destruct (amount_step _ _ _ _ V) as (a' & b' & Ha' & Hb' & G & R).
  rewrite Hb in Hb'. injection Hb' as <-.
  destruct V as (Hi & Hx & _ & Hk).
  destruct (amount_offset i' x Hx) as (a2 & Ha2 & E2). rewrite Ha' in Ha2. injection Ha2 as <-.
  pose proof (HP _ _ Hy).
  assert (S : (a' <= b)%Q).
  { destruct (Qlt_le_dec y x) as [L|L]; [specialize (R L)|specialize (G L)]; lra. }
  destruct (lt_eq_lt_dec i i') as [[L|L]|L].
  - specialize (IH i' Hi i a a' L Ha Ha'). lra.
  - subst i'. rewrite Ha in Ha'. injection Ha' as <-. exact S.
  - assert (M : nth_error raw i = Some None) by (apply Hk; lia).
    apply (proj2 amount_shape) in M. congruence.
Qed.
End Amount.

Lemma amount_leading_gap : forall rest out,
  normalize_cumulative_amount (None :: rest) = Ok out ->
  length out = S (length rest) /\ forall i x, nth_error out i = Some x -> x = None.
Proof.
  intros rest out H. injection H as <-. split.
  - simpl. rewrite map_length, loop_length. reflexivity.
  - intros [|i] x E; cbn [nth_error] in E; [congruence|].
    rewrite nth_error_map' in E. destruct (nth_error (normalize_loop 0 None rest) i) as [[z|]|];
    simpl in E; congruence.
Qed.

(** ** Angles *)
Lemma injZ_lt : forall a b, (a < b)%Z -> (inject_Z a < inject_Z b)%Q.
Proof. intros a b H. rewrite <- Zlt_Qlt. exact H. Qed.
Lemma injZ_le : forall a b, (a <= b)%Z -> (inject_Z a <= inject_Z b)%Q.
Proof. intros a b H. rewrite <- Zle_Qle. exact H. Qed.
Lemma floor_unique : forall (x : Q) (k : Z),
  (inject_Z k <= x)%Q -> (x < inject_Z (k + 1))%Q -> Qfloor x = k.
Proof.
  intros x k L U. pose proof (Qfloor_le x) as F1. pose proof (Qlt_floor x) as F2.
  assert (A : (inject_Z (Qfloor x) < inject_Z (k + 1))%Q) by lra.
  assert (B : (inject_Z k < inject_Z (Qfloor x + 1))%Q) by lra.
  rewrite <- Zlt_Qlt in A, B. lia.
Qed.
Lemma floordiv_unique : forall (x : Q) (d k : Z), (0 < d)%Z ->
  (inject_Z k * inject_Z d <= x)%Q -> (x < (inject_Z k + 1) * inject_Z d)%Q ->
  qfloordiv x (inject_Z d) = inject_Z k.
Proof.
  intros x d k D L U. unfold qfloordiv. f_equal.
  assert (P : (0 < inject_Z d)%Q) by (apply (injZ_lt 0 d); exact D).
  apply floor_unique.
  - apply Qle_shift_div_l; assumption.
  - apply Qlt_shift_div_r; [exact P|]. rewrite inject_Z_plus. exact U.
Qed.
Lemma qabs_pos : forall x, (0 <= x)%Q -> qabs x = x.
Proof. intros x H. unfold qabs. assert (E : qlt x 0 = false) by (apply qlt_false; lra). now rewrite E. Qed.
Lemma qabs_neg : forall x, (x < 0)%Q -> qabs x = (- x)%Q.
Proof. intros x H. unfold qabs. assert (E : qlt x 0 = true) by (apply qlt_true; lra). now rewrite E. Qed.
Lemma qsign_pos : forall x, (0 < x)%Q -> qsign x = 1%Q.
Proof. intros x H. unfold qsign. assert (E : qlt 0 x = true) by (apply qlt_true; lra). now rewrite E. Qed.
Lemma qsign_neg : forall x, (x < 0)%Q -> qsign x = (-1)%Q.
Proof.
  intros x H. unfold qsign. assert (E : qlt 0 x = false) by (apply qlt_false; lra).
  assert (F : qlt x 0 = true) by (apply qlt_true; lra). now rewrite E, F.
Qed.
Lemma qsign_zero : forall x, (x == 0)%Q -> qsign x = 0%Q.
Proof.
  intros x H. unfold qsign. assert (E : qlt 0 x = false) by (apply qlt_false; lra).
  assert (F : qlt x 0 = false) by (apply qlt_false; lra). now rewrite E, F.
Qed.

Lemma decode_v1_spec : forall ele azi x, tenths azi -> encoded_v1 ele azi x ->
  (fst (decode_v1 x) == ele /\ snd (decode_v1 x) == azi)%Q.
Proof.
  intros ele azi x (k & K & EA) E.
  assert (K0 : (0 <= inject_Z k)%Q) by (apply (injZ_le 0 k); lia).
  assert (K1 : (inject_Z k < 3600)%Q) by (apply (injZ_lt k 3600); lia).
  assert (EA10 : (10 * azi == inject_Z k)%Q) by (rewrite EA; field).
  unfold decode_v1. destruct E as [(E1 & E2 & E3)|[(E1 & E2 & E3)|(E1 & E2 & E3)]].
  - assert (B : Qle_bool 1000000 x = false).
    { destruct (Qle_bool 1000000 x) eqn:B; [|reflexivity]. apply Qle_bool_iff in B. lra. }
    rewrite B. rewrite qabs_pos by lra.
    assert (FD : qfloordiv x 100 = inject_Z k) by (apply (floordiv_unique x 100 k); [lia| |]; rewrite ?inject_Z_opp; change (inject_Z 100) with 100%Q; lra); rewrite FD; clear FD.
    cbn [fst snd]. split; [|rewrite EA; reflexivity].
    assert (EA' : (inject_Z k / 10 == azi)%Q) by (rewrite EA; reflexivity).
    destruct (Qlt_le_dec 0 x) as [P|P].
    + rewrite qsign_pos by exact P. rewrite EA'. lra.
    + rewrite qsign_zero by lra. lra.
  - assert (B : Qle_bool 1000000 x = false).
    { destruct (Qle_bool 1000000 x) eqn:B; [|reflexivity]. apply Qle_bool_iff in B. lra. }
    rewrite B. rewrite qabs_neg by lra.
    assert (FD : qfloordiv (- x) 100 = inject_Z k) by (apply (floordiv_unique (- x) 100 k); [lia| |]; rewrite ?inject_Z_opp; change (inject_Z 100) with 100%Q; lra); rewrite FD; clear FD.
    cbn [fst snd]. split; [|rewrite EA; reflexivity].
    assert (EA' : (inject_Z k / 10 == azi)%Q) by (rewrite EA; reflexivity).
    rewrite qsign_neg by lra. rewrite EA'. lra.
  - assert (B : Qle_bool 1000000 x = true) by (apply Qle_bool_iff; lra).
    rewrite B. rewrite qabs_pos by lra.
    assert (FD : qfloordiv (x - 1000000) 100 = inject_Z k) by (apply (floordiv_unique (x - 1000000) 100 k); [lia| |]; rewrite ?inject_Z_opp; change (inject_Z 100) with 100%Q; lra); rewrite FD; clear FD.
    cbn [fst snd]. split; [|rewrite EA; reflexivity].
    assert (EA' : (inject_Z k / 10 == azi)%Q) by (rewrite EA; reflexivity).
    destruct (Qlt_le_dec 0 (x - 1000000)) as [P|P].
    + rewrite qsign_pos by exact P. rewrite EA'. lra.
    + rewrite qsign_zero by lra. lra.
Qed.

Lemma decode_v2_spec : forall ele azi x, encoded_v2 ele azi x ->
  (fst (decode_v2 x) == ele /\ snd (decode_v2 x) == azi)%Q.
Proof.
  intros ele azi x (e & a & A & EE & EA & E).
  assert (A0 : (0 <= inject_Z a)%Q) by (apply (injZ_le 0 a); lia).
  assert (A1 : (inject_Z a < 36000)%Q) by (apply (injZ_lt a 36000); lia).
  unfold decode_v2. cbn [fst snd]. destruct E as [[P X]|[P X]].
  - assert (P' : (0 <= inject_Z e)%Q) by (apply (injZ_le 0 e); lia).
    rewrite inject_Z_plus, inject_Z_mult in X. change (inject_Z 100000) with 100000%Q in X.
    rewrite (qabs_pos x) by lra.
    assert (FD : qfloordiv x 100000 = inject_Z e) by (apply (floordiv_unique x 100000 e); [lia| |]; rewrite ?inject_Z_opp; change (inject_Z 100000) with 100000%Q; lra); rewrite FD; clear FD.
    assert (S : (qsign x * inject_Z e == inject_Z e)%Q).
    { destruct (Qlt_le_dec 0 x) as [L|L].
      - rewrite qsign_pos by exact L. ring.
      - rewrite qsign_zero by lra. assert (inject_Z e == 0)%Q by lra. rewrite H. reflexivity. }
    assert (V : (qsign x * inject_Z e / 100 == ele)%Q) by (rewrite S, EE; reflexivity).
    split; [exact V|].
    assert (V100 : (100 * (qsign x * inject_Z e / 100) == inject_Z e)%Q).
    { rewrite <- S at 2. field. }
    set (w := (qsign x * inject_Z e / 100)%Q) in *.
    rewrite qabs_pos by lra. rewrite EA.
    assert (F : (x - w * 10000000 == inject_Z a)%Q) by lra. rewrite F. reflexivity.
  - assert (P' : (inject_Z e < 0)%Q) by (apply (injZ_lt e 0); lia).
    assert (Xn : (x == inject_Z e * 100000 - inject_Z a)%Q).
    { rewrite X. unfold Zminus. rewrite inject_Z_plus, inject_Z_mult, inject_Z_opp.
      change (inject_Z 100000) with 100000%Q. ring. }
    assert (P1 : (inject_Z e <= -1)%Q) by (apply (injZ_le e (-1)); lia).
    rewrite (qabs_neg x) by lra.
    assert (FD : qfloordiv (- x) 100000 = inject_Z (- e)) by (apply (floordiv_unique (- x) 100000 (- e)); [lia| |]; rewrite ?inject_Z_opp; change (inject_Z 100000) with 100000%Q; lra); rewrite FD; clear FD.
    rewrite qsign_neg by lra. rewrite inject_Z_opp.
    assert (V : ((-1) * - inject_Z e / 100 == ele)%Q) by (rewrite EE; field).
    split; [exact V|].
    assert (V100 : (100 * ((-1) * - inject_Z e / 100) == inject_Z e)%Q) by field.
    set (w := ((-1) * - inject_Z e / 100)%Q) in *.
    rewrite qabs_neg by lra. rewrite EA.
    assert (F : (- x - - w * 10000000 == inject_Z a)%Q) by lra. rewrite F. reflexivity.
Qed.

(** ** Chirps *)
Lemma repeat_length' : forall A (x : A) n, length (List.repeat x n) = n.
Proof. intros. apply repeat_length. Qed.
Lemma nth_error_repeat' : forall A (x : A) n i, i < n -> nth_error (List.repeat x n) i = Some x.
Proof.
  intros A x n. induction n as [|n IH]; intros [|i] H; simpl; try lia; auto. apply IH. lia.
Qed.
Lemma segments_nonneg : forall starts n,
  StronglySorted Z.le starts -> Forall (fun s => (s <= n)%Z) starts ->
  existsb (fun c => c <? 0)%Z (segment_lengths starts n) = false.
Proof.
  induction starts as [|s [|s' r] IH]; intros n S F.
  - reflexivity.
  - inversion F; subst. cbn [segment_lengths existsb].
    assert (E : (n - s <? 0)%Z = false) by (apply Z.ltb_ge; lia). rewrite E. reflexivity.
  - change (segment_lengths (s :: s' :: r) n) with ((s' - s)%Z :: segment_lengths (s' :: r) n).
    cbn [existsb]. inversion S as [|? ? S' FS]; subst. inversion FS; subst.
    inversion F; subst. rewrite IH by assumption.
    assert (E : (s' - s <? 0)%Z = false) by (apply Z.ltb_ge; lia). rewrite E. reflexivity.
Qed.
Lemma segments_length : forall starts n, length (segment_lengths starts n) = length starts.
Proof.
  induction starts as [|s [|s' r] IH]; intros n; try reflexivity.
  change (segment_lengths (s :: s' :: r) n) with ((s' - s)%Z :: segment_lengths (s' :: r) n).
  cbn [List.length]. rewrite IH. reflexivity.
Qed.
Lemma repeat_equal : forall A (v : list A) counts, length v = length counts ->
  existsb (fun c => c <? 0)%Z counts = false ->
  np_repeat v counts = Ok (List.concat (map2 (fun x c => List.repeat x (Z.to_nat c)) v counts)).
Proof.
  intros A v counts L N. unfold np_repeat. rewrite N.
  destruct counts as [|c [|c' r]].
  - destruct v; [reflexivity|discriminate].
  - destruct v as [|x [|y v]]; try discriminate. reflexivity.
  - apply Nat.eqb_eq in L. rewrite L. reflexivity.
Qed.
(** The expansion of a row, with an arbitrary first start. *)
Lemma expand_row : forall A starts (v : list A) s0 n,
  length v = length starts -> (exists r, starts = s0 :: r) ->
  StronglySorted Z.le starts -> Forall (fun s => (s <= n)%Z) starts ->
  let row := List.concat (map2 (fun x c => List.repeat x (Z.to_nat c)) v (segment_lengths starts n)) in
  length row = Z.to_nat (n - s0) /\
  forall g, (s0 <= g < n)%Z -> exists c x s, nth_error starts c = Some s /\ (s <= g)%Z /\
    (forall c' s', c < c' -> nth_error starts c' = Some s' -> (g < s')%Z) /\
    nth_error v c = Some x /\ nth_error row (Z.to_nat (g - s0)) = Some x.
Proof.
  induction starts as [|s [|s' r] IH]; intros v s0 n L (r0 & R) S F; [discriminate| |].
  - injection R as <- <-. destruct v as [|x [|y v]]; try discriminate.
    cbn [segment_lengths map2 List.concat]. rewrite app_nil_r. split; [apply repeat_length'|].
    intros g G. exists 0, x, s. repeat split; try lia.
    + intros [|c'] s' C E; [lia|]. destruct c'; discriminate.
    + apply nth_error_repeat'. lia.
  - injection R as <- <-. destruct v as [|x v]; [discriminate|].
    change (segment_lengths (s :: s' :: r) n) with ((s' - s)%Z :: segment_lengths (s' :: r) n).
    cbn [map2 List.concat]. inversion S as [|? ? S' FS]; subst. inversion FS as [|? ? S1 FS']; subst.
    inversion F as [|? ? F1 F']; subst. inversion F' as [|? ? F2 F3]; subst.
    destruct (IH v s' n ltac:(injection L; auto) ltac:(eauto) S' F') as [IL IG].
    split.
    + rewrite app_length, repeat_length', IL. lia.
    + intros g G. destruct (Z_lt_le_dec g s') as [C|C].
      * exists 0, x, s. repeat split; try lia.
        -- intros [|[|c']] t Hc E; [lia| |].
           ++ injection E as <-. exact C.
           ++ cbn [nth_error] in E. apply nth_error_In in E.
              inversion S' as [|? ? ? FF]; subst.
              rewrite Forall_forall in FF. specialize (FF _ E). lia.
        -- rewrite nth_error_app1 by (rewrite repeat_length'; lia). apply nth_error_repeat'. lia.
      * destruct (IG g ltac:(lia)) as (c & y & t & E1 & E2 & E3 & E4 & E5).
        exists (Datatypes.S c), y, t. repeat split; auto.
        -- intros [|c'] t' Hc E; [lia|]. apply (E3 c' t'); [lia|exact E].
        -- rewrite nth_error_app2 by (rewrite repeat_length'; lia).
           rewrite repeat_length'. rewrite <- E5. f_equal. lia.
Qed.
Lemma expanded_row : forall A starts (v : list A) n,
  length v = length starts -> good_starts starts 0 n ->
  np_repeat v (segment_lengths starts (Z.of_nat n)) =
    Ok (List.concat (map2 (fun x c => List.repeat x (Z.to_nat c)) v (segment_lengths starts (Z.of_nat n)))) /\
  expanded starts v n
    (List.concat (map2 (fun x c => List.repeat x (Z.to_nat c)) v (segment_lengths starts (Z.of_nat n)))).
Proof.
  intros A starts v n L (R & S & F).
  assert (F' : Forall (fun s => (s <= Z.of_nat n)%Z) starts).
  { eapply Forall_impl; [|exact F]. intros s Hs. simpl in Hs. lia. }
  split.
  - apply repeat_equal; [rewrite segments_length; exact L|]. apply segments_nonneg; assumption.
  - destruct (expand_row A starts v 0%Z (Z.of_nat n) L R S F') as [E1 E2]. split; [lia|].
    intros g G. destruct (E2 (Z.of_nat g) ltac:(lia)) as (c & x & s & A1 & A2 & A3 & A4 & A5).
    exists c, x. split; [split; [exists s; auto|exact A3]|]. split; [exact A4|].
    rewrite <- A5. f_equal. lia.
Qed.
Lemma expand_profile_spec : forall A n (nyq : list (masked A)) starts,
  length (compress nyq) = length (compress starts) -> good_starts (compress starts) 0 n ->
  exists row, expand_profile n nyq starts = Ok row /\ expanded (compress starts) (compress nyq) n row.
Proof.
  intros A n nyq starts L G. destruct (expanded_row A _ _ n L G) as [E X].
  unfold expand_profile. rewrite E. cbn [bind]. eexists. split; [|exact X].
  unfold assign_row. destruct X as [XL _]. apply Nat.eqb_eq in XL. rewrite XL. reflexivity.
Qed.

(** *** All profiles *)
Lemma expand_nyquist_spec : forall A n (nyq : list (list (masked A))) starts,
  length starts <= length nyq ->
  (forall t v s, nth_error nyq t = Some v -> nth_error starts t = Some s ->
     length (compress v) = length (compress s) /\ good_starts (compress s) 0 n) ->
  exists out, expand_nyquist n nyq starts = Ok out /\ length out = length starts /\
    forall t row v s, nth_error out t = Some row -> nth_error nyq t = Some v ->
      nth_error starts t = Some s -> expanded (compress s) (compress v) n row.
Proof.
  intros A n nyq starts. revert nyq. induction starts as [|s starts IH]; intros nyq L H.
  - exists []. split; [reflexivity|]. split; [reflexivity|]. intros [|t]; discriminate.
  - destruct nyq as [|v nyq]; [simpl in L; lia|].
    destruct (H 0 v s eq_refl eq_refl) as [H1 H2].
    destruct (expand_profile_spec A n v s H1 H2) as (row & E & X).
    destruct (IH nyq ltac:(simpl in L; lia)) as (out & E' & L' & X').
    { intros t v' s' Hv Hs. exact (H (S t) v' s' Hv Hs). }
    exists (row :: out). cbn [expand_nyquist]. rewrite E, E'. cbn [bind].
    split; [reflexivity|]. split; [simpl; congruence|].
    intros [|t] r v' s' Hr Hv Hs.
    + cbn [nth_error] in *. congruence.
    + exact (X' t r v' s' Hr Hv Hs).
Qed.

Lemma expand_rejects : forall A n (nyq : list (masked A)) starts s0,
  length (compress nyq) = length (compress starts) ->
  (exists r, compress starts = s0 :: r) -> StronglySorted Z.le (compress starts) ->
  Forall (fun s => (s <= Z.of_nat n)%Z) (compress starts) ->
  (s0 <> 0)%Z -> (Z.of_nat n - s0 <> 1)%Z ->
  expand_profile n nyq starts = Raise ValueError.
Proof.
  intros A n nyq starts s0 L R S F N1 N2. unfold expand_profile.
  rewrite repeat_equal; [|rewrite segments_length; exact L|apply segments_nonneg; assumption].
  cbn [bind]. destruct (expand_row A _ _ s0 _ L R S F) as [E _]. cbv zeta in E.
  assert (B : (s0 <= Z.of_nat n)%Z).
  { destruct R as (r & R). rewrite R in F. inversion F; assumption. }
  set (row := List.concat _) in *. unfold assign_row.
  assert (Q : (length row =? n) = false) by (apply Nat.eqb_neq; lia). rewrite Q.
  destruct row as [|x [|y row]]; try reflexivity. simpl in E. lia.
Qed.

(** *** Folding velocity of a categorize input *)
Lemma traverse_stretch : forall A n (rows : list (list A)),
  Forall (fun r => length r = n) rows -> traverse (stretch n) rows = Ok rows.
Proof.
  intros A n rows H. induction H as [|r rows Hr _ IH]; [reflexivity|].
  cbn [traverse]. unfold stretch at 1. apply Nat.eqb_eq in Hr. rewrite Hr. cbn [bind].
  rewrite IH. reflexivity.
Qed.
Lemma broadcast_spec : forall A (x : nd A) n k,
  shaped x n k -> exists rows, broadcast_to x n k = Ok rows /\ length rows = n /\
    forall t row, nth_error rows t = Some row -> profile_of x n t row /\ length row = k.
Proof.
  intros A x n k H. destruct x as [a|l|rows c]; simpl in H.
  - contradiction.
  - exists (List.repeat l n). unfold broadcast_to, stretch.
    pose proof H as H'. apply Nat.eqb_eq in H. rewrite H. split; [reflexivity|].
    split; [apply repeat_length'|]. intros t row E. apply nth_error_In, repeat_spec in E.
    subst row. split; [reflexivity|exact H'].
  - destruct H as (-> & F & D). unfold broadcast_to. rewrite traverse_stretch by exact F.
    cbn [bind]. unfold stretch. rewrite Forall_forall in F. destruct D as [D|(row & D)].
    + pose proof D as D'. apply Nat.eqb_eq in D. rewrite D. exists rows. split; [reflexivity|].
      split; [exact D'|]. intros t row E. split; [left; split; assumption|].
      apply F. eapply nth_error_In. exact E.
    + subst rows. destruct (length [row] =? n) eqn:E.
      * apply Nat.eqb_eq in E. exists [row]. split; [reflexivity|]. split; [exact E|].
        intros [|[|t]] r' R; try discriminate. injection R as <-.
        split; [right; reflexivity|]. apply F. left. reflexivity.
      * exists (List.repeat row n). split; [reflexivity|]. split; [apply repeat_length'|].
        intros t r' R. apply nth_error_In, repeat_spec in R. subst r'.
        split; [right; reflexivity|]. apply F. left. reflexivity.
Qed.
Lemma map2_app : forall A B C (f : A -> B -> C) l1 l2 m1 m2, length l1 = length m1 ->
  map2 f (l1 ++ l2) (m1 ++ m2) = map2 f l1 m1 ++ map2 f l2 m2.
Proof.
  intros A B C f l1. induction l1 as [|a l1 IH]; intros l2 [|b m1] m2 L; try discriminate.
  - reflexivity.
  - simpl. f_equal. apply IH. injection L; auto.
Qed.
Lemma map2_concat : forall A B C (f : A -> B -> list C) (V : list (list A)) (W : list (list B)),
  Forall2 (fun v w => length v = length w) V W ->
  List.concat (map2 f (List.concat V) (List.concat W)) =
  List.concat (map2 (fun v w => List.concat (map2 f v w)) V W).
Proof.
  intros A B C f V W H. induction H as [|v w V W L _ IH]; [reflexivity|].
  cbn [List.concat map2]. rewrite map2_app by exact L. rewrite concat_app, IH. reflexivity.
Qed.
Lemma concat_lengths : forall A B (V : list (list A)) (W : list (list B)),
  Forall2 (fun v w => length v = length w) V W -> length (List.concat V) = length (List.concat W).
Proof.
  intros A B V W H. induction H as [|v w V W L _ IH]; [reflexivity|].
  simpl. rewrite !app_length. lia.
Qed.
Lemma chunks_concat : forall A c (rows : list (list A)), Forall (fun r => length r = c) rows ->
  chunks (length rows) c (List.concat rows) = rows /\
  length (List.concat rows) = length rows * c.
Proof.
  intros A c rows H. induction H as [|r rows Hr _ [IH1 IH2]]; [split; reflexivity|].
  cbn [List.length chunks List.concat]. split.
  - rewrite firstn_app, skipn_app. replace (c - length r) with 0 by lia.
    rewrite <- Hr at 1 3. rewrite firstn_all, skipn_all. cbn [firstn skipn app].
    rewrite app_nil_r, IH1. reflexivity.
  - rewrite app_length. simpl. lia.
Qed.
Lemma forall2_of_nth : forall A B (P : A -> B -> Prop) l m, length l = length m ->
  (forall i a b, nth_error l i = Some a -> nth_error m i = Some b -> P a b) -> Forall2 P l m.
Proof.
  intros A B P l. induction l as [|a l IH]; intros [|b m] L H; try discriminate; constructor.
  - exact (H 0 a b eq_refl eq_refl).
  - apply IH; [injection L; auto|]. intros i x y Hx Hy. exact (H (S i) x y Hx Hy).
Qed.
Lemma shifted_good : forall row first n, good_starts row first n ->
  normalize_starts row = map (fun s => (s - first)%Z) row /\
  good_starts (map (fun s => (s - first)%Z) row) 0 n.
Proof.
  intros row first n ((r & R) & S & F). split; [subst row; reflexivity|].
  split; [|split].
  - subst row. exists (map (fun s => (s - first)%Z) r). cbn [map]. f_equal. lia.
  - clear R F. induction S as [|a row S IH Fa]; [constructor|]. cbn [map]. constructor; [exact IH|].
    rewrite Forall_forall in *. intros x Hx. apply in_map_iff in Hx. destruct Hx as (y & <- & Hy).
    specialize (Fa y Hy). lia.
  - rewrite Forall_forall in *. intros x Hx. apply in_map_iff in Hx. destruct Hx as (y & <- & Hy).
    specialize (F y Hy). lia.
Qed.
Lemma expand_folding_spec : forall A (fvel : nd A) starts n_time n_height n_seg,
  0 < n_seg -> by_chirp fvel n_height -> shaped fvel n_time n_seg -> shaped starts n_time n_seg ->
  (forall t row, t < n_time -> profile_of starts n_time t row ->
     exists first, (first = 0 \/ first = 1)%Z /\ good_starts row first n_height) ->
  exists out, expand_folding fvel (Some starts) n_time n_height = Ok out /\
    length out = n_time /\
    forall t row, nth_error out t = Some row ->
      exists v s first, profile_of fvel n_time t v /\ profile_of starts n_time t s /\
        (first = 0 \/ first = 1)%Z /\ (exists r, s = first :: r) /\
        expanded (map (fun k => (k - first)%Z) s) v n_height row.
Proof.
  intros A fvel starts n_time n_height n_seg P C SV SS G.
  destruct (broadcast_spec _ _ _ _ SV) as (V & EV & LV & HV).
  destruct (broadcast_spec _ _ _ _ SS) as (W & EW & LW & HW).
  unfold expand_folding.
  assert (C1 : has_shape fvel n_time n_height = false).
  { destruct fvel as [a|l|rows k]; try reflexivity. destruct C as [_ C]. simpl.
    apply Nat.eqb_neq in C. rewrite C. apply andb_false_r. }
  assert (C2 : isscalar fvel = false).
  { destruct fvel as [a|l|rows k]; simpl in *; [contradiction| |]; apply Nat.eqb_neq; tauto. }
  rewrite C1, C2.
  assert (NS : match starts with Nd0 _ => 0 | Nd1 l => List.length l | Nd2 _ k => k end = n_seg).
  { destruct starts as [a|l|rows k]; simpl in SS; [contradiction|exact SS|]. destruct SS as [-> _]. reflexivity. }
  assert (K : forall B (f : nd Z -> B) e, match starts with Nd0 _ => e | s => f s end = f starts).
  { intros B f e. destruct starts; [contradiction|reflexivity|reflexivity]. }
  rewrite (K _ (fun s => _)). rewrite NS, EW. cbn [bind]. rewrite EV. cbn [bind].
  assert (Z0 : (n_seg =? 0) = false) by (apply Nat.eqb_neq; lia). rewrite Z0.
  assert (GW : forall t s, nth_error W t = Some s -> exists first, (first = 0 \/ first = 1)%Z /\
     good_starts s first n_height).
  { intros t s Hs. apply (G t); [|apply (HW t s Hs)].
    rewrite <- LW. eapply nth_error_Some_lt. exact Hs. }
  assert (F : forallb (fun row => (hd 0 row =? 0)%Z || (hd 0 row =? 1)%Z) W = true).
  { apply forallb_forall. intros s Hs. apply In_nth_error in Hs. destruct Hs as (t & Hs).
    destruct (GW t s Hs) as (first & D & (r & ->) & _). simpl.
    destruct D as [->| ->]; reflexivity. }
  rewrite F.
  set (seg := fun row => segment_lengths (normalize_starts row) (Z.of_nat n_height)).
  assert (RR : Forall2 (fun v w => length v = length w) V (map seg W)).
  { apply forall2_of_nth; [rewrite map_length; congruence|]. intros t v w Hv Hw.
    rewrite nth_error_map' in Hw. destruct (nth_error W t) as [s|] eqn:E; [|discriminate].
    injection Hw as <-. unfold seg, normalize_starts. rewrite segments_length, map_length.
    rewrite (proj2 (HV t v Hv)), (proj2 (HW t s E)). reflexivity. }
  rewrite repeat_equal.
  2:{ apply concat_lengths. exact RR. }
  2:{ apply not_true_is_false. intros X. apply existsb_exists in X. destruct X as (c & Hc & Lc).
      apply in_concat in Hc. destruct Hc as (cs & Hcs & Hc). apply in_map_iff in Hcs.
      destruct Hcs as (s & <- & Hs). apply In_nth_error in Hs. destruct Hs as (t & Hs).
      destruct (GW t s Hs) as (first & _ & Gs).
      destruct (shifted_good s first n_height Gs) as [Es (R' & S' & F')].
      unfold seg in Hc. rewrite Es in Hc.
      assert (Q : existsb (fun c => c <? 0)%Z
                    (segment_lengths (map (fun k => (k - first)%Z) s) (Z.of_nat n_height)) = false).
      { apply segments_nonneg; [exact S'|]. eapply Forall_impl; [|exact F']. intros a Ha. simpl in Ha. lia. }
      assert (Q' : existsb (fun c => c <? 0)%Z
                    (segment_lengths (map (fun k => (k - first)%Z) s) (Z.of_nat n_height)) = true)
        by (apply existsb_exists; exists c; auto).
      congruence. }
  cbn [bind]. rewrite map2_concat by exact RR.
  set (rows := map2 _ V (map seg W)).
  assert (RN : forall t row, nth_error rows t = Some row ->
      exists v s first, nth_error V t = Some v /\ nth_error W t = Some s /\
        (first = 0 \/ first = 1)%Z /\ (exists r, s = first :: r) /\
        expanded (map (fun k => (k - first)%Z) s) v n_height row).
  { intros t row Hr. unfold rows in Hr. rewrite nth_error_map2 in Hr.
    destruct (nth_error V t) as [v|] eqn:E1; [|discriminate].
    rewrite nth_error_map' in Hr. destruct (nth_error W t) as [s|] eqn:E2; [|discriminate].
    simpl in Hr. injection Hr as <-. destruct (GW t s E2) as (first & D & Gs).
    exists v, s, first. split; [reflexivity|]. split; [reflexivity|]. split; [exact D|].
    split; [exact (proj1 Gs)|].
    destruct (shifted_good s first n_height Gs) as [Es Gs']. unfold seg. rewrite Es.
    apply expanded_row; [|exact Gs'].
    rewrite map_length, (proj2 (HV t v E1)), (proj2 (HW t s E2)). reflexivity. }
  assert (LR : length rows = n_time).
  { unfold rows. rewrite map2_length, map_length. rewrite LV, LW. apply Nat.min_id. }
  assert (FR : Forall (fun r => length r = n_height) rows).
  { apply Forall_forall. intros r Hr. apply In_nth_error in Hr. destruct Hr as (t & Hr).
    destruct (RN t r Hr) as (v & s & first & _ & _ & _ & _ & X). exact (proj1 X). }
  destruct (chunks_concat _ n_height rows FR) as [CC CL].
  unfold reshape. rewrite CL, LR, Nat.eqb_refl. rewrite <- LR, CC. exists rows.
  split; [reflexivity|]. split; [reflexivity|]. intros t row Hr.
  destruct (RN t row Hr) as (v & s & first & E1 & E2 & D & R & X).
  exists v, s, first. rewrite LR. split; [apply (HV t v E1)|]. split; [apply (HW t s E2)|].
  split; [exact D|]. split; [exact R|exact X].
Qed.
Lemma expand_folding_same : forall A (rows : list (list A)) starts n_time n_height,
  length rows = n_time -> Forall (fun r => length r = n_height) rows ->
  expand_folding (Nd2 rows n_height) starts n_time n_height = Ok rows.
Proof.
  intros A rows starts n_time n_height L F. unfold expand_folding.
  assert (E : has_shape (Nd2 rows n_height) n_time n_height = true).
  { simpl. rewrite Nat.eqb_refl. apply Nat.eqb_eq in L. rewrite L. reflexivity. }
  rewrite E. unfold broadcast_to. rewrite traverse_stretch by exact F. cbn [bind].
  unfold stretch. apply Nat.eqb_eq in L. rewrite L. reflexivity.
Qed.
Lemma expand_folding_scalar : forall A (a : A) fvel starts n_time n_height,
  fvel = Nd0 a \/ fvel = Nd1 [a] ->
  expand_folding fvel starts n_time n_height = Ok (List.repeat (List.repeat a n_height) n_time).
Proof.
  intros A a fvel starts n_time n_height [->| ->]; [reflexivity|].
  unfold expand_folding. cbn [has_shape isscalar List.length Nat.eqb]. unfold broadcast_to, stretch.
  cbn [List.length]. destruct (1 =? n_height) eqn:E; [|reflexivity].
  apply Nat.eqb_eq in E. subst. reflexivity.
Qed.

(** ** Disdrometer bins *)
Lemma linspace_length : forall a b n, length (linspace a b n) = n.
Proof. intros a b [|[|n]]; try reflexivity. unfold linspace. rewrite map_length, seq_length. reflexivity. Qed.
Lemma linspace_nth : forall a sp n k, k < n ->
  exists x, nth_error (linspace a (a + (inject_Z (Z.of_nat n) - 1) * sp) n) k = Some x /\
    (x == a + inject_Z (Z.of_nat k) * sp)%Q.
Proof.
  intros a sp [|[|n]] k K; [lia| |].
  - assert (k = 0) by lia. subst. exists a. split; [reflexivity|]. simpl. ring.
  - unfold linspace. set (m := S (S n)) in *.
    rewrite nth_error_map'. rewrite (nth_error_nth' _ 0) by (rewrite seq_length; exact K).
    rewrite seq_nth by exact K. cbn [option_map Nat.add]. eexists. split; [reflexivity|].
    assert (E : (inject_Z (Z.of_nat m) - 1 == inject_Z (Z.of_nat (m - 1)))%Q).
    { replace (Z.of_nat m) with (Z.of_nat (m - 1) + 1)%Z by lia. rewrite inject_Z_plus. ring. }
    assert (N : ~ (inject_Z (Z.of_nat (m - 1)) == 0)%Q).
    { intros Z. assert (L : (0 < inject_Z (Z.of_nat (m - 1)))%Q) by (apply (injZ_lt 0); lia). lra. }
    rewrite E. field. exact N.
Qed.
Lemma bin_loop_spec : forall spreads n_values start l,
  bin_loop spreads n_values start = Ok l ->
  length l = length (bin_widths spreads n_values) /\
  forall i w, nth_error (bin_widths spreads n_values) i = Some w ->
    exists lo up mid, nth_error l i = Some (lo, up, mid) /\ (up == lo + w)%Q /\
      (mid == (lo + up) / 2)%Q /\ (i = 0 -> (lo == start)%Q) /\
      (forall t, nth_error l (S i) = Some t -> (fst (fst t) == up)%Q).
Proof.
  induction spreads as [|sp spreads IH]; intros [|n n_values] start l H; cbn [bin_loop] in H;
    try discriminate.
  - injection H as <-. split; [reflexivity|]. intros [|i]; discriminate.
  - set (lower := linspace start _ n) in *.
    set (upper := map (fun x => (x + sp)%Q) lower) in *.
    destruct (rev upper) as [|u ru] eqn:R; [discriminate|].
    destruct (bin_loop spreads n_values u) as [rest|e] eqn:B; [|discriminate].
    cbn [bind] in H. injection H as <-.
    destruct (IH n_values u rest B) as [IL IN]. clear IH.
    assert (LL : length lower = n) by apply linspace_length.
    assert (LU : length upper = n) by (unfold upper; rewrite map_length; exact LL).
    set (cls := map2 (fun l u => (l, u, ((l + u) / 2)%Q)) lower upper).
    assert (LC : length cls = n) by (unfold cls; rewrite map2_length, LL, LU; apply Nat.min_id).
    assert (N0 : 0 < n).
    { assert (length (rev upper) = n) by (rewrite rev_length; exact LU). rewrite R in H. simpl in H. lia. }
    assert (CN : forall i, i < n -> exists lo, nth_error cls i = Some (lo, (lo + sp)%Q, ((lo + (lo + sp)) / 2)%Q)
       /\ (lo == start + inject_Z (Z.of_nat i) * sp)%Q).
    { intros i Hi. destruct (linspace_nth start sp n i Hi) as (x & Ex & Vx). fold lower in Ex.
      exists x. split; [|exact Vx]. unfold cls. rewrite nth_error_map2, Ex. unfold upper.
      rewrite nth_error_map', Ex. reflexivity. }
    assert (UL : (u == start + inject_Z (Z.of_nat n) * sp)%Q).
    { assert (U0 : nth_error (rev upper) 0 = Some u) by (rewrite R; reflexivity).
      rewrite nth_error_rev in U0 by lia.
      rewrite LU in U0. unfold upper in U0. rewrite nth_error_map' in U0.
      destruct (linspace_nth start sp n (n - 1 - 0) ltac:(lia)) as (x & Ex & Vx). fold lower in Ex.
      rewrite Ex in U0. injection U0 as <-. rewrite Vx.
      replace (Z.of_nat n) with (Z.of_nat (n - 1 - 0) + 1)%Z by lia. rewrite inject_Z_plus. ring. }
    cbn [bin_widths]. split.
    { rewrite !app_length, repeat_length, LC, IL. reflexivity. }
    intros i w Hw. destruct (Nat.lt_ge_cases i n) as [C|C].
    + rewrite nth_error_app1 in Hw by (rewrite repeat_length; exact C).
      rewrite nth_error_repeat' in Hw by exact C. injection Hw as <-.
      destruct (CN i C) as (lo & E & V).
      exists lo, (lo + sp)%Q, ((lo + (lo + sp)) / 2)%Q.
      rewrite nth_error_app1 by (rewrite LC; exact C).
      split; [exact E|]. split; [reflexivity|]. split; [reflexivity|]. split.
      * intros ->. rewrite V. simpl. ring.
      * intros t Ht. destruct (Nat.lt_ge_cases (S i) n) as [C'|C'].
        -- rewrite nth_error_app1 in Ht by (rewrite LC; exact C').
           destruct (CN (S i) C') as (lo' & E' & V'). rewrite E' in Ht. injection Ht as <-.
           cbn [fst]. rewrite V', V. rewrite Nat2Z.inj_succ. unfold Z.succ. rewrite inject_Z_plus. ring.
        -- rewrite nth_error_app2 in Ht by (rewrite LC; exact C'). rewrite LC in Ht.
           replace (S i - n) with 0 in Ht by lia.
           assert (WE : exists w', nth_error (bin_widths spreads n_values) 0 = Some w').
           { apply nth_error_lt_Some. rewrite <- IL. eapply nth_error_Some_lt. exact Ht. }
           destruct WE as (w' & Hw'). destruct (IN 0 w' Hw') as (lo' & up' & mid' & E' & _ & _ & S' & _).
           rewrite E' in Ht. injection Ht as <-. cbn [fst]. rewrite (S' eq_refl), UL, V.
           replace (Z.of_nat n) with (Z.of_nat i + 1)%Z by lia. rewrite inject_Z_plus. ring.
    + rewrite nth_error_app2 in Hw by (rewrite repeat_length; exact C). rewrite repeat_length in Hw.
      destruct (IN (i - n) w Hw) as (lo & up & mid & E & V1 & V2 & _ & V4).
      exists lo, up, mid. rewrite nth_error_app2 by (rewrite LC; exact C). rewrite LC.
      split; [exact E|]. split; [exact V1|]. split; [exact V2|]. split; [intros ->; lia|].
      intros t Ht. rewrite nth_error_app2 in Ht by (rewrite LC; lia). rewrite LC in Ht.
      apply V4. rewrite <- Ht. f_equal. lia.
Qed.
Lemma bin_loop_ok : forall spreads n_values start,
  length spreads = length n_values -> Forall (fun n => 0 < n) n_values ->
  exists l, bin_loop spreads n_values start = Ok l.
Proof.
  induction spreads as [|sp spreads IH]; intros [|n n_values] start L F; try discriminate.
  - exists []. reflexivity.
  - inversion F; subst. cbn [bin_loop]. set (upper := map _ _).
    assert (LU : length (rev upper) = n).
    { unfold upper. rewrite rev_length, map_length. apply linspace_length. }
    destruct (rev upper) as [|u ru]; [simpl in LU; lia|].
    destruct (IH n_values u ltac:(injection L; auto) ltac:(assumption)) as (l & E).
    rewrite E. eexists. reflexivity.
Qed.
Lemma bin_loop_fails : forall spreads n_values start,
  length spreads <> length n_values \/ Exists (fun n => n = 0) n_values ->
  exists e, bin_loop spreads n_values start = Raise e.
Proof.
  induction spreads as [|sp spreads IH]; intros [|n n_values] start H.
  - destruct H as [H|H]; [simpl in H; lia|inversion H].
  - eexists. reflexivity.
  - eexists. reflexivity.
  - cbn [bin_loop]. set (upper := map _ _).
    assert (LU : length (rev upper) = n).
    { unfold upper. rewrite rev_length, map_length. apply linspace_length. }
    destruct (rev upper) as [|u ru]; [eexists; reflexivity|].
    destruct (IH n_values u) as (e & E).
    { destruct H as [H|H]; [left; simpl in H; lia|].
      inversion H; subst; [simpl in *; lia|right; assumption]. }
    rewrite E. eexists. reflexivity.
Qed.
Lemma create_vectors_spec : forall n_values spreads start b,
  create_vectors n_values spreads start = Ok b ->
  length (b_bounds b) = length (bin_widths spreads n_values) /\
  length (b_mid b) = length (bin_widths spreads n_values) /\
  length (b_spread b) = length (bin_widths spreads n_values) /\
  forall i w, nth_error (bin_widths spreads n_values) i = Some w ->
    exists lo up mid s, nth_error (b_bounds b) i = Some (lo, up) /\
      nth_error (b_mid b) i = Some mid /\ nth_error (b_spread b) i = Some s /\
      (up == lo + w)%Q /\ (mid == (lo + up) / 2)%Q /\ (s == w)%Q /\ (i = 0 -> (lo == start)%Q) /\
      (forall lo' up', nth_error (b_bounds b) (S i) = Some (lo', up') -> (lo' == up)%Q).
Proof.
  intros n_values spreads start b H. unfold create_vectors in H.
  destruct (bin_loop spreads n_values start) as [l|e] eqn:E; [|discriminate].
  cbn [bind] in H. injection H as <-. cbn [b_bounds b_mid b_spread].
  destruct (bin_loop_spec _ _ _ _ E) as [L N]. rewrite !map_length.
  repeat (split; [exact L|]). intros i w Hw.
  destruct (N i w Hw) as (lo & up & mid & E1 & V1 & V2 & V3 & V4).
  exists lo, up, mid, (up - lo)%Q. rewrite !nth_error_map', E1. cbn [option_map fst snd].
  repeat (split; [try reflexivity; try assumption|]).
  - rewrite V1. ring.
  - intros lo' up' Hn. destruct (nth_error l (S i)) as [t|] eqn:T; [|discriminate].
    simpl in Hn. injection Hn as Hn. rewrite <- (V4 t eq_refl). rewrite Hn. reflexivity.
Qed.

(** ** Radar band *)
Lemma band_spec : forall f b, get_wl_band f = Ok b <->
  match b with
  | BandX => 8 < f /\ f < 12 | BandKa => 27 < f /\ f < 40 | BandW => 75 < f /\ f < 110
  end%Q.
Proof.
  intros f b. unfold get_wl_band.
  destruct (qlt 8 f) eqn:A1; [apply qlt_true in A1|apply qlt_false in A1];
  (destruct (qlt f 12) eqn:A2; [apply qlt_true in A2|apply qlt_false in A2]);
  (destruct (qlt 27 f) eqn:B1; [apply qlt_true in B1|apply qlt_false in B1]);
  (destruct (qlt f 40) eqn:B2; [apply qlt_true in B2|apply qlt_false in B2]);
  (destruct (qlt 75 f) eqn:C1; [apply qlt_true in C1|apply qlt_false in C1]);
  (destruct (qlt f 110) eqn:C2; [apply qlt_true in C2|apply qlt_false in C2]);
  destruct b; cbn [andb]; split; intros H; try discriminate; try (split; lra); try reflexivity;
  try (destruct H; lra).
Qed.
Lemma band_error : forall f e, get_wl_band f = Raise e -> e = ValueError.
Proof.
  intros f e. unfold get_wl_band. repeat (destruct (_ && _)%bool; [discriminate|]). congruence.
Qed.

(** ** Rebinning a radar *)
Section RebinProofs.
Variable A : Type.
Variables rebin_db rebin_mean rebin_std : A -> A.
Variable rebin_velocity : A -> A -> result A.
Variable max_folding : A -> A.
Variables prf_to_folding expand : A -> result A.
Let run := open_and_rebin A rebin_db rebin_mean rebin_std rebin_velocity max_folding prf_to_folding expand.
Lemma rebin_nyquist : forall file z v n f v',
  lookup "Zh" file = Some z -> lookup "v" file = Some v -> lookup "nyquist_velocity" file = Some n ->
  expand n = Ok f -> rebin_velocity f v = Ok v' ->
  exists out, run file = Ok out /\
    lookup "Z" out = Some (rebin_db z) /\ lookup "v" out = Some v' /\
    lookup "v_sigma" out = Some (rebin_std v) /\
    lookup "nyquist_velocity" out = Some (max_folding f) /\
    (forall key, In key ["ldr"; "sldr"]%string -> lookup key out = option_map rebin_db (lookup key file)) /\
    (forall key, In key ["width"; "rainfall_rate"]%string ->
       lookup key out = option_map rebin_mean (lookup key file)) /\
    (forall key, ~ In key ["Z"; "v"; "v_sigma"; "nyquist_velocity"; "ldr"; "sldr"; "width"; "rainfall_rate"]%string ->
       lookup key out = None).
Proof.
  intros file z v n f v' Ez Ev En Ef Ew. unfold run, open_and_rebin, init_data, getvar.
  rewrite Ez, Ev. cbn [bind fold_left]. rewrite Ev, En.
  assert (F : folding A prf_to_folding expand file = Ok f) by (unfold folding; rewrite En; exact Ef).
  destruct (lookup "ldr" file) as [l|] eqn:El; destruct (lookup "width" file) as [w|] eqn:Ewd;
  destruct (lookup "sldr" file) as [s|] eqn:Es; destruct (lookup "rainfall_rate" file) as [r|] eqn:Er;
  unfold rebin_to_grid; cbn -[folding]; unfold rebin_velocity_step; rewrite F; cbn -[folding];
  rewrite Ew; cbn -[folding]; eexists; (split; [reflexivity|]);
  repeat (split; [first [reflexivity | intros key [<-|[<-|[]]]; rewrite ?El, ?Es, ?Ewd, ?Er; reflexivity]|]);
  intros key N; apply lookup_none; intros I; apply N; cbn in I |- *; intuition congruence.
Qed.
Lemma rebin_no_nyquist : forall file z v,
  lookup "Zh" file = Some z -> lookup "v" file = Some v -> lookup "nyquist_velocity" file = None ->
  exists e, run file = Raise e /\
    forall p f v', lookup "prf" file = Some p -> bind (prf_to_folding p) expand = Ok f ->
      rebin_velocity f v = Ok v' -> e = RuntimeError.
Proof.
  intros file z v Ez Ev En. unfold run, open_and_rebin, init_data, getvar.
  rewrite Ez, Ev. cbn [bind fold_left]. rewrite Ev, En.
  assert (F : forall p f, lookup "prf" file = Some p -> bind (prf_to_folding p) expand = Ok f ->
    folding A prf_to_folding expand file = Ok f).
  { intros p f Hp Hf. unfold folding. rewrite En, Hp. exact Hf. }
  destruct (lookup "ldr" file) as [l|]; destruct (lookup "width" file) as [w|];
  destruct (lookup "sldr" file) as [s|]; destruct (lookup "rainfall_rate" file) as [r|];
  unfold rebin_to_grid; cbn -[folding]; unfold rebin_velocity_step;
  (destruct (folding A prf_to_folding expand file) as [f|e]; cbn -[folding];
   [destruct (rebin_velocity f v) as [v'|e] eqn:Ew; cbn -[folding]|]; eexists;
   (split; [reflexivity|]); intros p f' w' Hp Hf Hv; try reflexivity;
   specialize (F p f' Hp Hf); congruence).
Qed.
Lemma rebin_no_data : forall file, lookup "Zh" file = None \/ lookup "v" file = None ->
  run file = Raise KeyError.
Proof.
  intros file H. unfold run, open_and_rebin, init_data, getvar.
  destruct H as [H|H]; rewrite H; [reflexivity|].
  destruct (lookup "Zh" file); reflexivity.
Qed.
End RebinProofs.
