(** Proofs for the drizzle solver. *)
From Coq Require Import Sorted.
From Verif Require Import Base DrizzleModel DrizzleSpec.
Open Scope nat_scope.

Lemma bisect_spec : forall D (lt : D -> D -> bool) a x last fuel lo hi,
  last <= length a -> lo <= hi -> hi <= last -> hi - lo <= fuel ->
  (lo = 0 \/ exists y, nth_error a (lo - 1) = Some y /\ lt y x = true) ->
  (hi = last \/ exists y, nth_error a hi = Some y /\ lt y x = false) ->
  exists i, bisect lt a x fuel lo hi = Ok i /\ crossing lt a x last i.
Proof.
  intros D lt a x last fuel. induction fuel as [|fuel IH]; intros lo hi La L H F A B; cbn [bisect].
  - exists lo. split; [reflexivity|]. assert (lo = hi) by lia. subst. split; [exact H|]. auto.
  - destruct (Nat.ltb_spec lo hi) as [C|C].
    + set (mid := (lo + hi) / 2).
      assert (M : lo <= mid < hi).
      { unfold mid. split; [apply Nat.div_le_lower_bound; lia|apply Nat.div_lt_upper_bound; lia]. }
      destruct (nth_error_lt_Some a mid ltac:(lia)) as (y & Y). rewrite Y.
      destruct (lt y x) eqn:E.
      * apply IH; try lia; auto. right. exists y. replace (S mid - 1) with mid by lia. auto.
      * apply IH; try lia; auto. right. exists y. auto.
    + exists lo. split; [reflexivity|]. assert (lo = hi) by lia. subst. split; [exact H|]. auto.
Qed.
Lemma bisect_left_spec : forall D (lt : D -> D -> bool) a x last, last <= length a ->
  exists i, bisect_left lt a x last = Ok i /\ crossing lt a x last i.
Proof. intros. apply bisect_spec; try lia; auto. Qed.

(** With sorted values the crossing is the usual position. *)
Lemma crossing_member : forall D (lt : D -> D -> bool) a k x last i,
  (forall p q y z, p < q -> nth_error a p = Some y -> nth_error a q = Some z -> lt y z = true /\ lt z y = false) ->
  (forall y, lt y y = false) -> last <= length a ->
  nth_error a k = Some x -> k <= last -> crossing lt a x last i -> i = k.
Proof.
  intros D lt a k x last i S Irr La Hk K (I & A & B).
  destruct (Nat.lt_trichotomy i k) as [C|[C|C]]; [|exact C|]; exfalso.
  - destruct B as [B|(y & Y & B)]; [lia|]. destruct (S _ _ _ _ C Y Hk). congruence.
  - destruct A as [A|(y & Y & A)]; [lia|].
    destruct (Nat.eq_dec (i - 1) k) as [E|E].
    + subst k. assert (y = x) by congruence. subst. rewrite Irr in A. discriminate.
    + destruct (S k (i - 1) x y ltac:(lia) Hk Y). congruence.
Qed.
Lemma lut_index_range : forall D (lt : D -> D -> bool) axis x, 0 < length axis ->
  exists i, lut_index lt axis x = Ok i /\ i < length axis.
Proof.
  intros D lt axis x P. unfold lut_index, searchsorted.
  destruct (bisect_spec D lt axis x (length axis) (length axis) 0 (length axis)) as (i & E & I & _); try lia; auto.
  rewrite E. cbn [bind]. eexists. split; [reflexivity|].
  destruct (Nat.leb_spec (length axis) i); lia.
Qed.
Lemma lut_index_member : forall D (lt : D -> D -> bool) axis k x,
  (forall p q y z, p < q -> nth_error axis p = Some y -> nth_error axis q = Some z -> lt y z = true /\ lt z y = false) ->
  (forall y, lt y y = false) -> nth_error axis k = Some x -> lut_index lt axis x = Ok k.
Proof.
  intros D lt axis k x S Irr Hk. unfold lut_index, searchsorted.
  destruct (bisect_spec D lt axis x (length axis) (length axis) 0 (length axis)) as (i & E & I); try lia; auto.
  rewrite E. cbn [bind]. pose proof (nth_error_Some_lt _ _ _ Hk) as K.
  assert (i = k) by (apply (crossing_member D lt axis k x (length axis)); auto; lia). subst i.
  f_equal. destruct (Nat.leb_spec (length axis) k); lia.
Qed.

Section SolverProofs.
Variable D : Type.
Variable lt : D -> D -> bool.
Variable opp : D -> D.
Variable mul : D -> D -> D.
Variables zero one k_init : D.
Variable calc_dia : D -> D -> D -> D -> D.
Variable converged : D -> D -> bool.
Variable factor : D -> D -> nat -> D.
Variable lut : table D.
Variables n_widths n_dia : nat.
Hypothesis HT : good_table lut n_widths n_dia.

Lemma column_spec : forall A (m : list (list A)) r c j, rectangular m r c -> j < c ->
  exists col, column m j = Ok col /\ length col = length m /\
    forall k row, nth_error m k = Some row -> nth_error row j = nth_error col k.
Proof.
  intros A m r c j [_ F] J. unfold column. induction F as [|row m R _ IH].
  - exists []. split; [reflexivity|]. split; [reflexivity|]. intros [|k]; discriminate.
  - destruct IH as (col & E & L & N). destruct (nth_error_lt_Some row j ltac:(lia)) as (x & X).
    exists (x :: col). cbn [mapr]. unfold getitem at 1. rewrite X. cbn [bind]. rewrite E. cbn [bind].
    split; [reflexivity|]. split; [simpl; congruence|]. intros [|k] row' H.
    + injection H as <-. exact X.
    + apply N, H.
Qed.
Lemma getitem2_pixel : forall A (m : list (list A)) r c i j, rectangular m r c -> i < r -> j < c ->
  exists x, getitem2 m i j = Ok x /\ pixel m i j = Some x.
Proof.
  intros A m r c i j [L F] I J. unfold getitem2, getitem, pixel.
  destruct (nth_error_lt_Some m i ltac:(lia)) as (row & R). rewrite R. cbn [bind].
  rewrite Forall_forall in F. specialize (F row (nth_error_In _ _ R)).
  destruct (nth_error_lt_Some row j ltac:(lia)) as (x & X). rewrite X. eauto.
Qed.
Let iter := iteration lt opp calc_dia lut.
Lemma one_iteration : forall r w dia, exists ind mu ray s,
  find_lut_indices D lt opp lut dia w = Ok ind /\ getitem (lut_mu D lut) (fst ind) = Ok mu /\
  getitem2 (lut_ray D lut) (fst ind) (snd ind) = Ok ray /\
  getitem2 (lut_S D lut) (fst ind) (snd ind) = Ok s /\
  iter r w dia (calc_dia r mu ray s) mu s.
Proof.
  intros r w dia. destruct HT as (P1 & P2 & L1 & L2 & RW & RR & RS).
  unfold find_lut_indices.
  destruct (bisect_left_spec D lt (lut_Do D lut) dia (length (lut_Do D lut) - 1) ltac:(lia)) as (j & Ej & Cj).
  rewrite Ej. cbn [bind]. assert (J : j < n_dia) by (destruct Cj; lia).
  destruct (column_spec _ _ _ _ j RW J) as (col & Ec & Lc & Nc). rewrite Ec. cbn [bind].
  destruct (bisect_left_spec D lt col (opp w) (length (width_lut D lut) - 1) ltac:(lia)) as (i & Ei & Ci).
  rewrite Ei. cbn [bind]. assert (I : i < n_widths) by (destruct Ci; destruct RW; lia).
  destruct (nth_error_lt_Some (lut_mu D lut) i ltac:(lia)) as (mu & M).
  destruct (getitem2_pixel _ _ _ _ i j RR I J) as (ray & G1 & X1).
  destruct (getitem2_pixel _ _ _ _ i j RS I J) as (s & G2 & X2).
  exists (i, j), mu, ray, s. cbn [fst snd]. unfold getitem at 1. rewrite M.
  split; [reflexivity|]. split; [reflexivity|]. split; [exact G1|]. split; [exact G2|].
  exists i, j, ray, col. repeat (split; [assumption|]). reflexivity.
Qed.
Let its := iterates lt opp calc_dia converged lut.
Let stp := stops lt opp calc_dia converged lut.
Lemma pixel_loop_spec : forall n r w dia res, 0 < n ->
  exists d mu s dia', pixel_loop D lt opp calc_dia converged lut n r w dia res = Ok (d, mu, s, dia') /\
    exists k, 1 <= k <= n /\ its r w k dia d mu s /\ (k = n \/ stp r w k dia d mu s).
Proof.
  induction n as [|n IH]; intros r w dia res P; [lia|]. cbn [pixel_loop].
  destruct (one_iteration r w dia) as (ind & mu & ray & s & E1 & E2 & E3 & E4 & I).
  rewrite E1. cbn [bind]. rewrite E2. cbn [bind]. rewrite E3. cbn [bind]. rewrite E4. cbn [bind].
  cbv zeta. set (new := calc_dia r mu ray s) in *.
  destruct (converged new dia) eqn:C.
  - exists new, mu, s, dia. split; [reflexivity|]. exists 1. split; [lia|].
    split; [constructor; exact I|]. right. constructor; assumption.
  - destruct n as [|n].
    + cbn [pixel_loop]. exists new, mu, s, new. split; [reflexivity|]. exists 1. split; [lia|].
      split; [constructor; exact I|]. left. reflexivity.
    + destruct (IH r w new (new, mu, s) ltac:(lia)) as (d & mu' & s' & dia' & E & k & K & T & St).
      exists d, mu', s', dia'. split; [exact E|]. exists (S k). split; [lia|].
      split; [eapply iter_more; eassumption|]. destruct St as [->|St]; [left; reflexivity|].
      right. eapply stop_later; eassumption.
Qed.
(** The result does not depend on what the pixel held before. *)
Lemma pixel_loop_res : forall n r w dia res res', 0 < n ->
  pixel_loop D lt opp calc_dia converged lut n r w dia res =
  pixel_loop D lt opp calc_dia converged lut n r w dia res'.
Proof. intros [|n] r w dia res res' P; [lia|]. reflexivity. Qed.

Section Field.
Variables n_time n_height : nat.
Variable drizzle : nat -> nat -> bool.
Variables ratio beta width_ht : nat -> nat -> D.
Let solve := solve_drizzle D lt opp mul zero one k_init calc_dia converged factor lut
  n_time n_height drizzle ratio beta width_ht.
Let sloop := solve_loop D lt opp mul calc_dia converged factor lut ratio beta width_ht.
Let spixel := solve_pixel D lt opp mul calc_dia converged factor lut ratio beta width_ht.
Let ploop := pixel_loop D lt opp calc_dia converged lut.
Let init := initial D zero one k_init calc_dia drizzle ratio.
Notation st := (state D).

(** Pixels in the order of the array. *)
Definition earlier (p q : nat * nat) : Prop := fst p < fst q \/ (fst p = fst q /\ snd p < snd q).
Lemma pixels_in : forall t g, In (t, g) (drizzle_pixels n_time n_height drizzle) <->
  t < n_time /\ g < n_height /\ drizzle t g = true.
Proof.
  intros t g. unfold drizzle_pixels. rewrite filter_In, in_flat_map. cbn [fst snd]. split.
  - intros [(t' & T & G) Z]. apply in_map_iff in G. destruct G as (g' & E & G).
    injection E as -> ->. apply in_seq in T, G. lia || (repeat split; [lia|lia|exact Z]).
  - intros (T & G & Z). split; [|exact Z]. exists t. split; [apply in_seq; lia|].
    apply in_map. apply in_seq. lia.
Qed.
Lemma pixels_sorted : StronglySorted earlier (drizzle_pixels n_time n_height drizzle).
Proof.
  assert (F : forall A (R : A -> A -> Prop) f l, StronglySorted R l -> StronglySorted R (filter f l)).
  { intros A R f l H. induction H as [|a l H IH Fa]; [constructor|]. cbn [filter].
    destruct (f a); [|exact IH]. constructor; [exact IH|]. rewrite Forall_forall in *.
    intros x Hx. apply filter_In in Hx. apply Fa, Hx. }
  apply F. clear F.
  assert (P : forall A (R : A -> A -> Prop) l m, StronglySorted R l -> StronglySorted R m ->
    (forall x y, In x l -> In y m -> R x y) -> StronglySorted R (l ++ m)).
  { intros A R l m H Hm X. induction H as [|a l H IH Fa]; [exact Hm|]. cbn [app]. constructor.
    - apply IH. intros x y I J. apply X; [right; exact I|exact J].
    - rewrite Forall_forall in *. intros x Hx. apply in_app_iff in Hx. destruct Hx as [Hx|Hx].
      + apply Fa, Hx.
      + apply X; [left; reflexivity|exact Hx]. }
  assert (R : forall t a n, StronglySorted earlier (map (fun g => (t, g)) (seq a n))).
  { intros t a n. revert a. induction n as [|n IH]; intros a; cbn [seq map]; constructor; [apply IH|].
    apply Forall_forall. intros p Hp. apply in_map_iff in Hp. destruct Hp as (g & <- & G).
    apply in_seq in G. right. cbn. lia. }
  assert (Q : forall n a, StronglySorted earlier
     (flat_map (fun t => map (fun g => (t, g)) (seq 0 n_height)) (seq a n))).
  { induction n as [|n IH]; intros a; cbn [seq flat_map]; [constructor|].
    apply P; [apply R|apply IH|]. intros x y Hx Hy.
    apply in_map_iff in Hx. destruct Hx as (g & <- & _).
    apply in_flat_map in Hy. destruct Hy as (t & T & Hy). apply in_map_iff in Hy.
    destruct Hy as (g' & <- & _). apply in_seq in T. left. cbn. lia. }
  apply Q.
Qed.

(** What one pixel changes. *)
Lemma spixel_spec : forall (s : st) t g, exists s',
  spixel s t g = Ok s' /\
  (exists d mu x dia, ploop 10 (mul (ratio t g) (p_corr D s t g)) (width_ht t g) (p_dia D s t g)
       (p_Do D s t g, p_mu D s t g, p_S D s t g) = Ok (d, mu, x, dia) /\
     p_Do D s' t g = d /\ p_mu D s' t g = mu /\ p_S D s' t g = x /\ p_dia D s' t g = dia) /\
  (forall t' g', (t' <> t \/ g' <> g) -> p_Do D s' t' g' = p_Do D s t' g' /\
     p_mu D s' t' g' = p_mu D s t' g' /\ p_S D s' t' g' = p_S D s t' g' /\ p_dia D s' t' g' = p_dia D s t' g') /\
  (forall t' g', p_corr D s' t' g' =
     if (t' =? t) && (g <? g') then mul (p_corr D s t' g') (factor (p_S D s' t g) (beta t g) g)
     else p_corr D s t' g').
Proof.
  intros s t g. unfold spixel, solve_pixel.
  destruct (pixel_loop_spec 10 (mul (ratio t g) (p_corr D s t g)) (width_ht t g) (p_dia D s t g)
      (p_Do D s t g, p_mu D s t g, p_S D s t g) ltac:(lia)) as (d & mu & x & dia & E & _).
  rewrite E. cbn [bind]. eexists. split; [reflexivity|]. cbn [p_Do p_mu p_S p_corr p_dia].
  assert (T : (t =? t) && (g =? g) = true) by (rewrite !Nat.eqb_refl; reflexivity).
  split; [|split].
  - exists d, mu, x, dia. split; [exact E|]. unfold put. rewrite T. auto.
  - intros t' g' N. unfold put.
    assert (X : (t' =? t) && (g' =? g) = false).
    { apply andb_false_iff. rewrite !Nat.eqb_neq. exact N. }
    rewrite X. auto.
  - intros t' g'. unfold scale_above, put. rewrite T. reflexivity.
Qed.
Lemma sloop_ok : forall ps s, exists s', sloop s ps = Ok s'.
Proof.
  induction ps as [|[t g] ps IH]; intros s; [eexists; reflexivity|]. unfold sloop in *. cbn [solve_loop].
  destruct (spixel_spec s t g) as (s1 & E & _). unfold spixel in E. rewrite E. apply IH.
Qed.
(** Pixels that are not in the list keep their entries. *)
Lemma sloop_other : forall ps s s' t g, sloop s ps = Ok s' -> ~ In (t, g) ps ->
  p_Do D s' t g = p_Do D s t g /\ p_mu D s' t g = p_mu D s t g /\ p_S D s' t g = p_S D s t g /\
  p_dia D s' t g = p_dia D s t g.
Proof.
  induction ps as [|[t0 g0] ps IH]; intros s s' t g H N.
  - injection H as <-. auto.
  - unfold sloop in *. cbn [solve_loop] in H. destruct (spixel_spec s t0 g0) as (s1 & E & _ & O & _).
    unfold spixel in E. rewrite E in H. cbn [bind] in H.
    destruct (IH s1 s' t g H) as (A1 & A2 & A3 & A4). { intros I. apply N. right. exact I. }
    destruct (O t g) as (B1 & B2 & B3 & B4).
    { destruct (Nat.eq_dec t t0) as [->|]; [|auto]. destruct (Nat.eq_dec g g0) as [->|]; [|auto].
      exfalso. apply N. left. reflexivity. }
    repeat split; congruence.
Qed.
(** The correction of a gate changes only by drizzle gates below it. *)
Lemma sloop_corr_keep : forall ps s s' t g, sloop s ps = Ok s' ->
  (forall g', g' < g -> ~ In (t, g') ps) -> p_corr D s' t g = p_corr D s t g.
Proof.
  induction ps as [|[t0 g0] ps IH]; intros s s' t g H N.
  - injection H as <-. reflexivity.
  - unfold sloop in *. cbn [solve_loop] in H. destruct (spixel_spec s t0 g0) as (s1 & E & _ & _ & C).
    unfold spixel in E. rewrite E in H. cbn [bind] in H.
    rewrite (IH s1 s' t g H). 2:{ intros g' G I. apply (N g' G). right. exact I. }
    rewrite C. destruct (Nat.eqb_spec t t0) as [->|]; [|reflexivity]. cbn [andb].
    destruct (Nat.ltb_spec g0 g) as [L|L]; [|reflexivity].
    exfalso. apply (N g0 L). left. reflexivity.
Qed.
Lemma sloop_app : forall ps qs s, sloop s (ps ++ qs) = bind (sloop s ps) (fun s' => sloop s' qs).
Proof.
  induction ps as [|[t g] ps IH]; intros qs s; [reflexivity|]. unfold sloop in *. cbn [app solve_loop].
  destruct (solve_pixel _ _ _ _ _ _ _ _ _ _ _ s t g); [apply IH|reflexivity].
Qed.
(** If the pixels are sorted, a pixel of the list is solved with its final
    correction, and the correction of the next gate is this correction times the
    pixel's factor. *)
Lemma sloop_sorted : forall ps s s' t g, StronglySorted earlier ps -> sloop s ps = Ok s' ->
  In (t, g) ps ->
  ploop 10 (mul (ratio t g) (p_corr D s' t g)) (width_ht t g) (p_dia D s t g)
      (p_Do D s t g, p_mu D s t g, p_S D s t g) =
    Ok (p_Do D s' t g, p_mu D s' t g, p_S D s' t g, p_dia D s' t g).
Proof.
  intros ps s s' t g Srt H I. apply in_split in I. destruct I as (l1 & l2 & ->).
  rewrite sloop_app in H. destruct (sloop s l1) as [s1|e] eqn:E1; [|discriminate]. cbn [bind] in H.
  unfold sloop in H. cbn [solve_loop] in H. fold sloop in H.
  destruct (spixel_spec s1 t g) as (s2 & E2 & (d & mu & x & dia & L & A1 & A2 & A3 & A4) & O & C).
  unfold spixel in E2. rewrite E2 in H. cbn [bind] in H.
  assert (N1 : ~ In (t, g) l1 /\ ~ In (t, g) l2 /\ forall g', g' < g -> ~ In (t, g') l2).
  { clear - Srt. assert (R : forall p q, earlier p q -> p <> q).
    { intros p q [X|[_ X]] ->; lia. }
    induction l1 as [|p l1 IH].
    - cbn [app] in Srt. inversion Srt as [|? ? S1 F]; subst. rewrite Forall_forall in F.
      split; [intros []|]. split.
      + intros X. apply (R _ _ (F _ X)). reflexivity.
      + intros g' L X. destruct (F _ X) as [Y|[_ Y]]; cbn in Y; lia.
    - cbn [app] in Srt. inversion Srt as [|? ? S1 F]; subst. destruct (IH S1) as (B1 & B2 & B3).
      split; [|split; assumption]. intros [->|X]; [|contradiction].
      rewrite Forall_forall in F. apply (R (t, g) (t, g)); [|reflexivity].
      apply F. apply in_app_iff. right. left. reflexivity. }
  destruct N1 as (N1 & N2 & N3).
  destruct (sloop_other _ _ _ t g E1 N1) as (P1 & P2 & P3 & P4).
  destruct (sloop_other _ _ _ t g H N2) as (Q1 & Q2 & Q3 & Q4).
  assert (CC : p_corr D s' t g = p_corr D s1 t g).
  { rewrite (sloop_corr_keep _ _ _ t g H N3). rewrite C.
    rewrite Nat.eqb_refl. cbn [andb]. rewrite Nat.ltb_irrefl. reflexivity. }
  rewrite CC. rewrite <- P1, <- P2, <- P3, <- P4. rewrite L, Q1, Q2, Q3, Q4. congruence.
Qed.
Lemma sloop_corr_next : forall ps s s' t g, StronglySorted earlier ps -> sloop s ps = Ok s' ->
  p_corr D s t (S g) = p_corr D s t g ->
  p_corr D s' t (S g) = if existsb (fun p => (fst p =? t) && (snd p =? g)) ps
    then mul (p_corr D s' t g) (factor (p_S D s' t g) (beta t g) g) else p_corr D s' t g.
Proof.
  induction ps as [|[t0 g0] ps IH]; intros s s' t g Srt H E.
  - injection H as <-. exact E.
  - inversion Srt as [|? ? S1 F]; subst. unfold sloop in H. cbn [solve_loop] in H. fold sloop in H.
    destruct (spixel_spec s t0 g0) as (s1 & E1 & _ & _ & C). unfold spixel in E1. rewrite E1 in H.
    cbn [bind] in H. cbn [existsb fst snd].
    destruct (Nat.eqb_spec t0 t) as [->|Nt].
    + destruct (Nat.eqb_spec g0 g) as [->|Ng]; cbn [andb orb].
      * rewrite Forall_forall in F.
        assert (N : ~ In (t, g) ps) by (intros X; destruct (F _ X) as [Y|[_ Y]]; cbn in Y; lia).
        assert (K1 : p_corr D s' t (S g) = p_corr D s1 t (S g)).
        { apply (sloop_corr_keep ps s1 s' t (S g) H). intros g' L X.
          destruct (F _ X) as [Y|[_ Y]]; cbn in Y; lia. }
        assert (K2 : p_corr D s' t g = p_corr D s1 t g).
        { apply (sloop_corr_keep ps s1 s' t g H). intros g' L X.
          destruct (F _ X) as [Y|[_ Y]]; cbn in Y; lia. }
        rewrite K1, K2. rewrite (C t (S g)), (C t g), Nat.eqb_refl. cbn [andb].
        assert (T1 : (g <? S g) = true) by (apply Nat.ltb_lt; lia). rewrite T1, Nat.ltb_irrefl, E.
        destruct (sloop_other ps s1 s' t g H N) as (_ & _ & -> & _). reflexivity.
      * apply (IH s1 s' t g S1 H). rewrite (C t (S g)), (C t g), Nat.eqb_refl. cbn [andb].
        destruct (Nat.ltb_spec g0 g) as [L|L].
        -- assert (T1 : (g0 <? S g) = true) by (apply Nat.ltb_lt; lia). rewrite T1, E. reflexivity.
        -- assert (T1 : (g0 <? S g) = false) by (apply Nat.ltb_ge; lia). rewrite T1. exact E.
    + cbn [andb orb]. apply (IH s1 s' t g S1 H). rewrite (C t (S g)), (C t g).
      destruct (Nat.eqb_spec t t0); [congruence|]. exact E.
Qed.

Lemma existsb_pixels : forall t g, t < n_time -> g < n_height ->
  existsb (fun p => (fst p =? t) && (snd p =? g)) (drizzle_pixels n_time n_height drizzle) = drizzle t g.
Proof.
  intros t g T G. destruct (drizzle t g) eqn:Z.
  - apply existsb_exists. exists (t, g). split; [apply pixels_in; auto|].
    cbn. rewrite !Nat.eqb_refl. reflexivity.
  - apply not_true_is_false. intros X. apply existsb_exists in X. destruct X as ([t' g'] & I & X).
    cbn in X. apply andb_true_iff in X. rewrite !Nat.eqb_eq in X. destruct X as [-> ->].
    apply pixels_in in I. destruct I as (_ & _ & I). congruence.
Qed.
(** Everything about the result. *)
Lemma solve_spec : exists s, solve = Ok s /\
  (forall t g, t < n_time -> g < n_height -> drizzle t g = true ->
     ploop 10 (mul (ratio t g) (p_corr D s t g)) (width_ht t g) (calc_dia (ratio t g) zero one k_init)
       (zero, zero, zero) = Ok (p_Do D s t g, p_mu D s t g, p_S D s t g, p_dia D s t g)) /\
  (forall t g, drizzle t g = false -> p_Do D s t g = zero /\ p_mu D s t g = zero /\ p_S D s t g = zero /\
     p_dia D s t g = zero) /\
  (forall t, p_corr D s t 0 = one) /\
  (forall t g, t < n_time -> S g < n_height -> p_corr D s t (S g) =
     if drizzle t g then mul (p_corr D s t g) (factor (p_S D s t g) (beta t g) g) else p_corr D s t g).
Proof.
  unfold solve, solve_drizzle. destruct (sloop_ok (drizzle_pixels n_time n_height drizzle) init) as (s & E).
  exists s. split; [exact E|]. split; [|split; [|split]].
  - intros t g T G Z.
    pose proof (sloop_sorted _ _ _ t g pixels_sorted E
      (proj2 (pixels_in t g) (conj T (conj G Z)))) as P.
    unfold init in P. cbn [initial p_dia p_Do p_mu p_S] in P. rewrite Z in P. exact P.
  - intros t g Z. destruct (sloop_other _ _ _ t g E) as (A1 & A2 & A3 & A4).
    { intros X. apply pixels_in in X. destruct X as (_ & _ & X). congruence. }
    rewrite A1, A2, A3, A4. unfold init. cbn [initial p_dia p_Do p_mu p_S]. rewrite Z. auto.
  - intros t. rewrite (sloop_corr_keep _ _ _ t 0 E); [reflexivity|]. intros g' L. lia.
  - intros t g T G. rewrite (sloop_corr_next _ _ _ t g pixels_sorted E eq_refl).
    rewrite existsb_pixels by lia. reflexivity.
Qed.
Lemma solve_iterations : forall s, solve = Ok s ->
  forall t g, t < n_time -> g < n_height -> drizzle t g = true ->
  exists k, 1 <= k <= 10 /\
    its (mul (ratio t g) (p_corr D s t g)) (width_ht t g) k (calc_dia (ratio t g) zero one k_init)
      (p_Do D s t g) (p_mu D s t g) (p_S D s t g) /\
    (k = 10 \/ stp (mul (ratio t g) (p_corr D s t g)) (width_ht t g) k (calc_dia (ratio t g) zero one k_init)
      (p_Do D s t g) (p_mu D s t g) (p_S D s t g)).
Proof.
  intros s E t g T G Z. destruct solve_spec as (s' & E' & P & _). rewrite E in E'. injection E' as <-.
  specialize (P t g T G Z).
  destruct (pixel_loop_spec 10 (mul (ratio t g) (p_corr D s t g)) (width_ht t g)
     (calc_dia (ratio t g) zero one k_init) (zero, zero, zero) ltac:(lia)) as (d & mu & x & dia & L & k & K).
  unfold ploop in P. rewrite L in P. injection P as -> -> -> ->. exists k. exact K.
Qed.
End Field.

(** Two fields that agree on a profile up to a gate give the same result there. *)
Lemma solve_local : forall n_time n_height dr dr' ra ra' be be' wi wi' s s' t g,
  solve_drizzle D lt opp mul zero one k_init calc_dia converged factor lut n_time n_height dr ra be wi = Ok s ->
  solve_drizzle D lt opp mul zero one k_init calc_dia converged factor lut n_time n_height dr' ra' be' wi' = Ok s' ->
  t < n_time -> g < n_height ->
  (forall h, h < g -> dr t h = dr' t h /\ (dr t h = true -> ra t h = ra' t h /\ be t h = be' t h /\ wi t h = wi' t h)) ->
  p_corr D s t g = p_corr D s' t g /\
  (dr t g = dr' t g -> (dr t g = true -> ra t g = ra' t g /\ wi t g = wi' t g) ->
   p_Do D s t g = p_Do D s' t g /\ p_mu D s t g = p_mu D s' t g /\ p_S D s t g = p_S D s' t g).
Proof.
  intros n_time n_height dr dr' ra ra' be be' wi wi' s s' t g H H' T.
  destruct (solve_spec n_time n_height dr ra be wi) as (s1 & E1 & A1 & B1 & C1 & F1).
  destruct (solve_spec n_time n_height dr' ra' be' wi') as (s2 & E2 & A2 & B2 & C2 & F2).
  rewrite H in E1. injection E1 as <-. rewrite H' in E2. injection E2 as <-.
  assert (Step : forall g, g < n_height -> p_corr D s t g = p_corr D s' t g ->
    dr t g = dr' t g -> (dr t g = true -> ra t g = ra' t g /\ wi t g = wi' t g) ->
    p_Do D s t g = p_Do D s' t g /\ p_mu D s t g = p_mu D s' t g /\ p_S D s t g = p_S D s' t g).
  { intros h G C E R. destruct (dr t h) eqn:Z.
    - destruct (R eq_refl) as [R1 R2]. pose proof (A1 t h T G Z) as P1. pose proof (A2 t h T G (eq_sym E)) as P2.
      rewrite C, R1, R2 in P1. rewrite P1 in P2. injection P2 as Q1 Q2 Q3 _. auto.
    - destruct (B1 t h Z) as (-> & -> & -> & _). destruct (B2 t h (eq_sym E)) as (-> & -> & -> & _). auto. }
  induction g as [|g IH]; intros G Agree.
  - rewrite C1, C2. split; [reflexivity|]. intros E R. apply Step; auto. rewrite C1, C2. reflexivity.
  - assert (CC : p_corr D s t (S g) = p_corr D s' t (S g)).
    { destruct (IH ltac:(lia)) as [IC IS]. { intros h L. apply Agree. lia. }
      destruct (Agree g ltac:(lia)) as [EZ ER].
      rewrite F1, F2 by lia. rewrite <- EZ. destruct (dr t g) eqn:Z; [|exact IC].
      destruct (ER eq_refl) as (R1 & R2 & R3).
      destruct (IS EZ ltac:(auto)) as (_ & _ & ->). rewrite IC, R2. reflexivity. }
    split; [exact CC|]. intros E R. apply Step; auto.
Qed.
End SolverProofs.
