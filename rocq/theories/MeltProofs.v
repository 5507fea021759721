(** Proofs about the melting layer: detection in one profile. *)
From Verif Require Import Base ArrayModel ArraySpec ArrayProofs FillModel FillProofs TimeModel TimeProofs GridModel GridProofs
  LayerModel ImageModel ImageProofs ImageSpec FallingProofs InstrumentProofs LwcProofs ClassifyModel DropletModel DropletSpec DropletProofs
  MeltModel MeltSpec.
From Coq Require Import Lqa Qabs.
Open Scope nat_scope.

(** ** Generic *)
Lemma gather_seq {A} (l : list A) n a : a + n <= length l -> gather l (seq a n) = Ok (section a (a + n) l).
Proof.
  intros H. destruct (gather_ok l (seq a n)) as (out & E & L & N).
  { apply Forall_forall. intros i Hi. apply in_seq in Hi. lia. }
  rewrite E. f_equal. apply nth_error_ext. intros i. rewrite N, nth_error_section.
  replace (a + n - a) with n by lia. destruct (i <? n) eqn:Hi.
  - apply Nat.ltb_lt in Hi. rewrite (nth_error_nth' _ 0), seq_nth by (rewrite ?seq_length; lia). reflexivity.
  - apply Nat.ltb_ge in Hi. rewrite (proj2 (nth_error_None (seq a n) i)) by (rewrite seq_length; lia). reflexivity.
Qed.
Lemma gather_seq_short {A} (l : list A) n a : length l < a + n -> 0 < n -> gather l (seq a n) = Raise IndexError.
Proof.
  revert a. induction n as [|n IH]; intros a H P; [lia|]. cbn [seq gather].
  destruct (nth_error l a) as [x|] eqn:E; [|reflexivity]. apply nth_error_Some_lt in E.
  rewrite IH by lia. reflexivity.
Qed.
Lemma section_length {A} a b (l : list A) : b <= length l -> length (section a b l) = b - a.
Proof. intros H. unfold section. rewrite firstn_length, skipn_length. lia. Qed.
Lemma nth_error_seq a n i : nth_error (seq a n) i = if i <? n then Some (a + i) else None.
Proof.
  destruct (i <? n) eqn:Hi.
  - apply Nat.ltb_lt in Hi. rewrite (nth_error_nth' _ 0), seq_nth by (rewrite ?seq_length; lia). reflexivity.
  - apply Nat.ltb_ge in Hi. apply nth_error_None. rewrite seq_length. exact Hi.
Qed.

(** First maximum. *)
Lemma argmax_from_first l : forall pre best bestv,
  nth_error pre best = Some bestv -> (forall k w, nth_error pre k = Some w -> (w <= bestv)%Q /\ (k < best -> (w < bestv)%Q)) ->
  exists v, nth_error (pre ++ l) (argmax_from (length pre) best bestv l) = Some v /\
    forall k w, nth_error (pre ++ l) k = Some w -> (w <= v)%Q /\ (k < argmax_from (length pre) best bestv l -> (w < v)%Q).
Proof.
  induction l as [|x l IH]; intros pre best bestv Hb Hmin; cbn [argmax_from].
  - exists bestv. rewrite app_nil_r. auto.
  - assert (Happ : pre ++ x :: l = (pre ++ [x]) ++ l) by (rewrite <- app_assoc; reflexivity).
    assert (Hlen : S (length pre) = length (pre ++ [x])) by (rewrite app_length; simpl; lia).
    assert (Hx : nth_error (pre ++ [x]) (length pre) = Some x).
    { rewrite nth_error_app2, Nat.sub_diag by lia. reflexivity. }
    rewrite Happ. destruct (qlt bestv x) eqn:E; rewrite Hlen; apply IH.
    + exact Hx.
    + apply qlt_iff in E. intros k w Hk. destruct (Nat.lt_ge_cases k (length pre)) as [Hlt|Hge].
      * rewrite nth_error_app1 in Hk by exact Hlt. apply Hmin in Hk as [Hk _]. split; intros; lra.
      * rewrite nth_error_app2 in Hk by exact Hge. destruct (k - length pre) as [|[|?]] eqn:K; simpl in Hk; try discriminate.
        injection Hk as <-. split; [lra|lia].
    + rewrite nth_error_app1; [exact Hb|]. eapply nth_error_Some_lt. exact Hb.
    + apply qlt_false in E. apply nth_error_Some_lt in Hb. intros k w Hk. destruct (Nat.lt_ge_cases k (length pre)) as [Hlt|Hge].
      * rewrite nth_error_app1 in Hk by exact Hlt. apply Hmin in Hk. exact Hk.
      * rewrite nth_error_app2 in Hk by exact Hge. destruct (k - length pre) as [|[|?]] eqn:K; simpl in Hk; try discriminate.
        injection Hk as <-. split; [lra|lia].
Qed.
Lemma argmax_first l i : argmax l = Ok i ->
  exists v, nth_error l i = Some v /\ forall k w, nth_error l k = Some w -> (w <= v)%Q /\ (k < i -> (w < v)%Q).
Proof.
  destruct l as [|x l]; cbn [argmax]; [discriminate|]. intros H.
  assert (i = argmax_from 1 0 x l) by congruence. subst i.
  apply (argmax_from_first l [x] 0 x); [reflexivity|].
  intros [|[|k]] w; cbn; try discriminate. intros [= <-]. split; [lra|lia].
Qed.

(** Largest unmasked value. *)
Lemma masked_argmax_from_spec l : forall pre best bestv,
  nth_error pre best = Some bestv ->
  match bestv with
  | Some b => forall k w, nth_error pre k = Some (Some w) -> (w <= b)%Q /\ (k < best -> (w < b)%Q)
  | None => forall k w, nth_error pre k <> Some (Some w)
  end ->
  exists v, nth_error (pre ++ l) (masked_argmax_from (length pre) best bestv l) = Some v /\
    match v with
    | Some b => forall k w, nth_error (pre ++ l) k = Some (Some w) ->
        (w <= b)%Q /\ (k < masked_argmax_from (length pre) best bestv l -> (w < b)%Q)
    | None => forall k w, nth_error (pre ++ l) k <> Some (Some w)
    end.
Proof.
  induction l as [|x l IH]; intros pre best bestv Hb Hmin; cbn [masked_argmax_from].
  - exists bestv. rewrite app_nil_r. auto.
  - assert (Happ : pre ++ x :: l = (pre ++ [x]) ++ l) by (rewrite <- app_assoc; reflexivity).
    assert (Hlen : S (length pre) = length (pre ++ [x])) by (rewrite app_length; simpl; lia).
    assert (Hx : nth_error (pre ++ [x]) (length pre) = Some x).
    { rewrite nth_error_app2, Nat.sub_diag by lia. reflexivity. }
    assert (Hb' : nth_error (pre ++ [x]) best = Some bestv).
    { rewrite nth_error_app1; [exact Hb|]. eapply nth_error_Some_lt. exact Hb. }
    assert (Split : forall k w, nth_error (pre ++ [x]) k = Some w -> (k < length pre /\ nth_error pre k = Some w) \/ (k = length pre /\ w = x)).
    { intros k w Hk. destruct (Nat.lt_ge_cases k (length pre)) as [Hlt|Hge].
      - rewrite nth_error_app1 in Hk by exact Hlt. auto.
      - rewrite nth_error_app2 in Hk by exact Hge. destruct (k - length pre) as [|[|?]] eqn:K; cbn in Hk; try discriminate.
        right. split; [lia|congruence]. }
    assert (Hbl := nth_error_Some_lt _ _ _ Hb).
    rewrite Happ. destruct x as [a|]; [destruct bestv as [b|]; [destruct (qlt b a) eqn:E|]|]; rewrite Hlen; apply IH; try assumption.
    + apply qlt_iff in E. intros k w Hk. destruct (Split k _ Hk) as [[Hlt Hk']|[-> W]].
      * apply Hmin in Hk' as [Hk' _]. split; intros; lra.
      * assert (w = a) by congruence. subst w. split; [lra|lia].
    + apply qlt_false in E. intros k w Hk. destruct (Split k _ Hk) as [[Hlt Hk']|[-> W]].
      * apply Hmin in Hk'. exact Hk'.
      * assert (w = a) by congruence. subst w. split; [lra|lia].
    + intros k w Hk. destruct (Split k _ Hk) as [[Hlt Hk']|[-> W]].
      * exfalso. exact (Hmin _ _ Hk').
      * assert (w = a) by congruence. subst w. split; [lra|lia].
    + destruct bestv as [b|]; intros k w Hk; destruct (Split k _ Hk) as [[Hlt Hk']|[-> W]]; try discriminate.
      * apply Hmin in Hk'. exact Hk'.
      * exact (Hmin _ _ Hk').
Qed.
Lemma masked_argmax_spec l i : masked_argmax l = Ok i ->
  exists v, nth_error l i = Some v /\
    match v with
    | Some b => forall k w, nth_error l k = Some (Some w) -> (w <= b)%Q /\ (k < i -> (w < b)%Q)
    | None => forall k w, nth_error l k <> Some (Some w)
    end.
Proof.
  destruct l as [|x l]; cbn [masked_argmax]; [discriminate|]. intros H.
  assert (i = masked_argmax_from 1 0 x l) by congruence. subst i.
  apply (masked_argmax_from_spec l [x] 0 x); [reflexivity|].
  destruct x as [b|]; intros [|[|k]] w; cbn; try discriminate. intros [= <-]. split; [lra|lia].
Qed.

Lemma exceeds_iff a b : exceeds a b = true <-> exists x, a = Some x /\ (b < x)%Q.
Proof.
  destruct a as [x|]; cbn [exceeds]; [rewrite qlt_iff|]; split.
  - eauto.
  - intros (y & [= <-] & H). exact H.
  - discriminate.
  - intros (y & ? & _). discriminate.
Qed.
Lemma is_under_iff a b : is_under a b = true <-> exists x, a = Some x /\ (x < b)%Q.
Proof.
  destruct a as [x|]; cbn [is_under]; [rewrite qlt_iff|]; split.
  - eauto.
  - intros (y & [= <-] & H). exact H.
  - discriminate.
  - intros (y & ? & _). discriminate.
Qed.
Lemma minus_some a b x : minus a b = Some x <-> exists y z, a = Some y /\ b = Some z /\ x = (y - z)%Q.
Proof.
  destruct a as [y|], b as [z|]; cbn [minus]; split; try discriminate.
  - intros [= <-]. eauto.
  - intros (? & ? & [= <-] & [= <-] & ->). reflexivity.
  - intros (? & ? & ? & ? & _). discriminate.
  - intros (? & ? & ? & ? & _). discriminate.
  - intros (? & ? & ? & ? & _). discriminate.
Qed.

(** ** Temperature range *)
Lemma get_temp_indices_spec tw cold warm : (cold < warm)%Q ->
  (get_temp_indices tw (cold, warm) = [] /\ forall k, ~ warm_between cold warm tw k) \/
  exists a b, spans (warm_between cold warm tw) a b /\ b < length tw /\ a <= b /\
    get_temp_indices tw (cold, warm) = seq a (S b - a).
Proof.
  intros CW. unfold get_temp_indices. cbn [fst snd].
  set (f := fun t => qlt (qmin cold warm + T0) t && qlt t (qmax cold warm + T0)).
  assert (F : forall k, nth_error (map f tw) k = Some true <-> warm_between cold warm tw k).
  { intros k. rewrite nth_error_map'. unfold warm_between.
    assert (G : forall t, f t = true <-> (cold + (27316 # 100) < t /\ t < warm + (27316 # 100))%Q).
    { intros t. unfold f, qmin, qmax. rewrite andb_true_iff, !qlt_iff. unfold T0.
      destruct (Qle_bool cold warm) eqn:E; [reflexivity|].
      assert (Qle_bool cold warm = true) by (apply Qle_bool_iff; lra). congruence. }
    destruct (nth_error tw k) as [t|]; cbn [option_map].
    - split.
      + intros [= E]. exists t. split; [reflexivity|]. apply G. exact E.
      + intros (t' & [= <-] & E). f_equal. apply G. exact E.
    - split; [discriminate|]. intros (t & ? & _). discriminate. }
  destruct (where1 (map f tw)) as [|i r] eqn:E.
  - left. split; [reflexivity|]. intros k Hk. apply F in Hk. exact (proj1 (where1_nil _) E k Hk).
  - right. destruct (where1_hd _ _ _ E) as [H1 H2]. destruct (where1_last _ _ _ E) as [H3 H4].
    exists i, (last (i :: r) 0). apply F in H1. assert (S1 := H3). apply F in H3.
    assert (Sp : spans (warm_between cold warm tw) i (last (i :: r) 0)).
    { split; [exact H1|split; [exact H3|]]. intros k Hk. apply F in Hk. split.
      - destruct (Nat.le_gt_cases i k) as [L|L]; [exact L|]. exfalso. exact (H2 k L Hk).
      - destruct (Nat.le_gt_cases k (last (i :: r) 0)) as [L|L]; [exact L|]. exfalso. exact (H4 k L Hk). }
    split; [exact Sp|]. split; [apply nth_error_Some_lt in S1; rewrite map_length in S1; exact S1|].
    split; [apply Sp; exact H1|reflexivity].
Qed.
Lemma spans_unique P a b a' b' : spans P a b -> spans P a' b' -> a = a' /\ b = b'.
Proof.
  intros (Pa & Pb & H) (Pa' & Pb' & H'). apply H in Pa' as X1. apply H in Pb' as X2. apply H' in Pa as X3. apply H' in Pb as X4. lia.
Qed.

(** ** Detection from the depolarisation, on the profiles cut to the range *)
Definition cut_signature (L : list (masked Q)) (D : list Q) (p base top : nat) : Prop :=
  (exists x, nth_error L p = Some (Some x) /\
     forall k y, nth_error L k = Some (Some y) -> (y <= x)%Q /\ (k < p -> (y < x)%Q)) /\
  base_of (nth_error D) p 10 2 base /\ top_of (nth_error D) p (length D) 10 2 top.

Lemma cut_signature_unique L D p base top p' base' top' :
  cut_signature L D p base top -> cut_signature L D p' base' top' -> p = p' /\ base = base' /\ top = top'.
Proof.
  intros ((x & E & M) & B & T) ((x' & E' & M') & B' & T').
  assert (p = p').
  { destruct (M _ _ E') as [M1 M2]. destruct (M' _ _ E) as [M3 M4].
    destruct (Nat.lt_trichotomy p p') as [H|[H|H]]; [|exact H|]; exfalso.
    - specialize (M4 H). lra.
    - specialize (M2 H). lra. }
  subst p'. split; [reflexivity|]. split; [exact (base_of_unique _ _ _ _ _ _ B B')|exact (top_of_unique _ _ _ _ _ _ _ T T')].
Qed.

Lemma top_of_bounds d p n dist lim t : top_of d p n dist lim t -> p < t /\ t <= n.
Proof. intros (m & x & k & -> & _ & (H1 & H2 & H3) & _). lia. Qed.

Lemma ldr_cases L D V Z : 0 < length L -> length D = length L -> length V = length L -> length Z = length L ->
  (forall k x, nth_error L k = Some None -> nth_error D k = Some x -> (x == 0)%Q) ->
  (forall k x, nth_error L (S k) = Some None -> nth_error D k = Some x -> (x == 0)%Q) ->
  (exists p base top cond, cut_signature L D p base top /\ base < p /\ p < top /\ top <= length L /\
     (cond = true <-> ldr_distinct L Z V p base) /\
     find_melting_layer_from_ldr L D V Z
     = Ok (if cond then Some (seq (base + (p - base) / 2) (top - (base + (p - base) / 2))) else None)) \/
  ((find_melting_layer_from_ldr L D V Z = Raise ValueError \/ find_melting_layer_from_ldr L D V Z = Raise IndexError) /\
   forall p base top, ~ cut_signature L D p base top).
Proof.
  intros Pos LD LV LZ Z1 Z2. unfold find_melting_layer_from_ldr.
  destruct (masked_argmax L) as [p|e] eqn:Ep; [|destruct L; [cbn in Pos; lia|discriminate]]. cbn [bind].
  destruct (masked_argmax_spec _ _ Ep) as (v & Ev & Hv).
  assert (Lp := nth_error_Some_lt _ _ _ Ev).
  assert (Two : (1 < 2)%Q) by lra. assert (Two0 : (0 < 2)%Q) by lra.
  assert (NoSig : forall pk, (forall base top, ~ (base_of (nth_error D) p 10 2 base /\ top_of (nth_error D) p (length D) 10 2 top)) ->
                  forall base top, ~ cut_signature L D pk base top).
  { intros pk N base top (( x & E & M) & B & T).
    destruct v as [b|].
    - assert (pk = p).
      { destruct (M _ _ Ev) as [M1 M2]. destruct (Hv _ _ E) as [M3 M4].
        destruct (Nat.lt_trichotomy pk p) as [H|[H|H]]; [|exact H|]; exfalso.
        - specialize (M4 H). lra.
        - specialize (M2 H). lra. }
      subst pk. exact (N base top (conj B T)).
    - exact (Hv _ _ E). }
  unfold basetop.
  destruct (ind_top_errors D p (length D) 10 2 Two) as (_ & _ & Te).
  destruct (ind_base_errors D p 10 2 Two) as (_ & _ & Be).
  destruct (ind_top D p (length D) 10 2) as [top|e] eqn:Et; cbn [bind].
  2:{ right. split; [destruct (Te e eq_refl) as [->| ->]; auto|]. intros pk. apply NoSig. intros base top [_ T].
      apply ind_top_iff in T; [congruence|exact Two0]. }
  destruct (ind_base D p 10 2) as [base|e] eqn:Eb; cbn [bind].
  2:{ right. split; [destruct (Be e eq_refl) as [->| ->]; auto|]. intros pk. apply NoSig. intros base top' [B _].
      apply ind_base_iff in B; [congruence|exact Two0]. }
  apply ind_top_iff in Et; [|exact Two0]. apply ind_base_iff in Eb; [|exact Two0].
  assert (Bp := base_in_range _ _ _ _ _ Eb). destruct (top_of_bounds _ _ _ _ _ _ Et) as [T1 T2].
  destruct v as [b|].
  2:{ exfalso. destruct Eb as (m & x & G & B & Ex & Lt & _).
      assert (x == 0)%Q. { apply (Z1 base); [|exact Ex]. destruct (nth_error_lt_Some L base ltac:(lia)) as [[y|] Ey]; [|exact Ey].
        exfalso. exact (Hv _ _ Ey). }
      destruct G as [(k & Bk & Ek) _].
      assert (m == 0)%Q. { apply (Z1 k); [|exact Ek]. destruct Bk as [Bk _]. destruct (nth_error_lt_Some L k ltac:(lia)) as [[y|] Ey]; [|exact Ey].
        exfalso. exact (Hv _ _ Ey). }
      lra. }
  left.
  destruct (item_lt L p Lp) as (lp & Ip & Elp). destruct (item_lt L base ltac:(lia)) as (lb & Ib & Elb).
  destruct (item_lt Z base ltac:(lia)) as (zb & Iz & Ezb). destruct (item_lt V base ltac:(lia)) as (vb & Iv & Evb).
  rewrite Ip, Ib, Iz, Iv. cbn [bind].
  exists p, base, top, (exceeds (minus lp lb) 4 && exceeds lp (- (30)) && exceeds zb (- (25)) && is_under vb (- (3 # 2))).
  split; [split; [exists b; split; [exact Ev|exact Hv]|split; assumption]|].
  split; [exact Bp|]. split; [exact T1|]. split; [lia|]. split.
  - rewrite !andb_true_iff, !exceeds_iff, is_under_iff. unfold ldr_distinct. rewrite Elp, Elb, Ezb, Evb. split.
    + intros [[[(d & Ed & H1) (x1 & -> & H2)] (x3 & -> & H3)] (x4 & -> & H4)].
      apply minus_some in Ed as (y & z & Ey & Ez & ->). assert (y = x1) by congruence. subst y. subst lb.
      exists x1, z, x3, x4. repeat split; assumption.
    + intros (x1 & x2 & x3 & x4 & E1 & E2 & E3 & E4 & H1 & H2 & H3 & H4).
      assert (lp = Some x1) by congruence. assert (lb = Some x2) by congruence. assert (zb = Some x3) by congruence.
      assert (vb = Some x4) by congruence. subst.
      repeat split; [exists (x1 - x2)%Q; split; [reflexivity|exact H1]|eauto|eauto|eauto].
  - destruct (_ && _); reflexivity.
Qed.

(** ** Detection from the velocity, on the profiles cut to the range *)

Lemma nth_error_removelast {A} (l : list A) k : nth_error (removelast l) k = if S k <? length l then nth_error l k else None.
Proof.
  revert k. induction l as [|x l IH]; intros k; [destruct k; reflexivity|]. destruct l as [|y l].
  - cbn. destruct k; reflexivity.
  - cbn [removelast]. destruct k as [|k]; [reflexivity|]. cbn [nth_error]. rewrite IH. reflexivity.
Qed.
Lemma velocity_steps_nth v k x y : nonflat (nth_error v) -> nth_error v k = Some x -> nth_error v (S k) = Some y ->
  nth_error (velocity_steps v) k = Some (if qlt x y then 1%Q else 0%Q).
Proof.
  intros NF Hx Hy. unfold velocity_steps, diffs.
  assert (E1 : nth_error (removelast v) k = Some x).
  { rewrite nth_error_removelast. apply nth_error_Some_lt in Hy. apply Nat.ltb_lt in Hy. rewrite Hy. exact Hx. }
  rewrite (nth_error_map2 _ _ _ k), (nth_error_map2 _ _ _ k). rewrite E1, Hx, nth_error_tl, Hy.
  f_equal. unfold assign. specialize (NF k x y Hx Hy).
  destruct (qlt x y) eqn:E.
  - apply qlt_iff in E. replace (qlt 0 (y - x)) with true by (symmetry; apply qlt_iff; lra). reflexivity.
  - apply qlt_false in E. replace (qlt 0 (y - x)) with false by (symmetry; apply qlt_false; lra).
    replace (qlt (y - x) 0) with true; [reflexivity|]. symmetry. apply qlt_iff. lra.
Qed.
Lemma velocity_steps_length v : length (velocity_steps v) = length v - 1.
Proof.
  unfold velocity_steps, diffs. rewrite !map2_length.
  assert (length (removelast v) = length v - 1).
  { destruct v as [|x v]; [reflexivity|]. rewrite removelast_firstn_len, firstn_length. cbn [length]. lia. }
  assert (length (tl v) = length v - 1) by (destruct v; cbn; lia). lia.
Qed.

Section Velocity.
  Variable v : list Q.
  Hypothesis NF : nonflat (nth_error v).
  Let st := velocity_steps v.
  Let ninc := cumsumr st.

  Lemma step_01 k x : nth_error st k = Some x -> (x = 1%Q /\ rises (nth_error v) k) \/ (x = 0%Q /\ falls (nth_error v) k).
  Proof.
    intros H. assert (L := nth_error_Some_lt _ _ _ H). unfold st in L. rewrite velocity_steps_length in L.
    destruct (nth_error_lt_Some v k ltac:(lia)) as [a Ha]. destruct (nth_error_lt_Some v (S k) ltac:(lia)) as [b Hb].
    unfold st in H. rewrite (velocity_steps_nth v k a b NF Ha Hb) in H.
    destruct (qlt a b) eqn:E; [left|right]; (split; [congruence|]); exists a, b; (split; [exact Ha|split; [exact Hb|]]).
    - apply qlt_iff. exact E.
    - apply qlt_false in E. specialize (NF k a b Ha Hb). lra.
  Qed.
  Lemma step_rises k : rises (nth_error v) k <-> nth_error st k = Some 1%Q.
  Proof.
    split.
    - intros (a & b & Ha & Hb & L). unfold st. rewrite (velocity_steps_nth v k a b NF Ha Hb).
      apply qlt_iff in L. rewrite L. reflexivity.
    - intros H. destruct (step_01 _ _ H) as [[_ R]|[E _]]; [exact R|discriminate].
  Qed.
  Lemma step_falls k : falls (nth_error v) k <-> nth_error st k = Some 0%Q.
  Proof.
    split.
    - intros (a & b & Ha & Hb & L). unfold st. rewrite (velocity_steps_nth v k a b NF Ha Hb).
      replace (qlt a b) with false; [reflexivity|]. symmetry. apply qlt_false. lra.
    - intros H. destruct (step_01 _ _ H) as [[E _]|[_ R]]; [discriminate|exact R].
  Qed.
  Lemma st_nonneg : Forall (fun x => 0 <= x)%Q st.
  Proof.
    apply Forall_forall. intros x Hx. apply In_nth_error in Hx as [k Hk].
    destruct (step_01 _ _ Hk) as [[-> _]|[-> _]]; discriminate.
  Qed.
  Lemma qsum_ones l : (forall k x, nth_error l k = Some x -> x = 1%Q) -> (qsum l == inject_Z (Z.of_nat (length l)))%Q.
  Proof.
    induction l as [|x l IH]; intros H; [reflexivity|]. cbn [qsum length]. rewrite IH.
    - rewrite (H 0 x eq_refl). rewrite Nat2Z.inj_succ, <- Z.add_1_l, inject_Z_plus. reflexivity.
    - intros k y Hk. exact (H (S k) y Hk).
  Qed.
  Lemma ninc_length : length ninc = length v - 1.
  Proof. unfold ninc. rewrite (proj1 (cumsumr_correct st st_nonneg)). apply velocity_steps_length. Qed.
  (** The value at a step is the number of rising steps that end there. *)
  Lemma ninc_value k y : nth_error ninc k = Some y ->
    exists s, s <= S k /\ (forall i, s <= i -> i <= k -> rises (nth_error v) i) /\
      (s = 0 \/ falls (nth_error v) (s - 1)) /\ (y == inject_Z (Z.of_nat (S k - s)))%Q.
  Proof.
    intros H. assert (L := nth_error_Some_lt _ _ _ H). rewrite ninc_length in L.
    assert (Ls : k < length st) by (unfold st; rewrite velocity_steps_length; exact L).
    destruct (since_zero_exists st k Ls) as [s Hs]. exists s.
    destruct (cumsumr_correct st st_nonneg) as [_ C]. assert (Y := C k y s H Hs).
    destruct Hs as (S1 & S2 & S3). split; [exact S1|].
    assert (R : forall i, s <= i -> i <= k -> rises (nth_error v) i).
    { intros i H1 H2. destruct (nth_error_lt_Some st i ltac:(lia)) as [x Hx].
      destruct (step_01 _ _ Hx) as [[_ R]|[E _]]; [exact R|]. exfalso. apply (S2 i x H1 H2 Hx). rewrite E. reflexivity. }
    split; [exact R|]. split.
    - destruct S3 as [S3|(x & Hx & Ex)]; [left; exact S3|right].
      destruct (step_01 _ _ Hx) as [[E _]|[_ F]]; [|exact F]. rewrite E in Ex. discriminate.
    - rewrite Y, qsum_ones.
      + unfold slice. rewrite firstn_length, skipn_length. replace (Nat.min (S k - s) (length st - s)) with (S k - s) by lia. reflexivity.
      + intros i x Hi. unfold slice in Hi. rewrite nth_error_firstn', nth_error_skipn' in Hi.
        destruct (i <? S k - s) eqn:E; [|discriminate]. apply Nat.ltb_lt in E.
        assert (Ri := R (s + i) ltac:(lia) ltac:(lia)). apply step_rises in Ri. congruence.
  Qed.
  Lemma rises_falls k : rises (nth_error v) k -> falls (nth_error v) k -> False.
  Proof. intros H1 H2. apply step_rises in H1. apply step_falls in H2. congruence. Qed.
  (** It is at least the length of any such run, and exactly that after a fall. *)
  Lemma ninc_run s t y : s <= t -> (forall i, s <= i -> i <= t -> rises (nth_error v) i) -> nth_error ninc t = Some y ->
    (inject_Z (Z.of_nat (S t - s)) <= y)%Q /\ (falls (nth_error v) (s - 1) -> 0 < s -> (y == inject_Z (Z.of_nat (S t - s)))%Q).
  Proof.
    intros Hst R H. destruct (ninc_value t y H) as (s' & A & B & C & E).
    assert (Le : s' <= s).
    { destruct (Nat.le_gt_cases s' s) as [X|X]; [exact X|]. exfalso. destruct C as [C|C]; [lia|].
      exact (rises_falls (s' - 1) (R (s' - 1) ltac:(lia) ltac:(lia)) C). }
    split.
    - rewrite E, <- Zle_Qle. lia.
    - intros F P. rewrite E. assert (s' = s); [|subst; reflexivity].
      destruct (Nat.eq_dec s' s) as [X|X]; [exact X|]. exfalso.
      exact (rises_falls (s - 1) (B (s - 1) ltac:(lia) ltac:(lia)) F).
  Qed.
  Lemma ninc_zero k y : nth_error ninc k = Some y -> (y == 0)%Q <-> falls (nth_error v) k.
  Proof.
    intros H. destruct (ninc_value k y H) as (s & A & B & C & E). split.
    - intros Y. assert (s = S k).
      { destruct (Nat.eq_dec s (S k)) as [X|X]; [exact X|]. exfalso. rewrite Y in E.
        change 0%Q with (inject_Z 0) in E. apply (proj1 (inject_Z_injective _ _)) in E. lia. }
      subst s. destruct C as [C|C]; [lia|]. replace (S k - 1) with k in C by lia. exact C.
    - intros F. destruct (Nat.eq_dec s (S k)) as [X|X].
      + rewrite E, X, Nat.sub_diag. reflexivity.
      + exfalso. exact (rises_falls k (B k ltac:(lia) ltac:(lia)) F).
  Qed.

  (** Base and top found from the array. *)
  Lemma rise_cases : 2 <= length v ->
    exists top, argmax ninc = Ok top /\ top < length v - 1 /\
      ((exists i r, where1 (map (fun x => Qeq_bool x 0) (firstn top ninc)) = i :: r /\
          longest_rise (nth_error v) 0 (length v - 1) (last (i :: r) 0) top) \/
       (where1 (map (fun x => Qeq_bool x 0) (firstn top ninc)) = [] /\
          forall base t, ~ longest_rise (nth_error v) 0 (length v - 1) base t)).
  Proof.
    intros L2. assert (NL := ninc_length).
    destruct (argmax ninc) as [top|e] eqn:Ea; [|destruct ninc; [cbn in NL; lia|discriminate]].
    exists top. split; [reflexivity|]. destruct (argmax_first _ _ Ea) as (m & Em & Hm).
    assert (Lt := nth_error_Some_lt _ _ _ Em). rewrite NL in Lt. split; [exact Lt|].
    assert (Zer : forall k, nth_error (map (fun x => Qeq_bool x 0) (firstn top ninc)) k = Some true <->
                    k < top /\ falls (nth_error v) k).
    { intros k. rewrite nth_error_map', nth_error_firstn'. destruct (k <? top) eqn:K.
      - apply Nat.ltb_lt in K. destruct (nth_error_lt_Some ninc k ltac:(lia)) as [y Hy]. rewrite Hy. cbn [option_map].
        rewrite <- (ninc_zero k y Hy), <- Qeq_bool_iff. split; [intros [= X]; auto|intros [_ X]; congruence].
      - apply Nat.ltb_ge in K. cbn [option_map]. split; [discriminate|intros [X _]; lia]. }
    destruct (where1 (map (fun x => Qeq_bool x 0) (firstn top ninc))) as [|i r] eqn:W.
    - right. split; [reflexivity|]. intros base t (B0 & Bt & Tb & F & R & M).
      pose proof (proj1 (where1_nil _) W) as NZ.
      destruct (nth_error_lt_Some ninc t ltac:(lia)) as [y Hy].
      destruct (ninc_run (S base) t y ltac:(lia) (fun k H1 H2 => R k ltac:(lia) H2) Hy) as [_ Ey].
      replace (S base - 1) with base in Ey by lia. specialize (Ey F ltac:(lia)). replace (S t - S base) with (t - base) in Ey by lia.
      destruct (ninc_value top m Em) as (s & A & B & C & E).
      assert (Hst : s <= top).
      { destruct (Nat.le_gt_cases s top) as [X|X]; [exact X|]. exfalso. assert (s = S top) by lia. subst s.
        destruct (Hm _ _ Hy) as [Hle _]. rewrite E, Nat.sub_diag, Ey, <- Zle_Qle in Hle. lia. }
      destruct (M s top ltac:(lia) Hst Lt B) as [M1 M2].
      destruct (Hm _ _ Hy) as [H1 H2]. rewrite E, Ey, <- Zle_Qle in H1.
      destruct (Nat.lt_trichotomy t top) as [X|[X|X]].
      + specialize (H2 X). rewrite E, Ey, <- Zlt_Qlt in H2. lia.
      + subst t. apply (NZ base). apply Zer. split; [exact Bt|exact F].
      + specialize (M2 X). lia.
    - left. exists i, r. split; [reflexivity|]. destruct (where1_last _ _ _ W) as [W1 W2].
      set (base := last (i :: r) 0) in *. apply Zer in W1 as [W1 F].
      assert (R : forall k, base < k -> k < top -> rises (nth_error v) k).
      { intros k H1 H2. destruct (nth_error_lt_Some st k) as [x Hx].
        { unfold st. rewrite velocity_steps_length. lia. }
        destruct (step_01 _ _ Hx) as [[_ X]|[_ X]]; [exact X|]. exfalso. apply (W2 k H1). apply Zer. auto. }
      assert (Rt : rises (nth_error v) top).
      { destruct (nth_error_lt_Some st top) as [x Hx].
        { unfold st. rewrite velocity_steps_length. lia. }
        destruct (step_01 _ _ Hx) as [[_ X]|[_ X]]; [exact X|]. exfalso.
        apply (ninc_zero top m Em) in X.
        destruct (nth_error_lt_Some ninc base ltac:(lia)) as [y Hy]. destruct (Hm _ _ Hy) as [_ H]. specialize (H W1).
        apply (ninc_zero base y Hy) in F. lra. }
      assert (R' : forall k, base < k -> k <= top -> rises (nth_error v) k).
      { intros k H1 H2. destruct (Nat.eq_dec k top) as [->|N]; [exact Rt|]. apply R; lia. }
      assert (Em' : (m == inject_Z (Z.of_nat (top - base)))%Q).
      { destruct (ninc_run (S base) top m ltac:(lia) (fun k H1 H2 => R' k ltac:(lia) H2) Em) as [_ X].
        replace (S base - 1) with base in X by lia. specialize (X F ltac:(lia)). replace (S top - S base) with (top - base) in X by lia. exact X. }
      split; [lia|]. split; [exact W1|]. split; [exact Lt|]. split; [exact F|]. split; [exact R'|].
      intros s t _ Hst Ht Rs. destruct (nth_error_lt_Some ninc t ltac:(lia)) as [y Hy].
      destruct (ninc_run s t y Hst Rs Hy) as [Hy' _]. destruct (Hm _ _ Hy) as [H1 H2]. split.
      + assert (X : (inject_Z (Z.of_nat (S t - s)) <= inject_Z (Z.of_nat (top - base)))%Q) by lra. rewrite <- Zle_Qle in X. lia.
      + intros T. specialize (H2 T).
        assert (X : (inject_Z (Z.of_nat (S t - s)) < inject_Z (Z.of_nat (top - base)))%Q) by lra. rewrite <- Zlt_Qlt in X. lia.
  Qed.
End Velocity.

Lemma longest_rise_unique v a b base top base' top' :
  longest_rise v a b base top -> longest_rise v a b base' top' -> base = base' /\ top = top'.
Proof.
  intros (A & B & C & D & E & F) (A' & B' & C' & D' & E' & F').
  destruct (F (S base') top' ltac:(lia) ltac:(lia) C' (fun k H1 H2 => E' k ltac:(lia) H2)) as [X1 X2].
  destruct (F' (S base) top ltac:(lia) ltac:(lia) C (fun k H1 H2 => E k ltac:(lia) H2)) as [X3 X4].
  destruct (Nat.lt_trichotomy top top') as [H|[H|H]].
  - specialize (X4 H). lia.
  - lia.
  - specialize (X2 H). lia.
Qed.

Lemma nearest_half_bounds base top : base < top ->
  let m := Z.to_nat (round_half_even (inject_Z (Z.of_nat top) - inject_Z (Z.of_nat top - Z.of_nat base) / 2)) in
  nearest_integer (inject_Z (Z.of_nat top) - inject_Z (Z.of_nat top - Z.of_nat base) / 2) (Z.of_nat m) /\ base <= m /\ m <= top.
Proof.
  intros H. cbv zeta.
  pose proof (round_nearest (inject_Z (Z.of_nat top) - inject_Z (Z.of_nat top - Z.of_nat base) / 2)) as R.
  set (q := (inject_Z (Z.of_nat top) - inject_Z (Z.of_nat top - Z.of_nat base) / 2)%Q) in *.
  set (n := round_half_even q) in *.
  assert (Eq : (2 * q == inject_Z (Z.of_nat top + Z.of_nat base))%Q).
  { unfold q. rewrite Z.sub_0_l || idtac. unfold Z.sub. rewrite !inject_Z_plus, inject_Z_opp. field. }
  assert (B : (2 * q - 1 <= 2 * inject_Z n /\ 2 * inject_Z n <= 2 * q + 1)%Q).
  { clearbody q n. destruct R as [[R1 R2]|[[R1|R1] _]]; split; lra. }
  rewrite Eq in B. change 1%Q with (inject_Z 1) in B. change 2%Q with (inject_Z 2) in B.
  destruct B as [B1 B2]. unfold Qminus in B1. rewrite <- inject_Z_opp, <- inject_Z_plus, <- inject_Z_mult, <- Zle_Qle in B1.
  rewrite <- inject_Z_mult, <- inject_Z_plus, <- Zle_Qle in B2.
  rewrite Z2Nat.id by lia. split; [exact R|]. lia.
Qed.

Lemma from_v_cases V W H : 2 <= length V -> length H = length V ->
  (forall w, W = Some w -> length w = length V) -> nonflat (nth_error (map data V)) ->
  (exists base top cond m, longest_rise (nth_error (map data V)) 0 (length V - 1) base top /\
     (cond = true <-> strong_rise W (map visible V) H base top) /\
     nearest_integer (inject_Z (Z.of_nat top) - inject_Z (Z.of_nat top - Z.of_nat base) / 2) (Z.of_nat m) /\ base <= m <= top /\
     find_melting_layer_from_v V W H = Ok (if cond then Some (seq m (top - m)) else None)) \/
  (find_melting_layer_from_v V W H = Ok None /\
   forall base top, ~ longest_rise (nth_error (map data V)) 0 (length V - 1) base top).
Proof.
  intros L2 LH LW NF. unfold find_melting_layer_from_v.
  destruct (rise_cases (map data V) NF ltac:(rewrite map_length; exact L2)) as (top & Ea & Lt & C).
  rewrite map_length in Lt, C. rewrite Ea. cbn [bind].
  destruct C as [(i & r & W1 & LR)|[W1 N]]; rewrite W1; [left|right; split; [reflexivity|exact N]].
  set (base := last (i :: r) 0) in *.
  assert (Bt : base < top) by apply LR.
  destruct (item_lt V top ltac:(lia)) as (vt & It & Evt). destruct (item_lt V base ltac:(lia)) as (vb & Ib & Evb).
  destruct (item_lt H top ltac:(lia)) as (ht & Iht & Eht). destruct (item_lt H base ltac:(lia)) as (hb & Ihb & Ehb).
  rewrite It, Ib, Iht, Ihb. cbn [bind].
  destruct (nearest_half_bounds base top Bt) as (N1 & N2 & N3).
  set (m := Z.to_nat (round_half_even (inject_Z (Z.of_nat top) - inject_Z (Z.of_nat top - Z.of_nat base) / 2))) in *.
  assert (Ht : nth_error (map visible V) top = Some (visible vt)) by (rewrite nth_error_map', Evt; reflexivity).
  assert (Hb : nth_error (map visible V) base = Some (visible vb)) by (rewrite nth_error_map', Evb; reflexivity).
  destruct W as [w|].
  - specialize (LW w eq_refl).
    destruct (item_lt w base ltac:(lia)) as (wb & Iwb & Ewb). destruct (item_lt w top ltac:(lia)) as (wt & Iwt & Ewt).
    rewrite Iwb, Iwt. cbn [bind].
    exists base, top, (exceeds (minus wb wt) (1 # 5) && exceeds (minus (visible vt) (visible vb)) (1 # 2)
       && qlt 50 (ht - hb) && qlt (ht - hb) 1000 && is_under (visible vb) (- (2))), m.
    split; [exact LR|]. split; [|split; [exact N1|split; [lia|destruct (_ && _); reflexivity]]].
    rewrite !andb_true_iff, !exceeds_iff, is_under_iff, !qlt_iff. unfold strong_rise. rewrite Ht, Hb, Eht, Ehb. split.
    + intros [[[[(d1 & E1 & H1) (d2 & E2 & H2)] H3] H4] (x & E5 & H5)].
      apply minus_some in E1 as (y1 & z1 & -> & -> & ->). apply minus_some in E2 as (y2 & z2 & -> & E2' & ->).
      assert (x = z2) by congruence. subst x. rewrite E5. exists z2, y2, hb, ht. repeat (split; [reflexivity|]).
      split; [repeat split; assumption|]. split; [exact H2|]. exists y1, z1. repeat split; assumption.
    + intros (x & y & h1 & h2 & E1 & E2 & E3 & E4 & (H3 & H4 & H5) & H2 & wb' & wt' & E6 & E7 & H1).
      assert (visible vb = Some x) by congruence. assert (visible vt = Some y) by congruence.
      assert (h1 = hb) by congruence. assert (h2 = ht) by congruence.
      assert (wb = Some wb') by congruence. assert (wt = Some wt') by congruence. subst.
      rewrite H0, H6. repeat split; try assumption; [exists (wb' - wt')%Q; split; [reflexivity|exact H1]|
        exists (y - x)%Q; split; [reflexivity|exact H2]|exists x; split; [reflexivity|exact H5]].
  - cbn [bind].
    exists base, top, (exceeds (minus (visible vt) (visible vb)) 2
       && qlt 50 (ht - hb) && qlt (ht - hb) 1000 && is_under (visible vb) (- (2))), m.
    split; [exact LR|]. split; [|split; [exact N1|split; [lia|destruct (_ && _); reflexivity]]].
    rewrite !andb_true_iff, !exceeds_iff, is_under_iff, !qlt_iff. unfold strong_rise. rewrite Ht, Hb, Eht, Ehb. split.
    + intros [[[(d2 & E2 & H2) H3] H4] (x & E5 & H5)].
      apply minus_some in E2 as (y2 & z2 & -> & E2' & ->).
      assert (x = z2) by congruence. subst x. rewrite E5. exists z2, y2, hb, ht. repeat (split; [reflexivity|]).
      split; [repeat split; assumption|]. exact H2.
    + intros (x & y & h1 & h2 & E1 & E2 & E3 & E4 & (H3 & H4 & H5) & H2).
      assert (visible vb = Some x) by congruence. assert (visible vt = Some y) by congruence.
      assert (h1 = hb) by congruence. assert (h2 = ht) by congruence. subst.
      rewrite H0, H1. repeat split; try assumption; [
        exists (y - x)%Q; split; [reflexivity|exact H2]|exists x; split; [reflexivity|exact H5]].
Qed.

(** ** From the cut profiles to the whole ones *)
Lemma section_within {A} (l : list A) a b k : a <= b ->
  nth_error (section a (S b) l) k = if (a + k) <=? b then nth_error l (a + k) else None.
Proof.
  intros H. rewrite nth_error_section. destruct (k <? S b - a) eqn:E, (a + k <=? b) eqn:F; try reflexivity; exfalso;
    rewrite ?Nat.ltb_lt, ?Nat.ltb_ge, ?Nat.leb_le, ?Nat.leb_gt in *; lia.
Qed.
Lemma within_shift a b (l : list Q) k : a <= b -> nth_error (section a (S b) l) k = within a b (nth_error l) (a + k).
Proof.
  intros H. rewrite section_within by exact H. unfold within.
  replace (a <=? a + k) with true by (symmetry; apply Nat.leb_le; lia). reflexivity.
Qed.

Lemma below_shift a p dist k : below_peak (a + p) dist (a + k) <-> below_peak p dist k.
Proof. unfold below_peak. split; lia. Qed.
Lemma above_shift a p dist n k : above_peak (a + p) dist (a + n) (a + k) <-> above_peak p dist n k.
Proof. unfold above_peak. split; lia. Qed.
Section Shift.
  Variables (d d' : profile) (a : nat).
  Hypothesis E : forall k, d k = d' (a + k).
  Hypothesis Low : forall k, k < a -> d' k = None.
  Lemma high k x : d' k = Some x -> exists j, k = a + j /\ d j = Some x.
  Proof.
    intros H. destruct (Nat.lt_ge_cases k a) as [X|X]; [rewrite Low in H by exact X; discriminate|].
    exists (k - a). rewrite E. replace (a + (k - a)) with k by lia. auto.
  Qed.
  Lemma base_of_shift p dist lim b : base_of d p dist lim b <-> base_of d' (a + p) dist lim (a + b).
  Proof.
    split.
    - intros (m & x & [(k & Bk & Ek) G] & B & Ex & L & F). exists m, x. split; [split|].
      + exists (a + k). rewrite below_shift, <- E. auto.
      + intros j y Bj Ej. apply high in Ej as (i & -> & Ei). rewrite below_shift in Bj. exact (G _ _ Bj Ei).
      + rewrite below_shift, <- E. split; [exact B|split; [exact Ex|split; [exact L|]]].
        intros j y Bj Lj Ej. apply high in Ej as (i & -> & Ei). rewrite below_shift in Bj. apply (F i); [exact Bj|lia|exact Ei].
    - intros (m & x & [(k & Bk & Ek) G] & B & Ex & L & F). exists m, x. split; [split|].
      + apply high in Ek as (i & -> & Ei). rewrite below_shift in Bk. eauto.
      + intros j y Bj Ej. apply (G (a + j)); [apply below_shift; exact Bj|rewrite <- E; exact Ej].
      + rewrite below_shift in B. rewrite <- E in Ex. split; [exact B|split; [exact Ex|split; [exact L|]]].
        intros j y Bj Lj Ej. apply (F (a + j)); [apply below_shift; exact Bj|lia|rewrite <- E; exact Ej].
  Qed.
  Lemma base_of_high p dist lim b : base_of d' p dist lim b -> a <= b.
  Proof. intros (m & x & _ & _ & Ex & _). apply high in Ex as (j & -> & _). lia. Qed.
  Lemma top_of_shift p n dist lim t : top_of d p n dist lim t <-> top_of d' (a + p) (a + n) dist lim (a + t).
  Proof.
    split.
    - intros (m & x & k0 & -> & [(k & Bk & Ek) G] & B & Ex & L & F). exists m, x, (a + k0). split; [lia|]. split; [split|].
      + exists (a + k). rewrite above_shift, <- E. auto.
      + intros j y Bj Ej. apply high in Ej as (i & -> & Ei). rewrite above_shift in Bj. exact (G _ _ Bj Ei).
      + rewrite above_shift, <- E. split; [exact B|split; [exact Ex|split; [exact L|]]].
        intros j y Bj Lj Ej. apply high in Ej as (i & -> & Ei). rewrite above_shift in Bj. apply (F i); [exact Bj|lia|exact Ei].
    - intros (m & x & k0 & Et & [(k & Bk & Ek) G] & B & Ex & L & F).
      assert (K0 : exists j, k0 = a + j) by (apply high in Ex as (j & -> & _); eauto). destruct K0 as [j0 ->].
      exists m, x, j0. split; [lia|]. split; [split|].
      + apply high in Ek as (i & -> & Ei). rewrite above_shift in Bk. eauto.
      + intros j y Bj Ej. apply (G (a + j)); [apply above_shift; exact Bj|rewrite <- E; exact Ej].
      + rewrite above_shift in B. rewrite <- E in Ex. split; [exact B|split; [exact Ex|split; [exact L|]]].
        intros j y Bj Lj Ej. apply (F (a + j)); [apply above_shift; exact Bj|lia|rewrite <- E; exact Ej].
  Qed.
  Lemma top_of_high p n dist lim t : top_of d' p n dist lim t -> a <= t.
  Proof. intros (m & x & k & -> & _ & _ & Ex & _). apply high in Ex as (j & -> & _). lia. Qed.
End Shift.

Lemma signature_shift a b ldr p base top : a <= b -> S b < length ldr ->
  cut_signature (section a (S b) ldr) (section a (S b) (filled_diff ldr)) p base top <->
  ldr_signature a b ldr (a + p) (a + base) (a + top).
Proof.
  intros Hab Hb. unfold cut_signature, ldr_signature.
  assert (Dl : b < length (filled_diff ldr)).
  { apply Nat.nle_gt. intros X. apply nth_error_None in X. rewrite filled_diff_nth in X. unfold step_up in X.
    destruct (nth_error_lt_Some ldr b ltac:(lia)) as [x Ex]. destruct (nth_error_lt_Some ldr (S b) ltac:(lia)) as [y Ey].
    rewrite Ex, Ey in X. destruct x, y; discriminate. }
  assert (Ls : length (section a (S b) (filled_diff ldr)) = S b - a) by (apply section_length; lia).
  rewrite Ls.
  assert (Es : forall k, nth_error (section a (S b) (filled_diff ldr)) k = within a b (step_up ldr) (a + k)).
  { intros k. rewrite within_shift by exact Hab. unfold within. rewrite filled_diff_nth. reflexivity. }
  assert (Low : forall k, k < a -> within a b (step_up ldr) k = None).
  { intros k Hk. unfold within. replace (a <=? k) with false by (symmetry; apply Nat.leb_gt; exact Hk). reflexivity. }
  rewrite (base_of_shift _ _ a Es Low), (top_of_shift _ _ a Es Low). replace (a + (S b - a)) with (S b) by lia.
  assert (P : (exists x, nth_error (section a (S b) ldr) p = Some (Some x) /\
     forall k y, nth_error (section a (S b) ldr) k = Some (Some y) -> (y <= x)%Q /\ (k < p -> (y < x)%Q)) <-> lowest_peak a b ldr (a + p)).
  { unfold lowest_peak. split.
    - intros (x & Ex & M). rewrite section_within in Ex by exact Hab. destruct (a + p <=? b) eqn:L; [|discriminate].
      apply Nat.leb_le in L. split; [lia|]. exists x. split; [exact Ex|]. intros k y Hk Ey.
      destruct (M (k - a) y) as [M1 M2].
      { rewrite section_within by exact Hab. replace (a + (k - a)) with k by lia.
        replace (k <=? b) with true by (symmetry; apply Nat.leb_le; lia). exact Ey. }
      split; [exact M1|]. intros X. apply M2. lia.
    - intros (L & x & Ex & M). exists x. rewrite section_within by exact Hab.
      replace (a + p <=? b) with true by (symmetry; apply Nat.leb_le; lia). split; [exact Ex|].
      intros k y Ey. rewrite section_within in Ey by exact Hab. destruct (a + k <=? b) eqn:K; [|discriminate].
      apply Nat.leb_le in K. destruct (M (a + k) y ltac:(lia) Ey) as [M1 M2]. split; [exact M1|]. intros X. apply M2. lia. }
  rewrite P. reflexivity.
Qed.

Lemma rise_shift a b v base top : a <= b ->
  longest_rise (nth_error (section a (S b) v)) 0 (b - a) base top <-> longest_rise (nth_error v) a b (a + base) (a + top).
Proof.
  intros Hab.
  assert (Es : forall k, k <= b - a -> nth_error (section a (S b) v) k = nth_error v (a + k)).
  { intros k Hk. rewrite section_within by exact Hab. replace (a + k <=? b) with true by (symmetry; apply Nat.leb_le; lia). reflexivity. }
  assert (R : forall k, k < b - a -> rises (nth_error (section a (S b) v)) k <-> rises (nth_error v) (a + k)).
  { intros k Hk. unfold rises. rewrite !Es by lia. rewrite Nat.add_succ_r. reflexivity. }
  assert (F : forall k, k < b - a -> falls (nth_error (section a (S b) v)) k <-> falls (nth_error v) (a + k)).
  { intros k Hk. unfold falls. rewrite !Es by lia. rewrite Nat.add_succ_r. reflexivity. }
  unfold longest_rise. split.
  - intros (_ & B & C & D & Ri & M). split; [lia|]. split; [lia|]. split; [lia|]. split; [apply F; [lia|exact D]|]. split.
    + intros k H1 H2. replace k with (a + (k - a)) by lia. apply R; [lia|]. apply Ri; lia.
    + intros s t H1 H2 H3 Rs. destruct (M (s - a) (t - a) ltac:(lia) ltac:(lia) ltac:(lia)) as [M1 M2].
      { intros k K1 K2. apply R; [lia|]. apply Rs; lia. }
      split; [lia|]. intros X. specialize (M2 ltac:(lia)). lia.
  - intros (_ & B & C & D & Ri & M). split; [lia|]. split; [lia|]. split; [lia|]. split; [apply F; [lia|exact D]|]. split.
    + intros k H1 H2. apply R; [lia|]. apply Ri; lia.
    + intros s t H1 H2 H3 Rs. destruct (M (a + s) (a + t) ltac:(lia) ltac:(lia) ltac:(lia)) as [M1 M2].
      { intros k K1 K2. replace k with (a + (k - a)) by lia. apply R; [lia|]. apply Rs; lia. }
      split; [lia|]. intros X. specialize (M2 ltac:(lia)). lia.
Qed.

Lemma map_section {A B} (f : A -> B) a b l : map f (section a b l) = section a b (map f l).
Proof. unfold section. rewrite <- firstn_map, <- skipn_map. reflexivity. Qed.

Lemma count_values (row : list (masked Q)) a b : b < length row -> count (section a (S b) row) = values_between row a b.
Proof.
  intros H. unfold count, values_between.
  assert (G : forall n a0, a0 + n <= length row ->
    length (unmasked (firstn n (skipn a0 row))) =
    length (filter (fun k => match nth_error row k with Some (Some _) => true | _ => false end) (seq a0 n))).
  { induction n as [|n IH]; intros a0 L; [reflexivity|]. cbn [seq filter].
    assert (Ex : exists x, nth_error row a0 = Some x) by (apply nth_error_lt_Some; lia). destruct Ex as [x Ex]. rewrite Ex.
    assert (Sk : skipn a0 row = x :: skipn (S a0) row).
    { apply nth_error_ext. intros i. rewrite nth_error_skipn'. destruct i as [|i]; cbn [nth_error].
      - rewrite Nat.add_0_r. exact Ex.
      - rewrite nth_error_skipn'. f_equal. lia. }
    rewrite Sk. cbn [firstn]. specialize (IH (S a0) ltac:(lia)). unfold unmasked in *.
    destruct x as [x|]; cbn [flat_map app length]; rewrite <- IH; reflexivity. }
  unfold section. destruct (Nat.le_gt_cases a (S b)) as [X|X].
  - apply G. lia.
  - replace (S b - a) with 0 by lia. reflexivity.
Qed.

(** ** One profile *)
Section Profile.
  Variables (o : melt_obs) (i : nat) (tw : list Q) (z : list (masked Q)) (v : list element)
    (ldr width : option (list (masked Q))) (cold warm : Q).
  Hypothesis Range : find_model_temperature_range (mo_model_type o) = (cold, warm).
  Hypothesis CW : (cold < warm)%Q.
  Hypothesis Hz : nth i (mo_z o) [] = z.
  Hypothesis Hv : nth i (mo_v o) [] = v.
  Hypothesis Hl : match mo_ldr o with None => ldr = None | Some m => ldr = Some (nth i m []) end.
  Hypothesis Hw : match mo_width o with None => width = None | Some m => width = Some (nth i m []) end.
  Hypothesis Lz : length z = length tw.
  Hypothesis Lv : length v = length tw.
  Hypothesis Ll : forall l, ldr = Some l -> length l = length tw.
  Hypothesis Lw : forall l, width = Some l -> length l = length tw.
  Hypothesis Lh : length (mo_height o) = length tw.

  Definition gate := melting_gate cold warm (mo_height o) tw z (map visible v) (nth_error (map data v)) ldr width.

  Lemma nothing_nth j : nth_error (map (fun _ : Q => false) tw) j = if j <? length tw then Some false else None.
  Proof.
    rewrite nth_error_map'. destruct (j <? length tw) eqn:E.
    - apply Nat.ltb_lt in E. destruct (nth_error_lt_Some tw j E) as [x ->]. reflexivity.
    - apply Nat.ltb_ge in E. rewrite (proj2 (nth_error_None _ _) E). reflexivity.
  Qed.
  Lemma set_gates a n m t : a + n <= length tw -> m <= t -> t <= n ->
    exists out, bind (gather (seq a n) (seq m (t - m))) (fun pos =>
      Ok (mapi_from (fun j b => assign (existsb (Nat.eqb j) pos) true b) 0 (map (fun _ : Q => false) tw))) = Ok out /\
      length out = length tw /\ forall j, nth_error out j = Some true <-> a + m <= j /\ j < a + t.
  Proof.
    intros L1 L2 L3. rewrite gather_seq by (rewrite seq_length; lia). cbn [bind]. eexists. split; [reflexivity|].
    rewrite mapi_from_length, map_length. split; [reflexivity|]. intros j. rewrite nth_error_mapi_from, nothing_nth.
    replace (m + (t - m)) with t by lia.
    assert (X : existsb (Nat.eqb (0 + j)) (section m t (seq a n)) = true <-> a + m <= j /\ j < a + t).
    { rewrite existsb_exists. split.
      - intros (k & Hk & E). apply Nat.eqb_eq in E. subst k. apply In_nth_error in Hk as [q Hq].
        rewrite nth_error_section in Hq. destruct (q <? t - m) eqn:Q; [|discriminate]. apply Nat.ltb_lt in Q.
        rewrite nth_error_seq in Hq. replace (m + q <? n) with true in Hq by (symmetry; apply Nat.ltb_lt; lia).
        assert (a + (m + q) = 0 + j) by congruence. lia.
      - intros [H1 H2]. exists (0 + j). split; [|apply Nat.eqb_refl]. apply (nth_error_In _ (j - a - m)).
        rewrite nth_error_section. replace (j - a - m <? t - m) with true by (symmetry; apply Nat.ltb_lt; lia).
        rewrite nth_error_seq. replace (m + (j - a - m) <? n) with true by (symmetry; apply Nat.ltb_lt; lia). f_equal. lia. }
    destruct (j <? length tw) eqn:J; cbn [option_map].
    - unfold assign. rewrite <- X. destruct (existsb _ _); split; congruence.
    - apply Nat.ltb_ge in J. split; [discriminate|]. intros [_ H]. lia.
  Qed.

  Lemma nothing_spec : length (map (fun _ : Q => false) tw) = length tw /\
    forall j, nth_error (map (fun _ : Q => false) tw) j = Some true <-> False.
  Proof.
    split; [apply map_length|]. intros j. rewrite nothing_nth. destruct (_ <? _); split; try discriminate; intros [].
  Qed.

  (** Outside of the last gate the function succeeds, exactly. *)
  Lemma melting_profile_exact :
    (forall a b l, spans (warm_between cold warm tw) a b -> a < b -> ldr = Some l -> S b < length tw) ->
    (forall a b, spans (warm_between cold warm tw) a b -> nonflat (within a b (nth_error (map data v)))) ->
    exists out, melting_profile o i tw = Ok out /\ length out = length tw /\ forall j, nth_error out j = Some true <-> gate j.
  Proof.
    intros NotTop NF. unfold melting_profile. rewrite Range, Hz, Hv.
    destruct nothing_spec as [NL NG].
    destruct (get_temp_indices_spec tw cold warm CW) as [[E No]|(a & b & Sp & Lb & Hab & E)]; rewrite E.
    { cbn [length Nat.leb]. eexists. split; [reflexivity|]. split; [exact NL|]. intros j. rewrite NG. split; [intros []|].
      intros (a & b & (Sa & _) & _). exact (No a Sa). }
    rewrite seq_length. destruct (S b - a <=? 1) eqn:E1.
    { apply Nat.leb_le in E1. eexists. split; [reflexivity|]. split; [exact NL|]. intros j. rewrite NG. split; [intros []|].
      intros (a' & b' & Sp' & L & _). destruct (spans_unique _ _ _ _ _ Sp Sp'). lia. }
    apply Nat.leb_gt in E1. assert (L : a < b) by lia.
    assert (Uniq : forall a' b', spans (warm_between cold warm tw) a' b' -> a' = a /\ b' = b).
    { intros a' b' Sp'. destruct (spans_unique _ _ _ _ _ Sp Sp'). auto. }
    rewrite (gather_seq z) by lia. rewrite (gather_seq v) by lia. replace (a + (S b - a)) with (S b) by lia. cbn [bind].
    set (zc := section a (S b) z). set (vc := section a (S b) v).
    assert (Lvc : length vc = S b - a) by (unfold vc; apply section_length; lia).
    assert (Lzc : length zc = S b - a) by (unfold zc; apply section_length; lia).
    assert (FromV : exists base_of_result, (bind (gather (mo_height o) (seq a (S b - a))) (fun height =>
      bind (match mo_width o with
            | None => Ok None
            | Some w => bind (gather (nth i w []) (seq a (S b - a))) (fun wp => Ok (Some wp))
            end) (fun width_prof => find_melting_layer_from_v vc width_prof height))) = Ok base_of_result /\
      ((exists m t, base_of_result = Some (seq m (t - m)) /\ m <= t /\ t <= S b - a /\
          forall j, (a + m <= j /\ j < a + t) <->
            exists base top m, longest_rise (nth_error (map data v)) a b base top /\ strong_rise width (map visible v) (mo_height o) base top /\
        nearest_integer (inject_Z (Z.of_nat (top - a)) - inject_Z (Z.of_nat top - Z.of_nat base) / 2) (Z.of_nat m) /\
        a + m <= j /\ j < top) \/
       (base_of_result = None /\ forall base top, longest_rise (nth_error (map data v)) a b base top ->
          ~ strong_rise width (map visible v) (mo_height o) base top))).
    { rewrite (gather_seq (mo_height o)) by lia. replace (a + (S b - a)) with (S b) by lia. cbn [bind].
      set (hc := section a (S b) (mo_height o)).
      assert (Ew : match mo_width o with
            | None => Ok None
            | Some w => bind (gather (nth i w []) (seq a (S b - a))) (fun wp => Ok (Some wp))
            end = Ok (option_map (section a (S b)) width)).
      { destruct (mo_width o) as [w|]; rewrite Hw in *; [|reflexivity]. cbn [option_map].
        rewrite gather_seq by (specialize (Lw _ eq_refl); lia). replace (a + (S b - a)) with (S b) by lia. reflexivity. }
      rewrite Ew. cbn [bind].
      assert (NFc : nonflat (nth_error (map data vc))).
      { intros k x y Hx Hy. unfold vc in Hx, Hy. rewrite map_section, within_shift in Hx, Hy by lia. rewrite Nat.add_succ_r in Hy.
        exact (NF a b Sp _ _ _ Hx Hy). }
      assert (Strong : forall base top, base <= b - a -> top <= b - a ->
        strong_rise (option_map (section a (S b)) width) (map visible vc) hc base top <->
        strong_rise width (map visible v) (mo_height o) (a + base) (a + top)).
      { intros base top Hb Ht. unfold strong_rise, vc, hc. rewrite map_section.
        assert (B1 : (a + base <=? b) = true) by (apply Nat.leb_le; lia).
        assert (B2 : (a + top <=? b) = true) by (apply Nat.leb_le; lia).
        destruct width as [w|]; cbn [option_map]; rewrite !section_within, ?B1, ?B2 by lia; reflexivity. }
      assert (Rise : forall base top, longest_rise (nth_error (map data vc)) 0 (length vc - 1) base top <->
        longest_rise (nth_error (map data v)) a b (a + base) (a + top)).
      { intros base top. unfold vc at 1. rewrite map_section, Lvc. replace (S b - a - 1) with (b - a) by lia. apply rise_shift. lia. }
      assert (Back : forall base top, longest_rise (nth_error (map data v)) a b base top ->
        longest_rise (nth_error (map data vc)) 0 (length vc - 1) (base - a) (top - a)).
      { intros base top LR. apply Rise. destruct LR as (X1 & X2 & X3). replace (a + (base - a)) with base by lia.
        replace (a + (top - a)) with top by lia. split; [exact X1|split; [exact X2|exact X3]]. }
      destruct (from_v_cases vc (option_map (section a (S b)) width) hc) as
        [(base & top & cond & m & LR & Cond & Near & Bm & R)|[R N]].
      - lia.
      - unfold hc. rewrite section_length by lia. lia.
      - intros w Hw'. destruct width as [w'|]; [|discriminate]. cbn [option_map] in Hw'. assert (w = section a (S b) w') by congruence.
        subst w. specialize (Lw _ eq_refl). rewrite section_length by lia. lia.
      - exact NFc.
      - rewrite R. eexists. split; [reflexivity|]. assert (B3 : base < top /\ top < length vc - 1) by (split; apply LR).
        specialize (Strong base top ltac:(lia) ltac:(lia)). rewrite Strong in Cond. destruct cond; [left|right].
        + exists m, top. split; [reflexivity|]. split; [lia|]. split; [lia|]. intros j. split.
          * intros [J1 J2]. exists (a + base), (a + top), m. split; [apply Rise; exact LR|]. split; [apply Cond; reflexivity|].
            split; [|lia]. replace (a + top - a) with top by lia.
            replace (Z.of_nat (a + top) - Z.of_nat (a + base))%Z with (Z.of_nat top - Z.of_nat base)%Z by lia. exact Near.
          * intros (base' & top' & m' & LR' & _ & Near' & J1 & J2).
            destruct (longest_rise_unique _ _ _ _ _ _ _ (Back _ _ LR') LR) as [U1 U2].
            destruct LR' as (X1 & X2 & _).
            assert (base' = a + base) by lia. assert (top' = a + top) by lia. subst base' top'.
            replace (a + top - a) with top in Near' by lia.
            replace (Z.of_nat (a + top) - Z.of_nat (a + base))%Z with (Z.of_nat top - Z.of_nat base)%Z in Near' by lia.
            assert (Em := nearest_unique _ _ _ Near Near'). lia.
        + split; [reflexivity|]. intros base' top' LR' SR.
          destruct (longest_rise_unique _ _ _ _ _ _ _ (Back _ _ LR') LR) as [U1 U2].
          destruct LR' as (X1 & X2 & _).
          assert (base' = a + base) by lia. assert (top' = a + top) by lia. subst base' top'.
          apply Cond in SR. discriminate.
      - rewrite R. eexists. split; [reflexivity|]. right. split; [reflexivity|]. intros base top LR _. exact (N _ _ (Back _ _ LR)). }
    (* number of values *)
    assert (Cv : count (map visible vc) = values_between (map visible v) a b).
    { unfold vc. rewrite map_section. apply count_values. rewrite map_length. lia. }
    rewrite Cv.
    destruct FromV as (fv & Ev & FV).
    assert (Finish : forall ind, match ind with Some l => exists m t, l = seq m (t - m) /\ m <= t /\ t <= S b - a | None => True end ->
      exists out, match ind with
        | None => Ok (map (fun _ : Q => false) tw)
        | Some l => bind (gather (seq a (S b - a)) l) (fun pos =>
            Ok (mapi_from (fun j b => assign (existsb (Nat.eqb j) pos) true b) 0 (map (fun _ : Q => false) tw)))
        end = Ok out /\ length out = length tw /\
      forall j, nth_error out j = Some true <-> exists m t, ind = Some (seq m (t - m)) /\ m <= t /\ t <= S b - a /\ a + m <= j /\ j < a + t).
    { intros [l|] Hi.
      - destruct Hi as (m & t & -> & M1 & M2). destruct (set_gates a (S b - a) m t ltac:(lia) M1 M2) as (out & Eo & Lo & G).
        exists out. split; [exact Eo|]. split; [exact Lo|]. intros j. rewrite G. split.
        + intros J. exists m, t. repeat split; lia.
        + intros (m' & t' & Es & M1' & M2' & J1 & J2). assert (Es' : seq m (t - m) = seq m' (t' - m')) by congruence.
          assert (Hin : In (j - a) (seq m' (t' - m'))) by (apply in_seq; lia). rewrite <- Es' in Hin. apply in_seq in Hin. lia.
      - eexists. split; [reflexivity|]. split; [exact NL|]. intros j. rewrite NG. split; [intros []|].
        intros (m & t & ? & _). discriminate. }
    destruct (mo_ldr o) as [ldrs|].
    - set (l := nth i ldrs []) in *. assert (Ll' := Ll _ Hl). assert (Sb := NotTop a b l Sp L Hl).
      assert (Dl : b < length (filled_diff l)).
      { apply Nat.nle_gt. intros X. apply nth_error_None in X. rewrite filled_diff_nth in X. unfold step_up in X.
        destruct (nth_error_lt_Some l b ltac:(lia)) as [x Ex]. destruct (nth_error_lt_Some l (S b) ltac:(lia)) as [y Ey].
        rewrite Ex, Ey in X. destruct x, y; discriminate. }
      rewrite (gather_seq l) by lia. rewrite (gather_seq (filled_diff l)) by lia. replace (a + (S b - a)) with (S b) by lia. cbn [bind].
      set (lc := section a (S b) l). set (dc := section a (S b) (filled_diff l)).
      assert (Cl : count lc = values_between l a b) by (unfold lc; apply count_values; lia). rewrite Cl.
      assert (Enough : (3 <? values_between l a b) || (3 <? values_between (map visible v) a b) = true <->
        (3 < values_between (map visible v) a b \/ exists l', ldr = Some l' /\ 3 < values_between l' a b)).
      { rewrite orb_true_iff, !Nat.ltb_lt. split.
        - intros [X|X]; [right; exists l; auto|left; exact X].
        - intros [X|(l' & El & X)]; [right; exact X|left]. assert (l' = l) by congruence. subst l'. exact X. }
      destruct ((3 <? values_between l a b) || (3 <? values_between (map visible v) a b)) eqn:En.
      2:{ eexists. split; [reflexivity|]. split; [exact NL|]. intros j. rewrite NG. split; [intros []|].
          intros (a' & b' & Sp' & _ & X & _). destruct (Uniq _ _ Sp') as [-> ->]. apply Enough in X. discriminate. }
      assert (Enough' := proj1 Enough eq_refl).
      assert (Llc : length lc = S b - a) by (unfold lc; apply section_length; lia).
      assert (Ldc : length dc = S b - a) by (unfold dc; apply section_length; lia).
      assert (Mask : forall k x, nth_error dc k = Some x -> exists x0 y0, nth_error lc k = Some x0 /\ nth_error l (S (a + k)) = Some y0 /\
                 match x0, y0 with Some p, Some q => True | _, _ => (x == 0)%Q end).
      { intros k x Hk. unfold dc in Hk. rewrite (section_within (filled_diff l) a b k) in Hk by lia. unfold lc. rewrite (section_within l a b k) by lia. destruct (a + k <=? b); [|discriminate].
        rewrite filled_diff_nth in Hk. unfold step_up in Hk.
        destruct (nth_error l (a + k)) as [x0|]; [|discriminate].
        destruct (nth_error l (S (a + k))) as [y0|]; [|destruct x0; discriminate]. exists x0, y0. split; [reflexivity|split; [reflexivity|]].
        destruct x0, y0; [exact I| | |]; assert (x = 0%Q) by congruence; subst x; reflexivity. }
      assert (Sig : forall p base top, cut_signature lc dc p base top <-> ldr_signature a b l (a + p) (a + base) (a + top)).
      { intros p base top. apply signature_shift; lia. }
      assert (SigBack : forall p base top, ldr_signature a b l p base top -> cut_signature lc dc (p - a) (base - a) (top - a)).
      { intros p base top SG. apply Sig. assert (SG' := SG). destruct SG' as ((Hp & _) & Bo & To).
        assert (a <= base).
        { destruct Bo as (m & x & _ & _ & Ex & _). unfold within in Ex. destruct (a <=? base) eqn:X; [apply Nat.leb_le; exact X|discriminate]. }
        destruct (top_of_bounds _ _ _ _ _ _ To) as [X1 X2].
        replace (a + (p - a)) with p by lia. replace (a + (base - a)) with base by lia. replace (a + (top - a)) with top by lia. exact SG. }
      destruct (ldr_cases lc dc (map visible vc) zc) as [(p & base & top & cond & SG & B1 & B2 & B3 & Cond & R)|[R N]].
      + lia.
      + lia.
      + rewrite map_length. lia.
      + lia.
      + intros k x Hk Hx. destruct (Mask k x Hx) as (x0 & y0 & E0 & _ & M). assert (x0 = None) by congruence. subst x0. exact M.
      + intros k x Hk Hx. destruct (Mask k x Hx) as (x0 & y0 & _ & E0 & M).
        unfold lc in Hk. rewrite section_within in Hk by lia. destruct (a + S k <=? b); [|discriminate].
        rewrite Nat.add_succ_r in Hk. assert (y0 = None) by congruence. subst y0. destruct x0; exact M.
      + rewrite R. cbn [bind].
        assert (Dist : cond = true <-> ldr_distinct l z (map visible v) (a + p) (a + base)).
        { rewrite Cond. unfold ldr_distinct, lc, zc, vc. rewrite map_section, !section_within by lia.
          replace (a + p <=? b) with true by (symmetry; apply Nat.leb_le; lia).
          replace (a + base <=? b) with true by (symmetry; apply Nat.leb_le; lia). reflexivity. }
        assert (Half : base + (p - base) / 2 = (base + p) / 2).
        { replace (base + p) with ((p - base) + base * 2) by lia. rewrite Nat.div_add by lia. lia. }
        assert (Half' : (a + base + (a + p)) / 2 = a + (base + p) / 2).
        { replace (a + base + (a + p)) with ((base + p) + a * 2) by lia. rewrite Nat.div_add by lia. lia. }
        assert (HB : (base + p) / 2 <= p) by (apply Nat.div_le_upper_bound; lia).
        rewrite Half.
        destruct (Finish (if cond then Some (seq ((base + p) / 2) (top - (base + p) / 2)) else None)) as (out & Eo & Lo & G).
        { destruct cond; [|exact I]. exists ((base + p) / 2), top. split; [reflexivity|]. lia. }
        exists out. split; [exact Eo|]. split; [exact Lo|]. intros j. rewrite G. split.
        * intros (m & t & Es & M1 & M2 & J1 & J2). destruct cond; [|discriminate].
          exists a, b. split; [exact Sp|]. split; [exact L|]. split; [exact Enough'|]. left.
          exists l, (a + p), (a + base), (a + top). split; [exact Hl|]. split; [apply Sig; exact SG|]. split; [apply Dist; reflexivity|].
          rewrite Half'. assert (Es' : seq m (t - m) = seq ((base + p) / 2) (top - (base + p) / 2)) by congruence.
          assert (Hin : In (j - a) (seq m (t - m))) by (apply in_seq; lia). rewrite Es' in Hin. apply in_seq in Hin. lia.
        * intros (a' & b' & Sp' & _ & _ & D). destruct (Uniq _ _ Sp') as [-> ->]. destruct D as [(l' & p' & base' & top' & El & SG' & Di & J1 & J2)|[No _]].
          -- assert (l' = l) by congruence. subst l'.
             assert (a <= p') by apply SG'.
             assert (a <= base').
             { destruct SG' as (_ & (m & x & _ & _ & Ex & _) & _). unfold within in Ex. destruct (a <=? base') eqn:X; [apply Nat.leb_le; exact X|discriminate]. }
             assert (p' < top') by apply (top_of_bounds _ _ _ _ _ _ (proj2 (proj2 SG'))).
             destruct (cut_signature_unique _ _ _ _ _ _ _ _ (SigBack _ _ _ SG') SG) as (U1 & U2 & U3).
             assert (p' = a + p) by lia. assert (base' = a + base) by lia. assert (top' = a + top) by lia. subst p' base' top'.
             apply Dist in Di. rewrite Di. rewrite Half' in J1.
             exists ((base + p) / 2), top. split; [reflexivity|]. lia.
          -- exfalso. apply (No l (a + p) (a + base) (a + top) Hl). apply Sig. exact SG.
      + assert (No : forall l' p base top, ldr = Some l' -> ~ ldr_signature a b l' p base top).
        { intros l' p base top El SG. assert (l' = l) by congruence. subst l'. exact (N _ _ _ (SigBack _ _ _ SG)). }
        destruct (Finish fv) as (out & Eo & Lo & G).
        { destruct FV as [(m & t & -> & M1 & M2 & _)|[-> _]]; [exists m, t; auto|exact I]. }
        exists out. split; [destruct R as [R|R]; rewrite R, Ev; exact Eo|]. split; [exact Lo|]. intros j. rewrite G. split.
        * intros (m & t & Es & M1 & M2 & J1 & J2). exists a, b. split; [exact Sp|]. split; [exact L|]. split; [exact Enough'|]. right.
          split; [exact No|]. destruct FV as [(m' & t' & Em & M1' & M2' & F)|[Em _]]; [|congruence].
          apply F. assert (Es' : seq m (t - m) = seq m' (t' - m')) by congruence.
          assert (Hin : In (j - a) (seq m (t - m))) by (apply in_seq; lia). rewrite Es' in Hin. apply in_seq in Hin. lia.
        * intros (a' & b' & Sp' & _ & _ & D). destruct (Uniq _ _ Sp') as [-> ->].
          destruct D as [(l' & p' & base' & top' & El & SG' & _)|[_ X]]; [exfalso; exact (No _ _ _ _ El SG')|].
          destruct FV as [(m' & t' & Em & M1' & M2' & F)|[Em F]].
          -- apply F in X. exists m', t'. split; [exact Em|]. lia.
          -- exfalso. destruct X as (base & top & m & LR & SR & _). exact (F _ _ LR SR).
    - cbn [bind].
      assert (Enough : (3 <? values_between (map visible v) a b) = true <->
        (3 < values_between (map visible v) a b \/ exists l', ldr = Some l' /\ 3 < values_between l' a b)).
      { rewrite Nat.ltb_lt. split; [auto|]. intros [X|(l' & El & X)]; [exact X|congruence]. }
      rewrite orb_false_l. destruct (3 <? values_between (map visible v) a b) eqn:En.
      2:{ eexists. split; [reflexivity|]. split; [exact NL|]. intros j. rewrite NG. split; [intros []|].
          intros (a' & b' & Sp' & _ & X & _). destruct (Uniq _ _ Sp') as [-> ->]. apply Enough in X. discriminate. }
      assert (Enough' := proj1 Enough eq_refl). rewrite Ev. cbn [bind].
      destruct (Finish fv) as (out & Eo & Lo & G).
      { destruct FV as [(m & t & -> & M1 & M2 & _)|[-> _]]; [exists m, t; auto|exact I]. }
      exists out. split; [exact Eo|]. split; [exact Lo|]. intros j. rewrite G. split.
      + intros (m & t & Es & M1 & M2 & J1 & J2). exists a, b. split; [exact Sp|]. split; [exact L|]. split; [exact Enough'|]. right.
        split; [intros l' p base top El; congruence|]. destruct FV as [(m' & t' & Em & M1' & M2' & F)|[Em _]]; [|congruence].
        apply F. assert (Es' : seq m (t - m) = seq m' (t' - m')) by congruence.
        assert (Hin : In (j - a) (seq m (t - m))) by (apply in_seq; lia). rewrite Es' in Hin. apply in_seq in Hin. lia.
      + intros (a' & b' & Sp' & _ & _ & D). destruct (Uniq _ _ Sp') as [-> ->].
        destruct D as [(l' & p' & base' & top' & El & _)|[_ X]]; [congruence|].
        destruct FV as [(m' & t' & Em & M1' & M2' & F)|[Em F]].
        * apply F in X. exists m', t'. split; [exact Em|]. lia.
        * exfalso. destruct X as (base & top & m & LR & SR & _). exact (F _ _ LR SR).
  Qed.

  (** Any profile that reaches the last gate with two gates or more fails. *)
  Lemma melting_profile_top : forall a b, spans (warm_between cold warm tw) a b -> a < b -> S b = length tw -> ldr <> None ->
    melting_profile o i tw = Raise IndexError.
  Proof.
    intros a b Sp L Sb Hn. unfold melting_profile. rewrite Range, Hz, Hv.
    destruct (get_temp_indices_spec tw cold warm CW) as [[E No]|(a' & b' & Sp' & Lb & Hab & E)]; [exfalso; exact (No a (proj1 Sp))|].
    destruct (spans_unique _ _ _ _ _ Sp Sp') as [<- <-]. rewrite E, seq_length.
    replace (S b - a <=? 1) with false by (symmetry; apply Nat.leb_gt; lia).
    rewrite (gather_seq z) by lia. rewrite (gather_seq v) by lia. cbn [bind].
    destruct (mo_ldr o) as [ldrs|]; [|congruence]. assert (Ll' := Ll _ Hl). rewrite (gather_seq (nth i ldrs [])) by lia. cbn [bind].
    assert (Dl : length (filled_diff (nth i ldrs [])) = length tw - 1).
    { unfold filled_diff. rewrite map2_length, <- Ll'. destruct (nth i ldrs []) as [|x r]; cbn [tl length]; lia. }
    rewrite gather_seq_short by lia. reflexivity.
  Qed.
End Profile.
