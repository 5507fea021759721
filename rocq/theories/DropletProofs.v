(** Proofs about peaks, liquid layers and gap filling. *)
From Verif Require Import Base ArrayModel ArrayProofs FillModel FillProofs TimeModel TimeProofs GridModel GridProofs
  LayerModel ImageModel ImageProofs ImageSpec FallingProofs InstrumentProofs DropletModel DropletSpec.
From Coq Require Import Lqa Qabs.
Open Scope nat_scope.

(** ** Generic *)
Lemma item_ok {A} (l : list A) i x : item l i = Ok x <-> nth_error l i = Some x.
Proof. unfold item. destruct (nth_error l i); split; intros H; congruence. Qed.
Lemma item_lt {A} (l : list A) i : i < length l -> exists x, item l i = Ok x /\ nth_error l i = Some x.
Proof. intros H. destruct (nth_error_lt_Some l i H) as [x E]. exists x. split; [apply item_ok|]; exact E. Qed.

Lemma nth_error_skipn' {A} (l : list A) a i : nth_error (skipn a l) i = nth_error l (a + i).
Proof.
  revert l. induction a as [|a IH]; intros l; [reflexivity|]. destruct l as [|x l]; cbn [skipn Nat.add nth_error].
  - destruct i; reflexivity.
  - apply IH.
Qed.
Lemma nth_error_firstn' {A} (l : list A) n i : nth_error (firstn n l) i = if i <? n then nth_error l i else None.
Proof.
  revert l i. induction n as [|n IH]; intros l i; cbn [firstn].
  - destruct i; reflexivity.
  - destruct l as [|x l].
    + destruct i; cbn [nth_error]; destruct (_ <? _); reflexivity.
    + destruct i as [|i]; [reflexivity|]. cbn [nth_error]. rewrite IH. reflexivity.
Qed.
Lemma nth_error_section {A} a b (l : list A) i :
  nth_error (section a b l) i = if i <? b - a then nth_error l (a + i) else None.
Proof. unfold section. rewrite nth_error_firstn', nth_error_skipn'. reflexivity. Qed.

Lemma argmax_from_spec l : forall pre best bestv,
  nth_error pre best = Some bestv -> (forall k w, nth_error pre k = Some w -> (w <= bestv)%Q) ->
  exists v, nth_error (pre ++ l) (argmax_from (length pre) best bestv l) = Some v /\
    forall k w, nth_error (pre ++ l) k = Some w -> (w <= v)%Q.
Proof.
  induction l as [|x l IH]; intros pre best bestv Hb Hmin; simpl.
  - exists bestv. rewrite app_nil_r. auto.
  - assert (Happ : pre ++ x :: l = (pre ++ [x]) ++ l) by (rewrite <- app_assoc; reflexivity).
    assert (Hlen : S (length pre) = length (pre ++ [x])) by (rewrite app_length; simpl; lia).
    assert (Hx : nth_error (pre ++ [x]) (length pre) = Some x).
    { rewrite nth_error_app2, Nat.sub_diag by lia. reflexivity. }
    rewrite Happ. destruct (qlt bestv x) eqn:E; rewrite Hlen; apply IH.
    + exact Hx.
    + apply qlt_iff in E. intros k w Hk. destruct (Nat.lt_ge_cases k (length pre)) as [Hlt|Hge].
      * rewrite nth_error_app1 in Hk by exact Hlt. apply Hmin in Hk. lra.
      * rewrite nth_error_app2 in Hk by exact Hge. destruct (k - length pre) as [|[|?]]; simpl in Hk; try discriminate.
        injection Hk as <-. lra.
    + rewrite nth_error_app1; [exact Hb|]. eapply nth_error_Some_lt. exact Hb.
    + apply qlt_false in E. intros k w Hk. destruct (Nat.lt_ge_cases k (length pre)) as [Hlt|Hge].
      * rewrite nth_error_app1 in Hk by exact Hlt. apply Hmin in Hk. lra.
      * rewrite nth_error_app2 in Hk by exact Hge. destruct (k - length pre) as [|[|?]]; simpl in Hk; try discriminate.
        injection Hk as <-. lra.
Qed.
Lemma argmax_spec l i : argmax l = Ok i ->
  exists v, nth_error l i = Some v /\ forall k w, nth_error l k = Some w -> (w <= v)%Q.
Proof.
  destruct l as [|x l]; simpl; [discriminate|]. intros [= <-].
  apply (argmax_from_spec l [x] 0 x); [reflexivity|].
  intros [|[|k]] w; simpl; try discriminate. intros [= <-]. lra.
Qed.

Lemma where1_last l k r : where1 l = k :: r ->
  nth_error l (last (k :: r) 0) = Some true /\ forall k', last (k :: r) 0 < k' -> nth_error l k' <> Some true.
Proof.
  intros H. pose proof (where1_sorted l) as HS. rewrite H in HS.
  assert (Hin : forall s : list nat, s <> [] -> In (last s 0) s).
  { induction s as [|a [|b s] IH]; intros Hs; [congruence|left; reflexivity|]. right. apply IH. discriminate. }
  split.
  - apply where1_in. rewrite H. apply Hin. discriminate.
  - intros k' Hlt Hk'. apply where1_in in Hk'. rewrite H in Hk'.
    assert (G : forall s : list nat, StronglySorted lt s -> forall x, In x s -> x <= last s 0).
    { induction s as [|a s IH]; intros Hs x Hx; [destruct Hx|]. apply StronglySorted_inv in Hs as [Hs Hf].
      destruct s as [|b s]; [destruct Hx as [->|[]]; cbn; lia|].
      destruct Hx as [->|Hx]; [|apply IH; assumption].
      rewrite Forall_forall in Hf. pose proof (Hf b (or_introl eq_refl)). 
      pose proof (IH Hs b (or_introl eq_refl)). cbn [last] in *. lia. }
    specialize (G _ HS k' Hk'). lia.
Qed.
Lemma where1_nil l : where1 l = [] <-> forall k, nth_error l k <> Some true.
Proof.
  split.
  - intros H k Hk. apply where1_in in Hk. rewrite H in Hk. destruct Hk.
  - intros H. destruct (where1 l) as [|k r] eqn:E; [reflexivity|]. exfalso.
    apply (H k). apply where1_in. rewrite E. left. reflexivity.
Qed.

Lemma qdiv_lt a b c : (0 < c)%Q -> (a / c < b <-> a < b * c)%Q.
Proof.
  intros Hc. split; intros H.
  - apply (Qmult_lt_r _ _ c Hc) in H. assert (E : (a / c * c == a)%Q) by (field; lra). lra.
  - apply (Qmult_lt_r _ _ c Hc). assert (E : (a / c * c == a)%Q) by (field; lra). lra.
Qed.
Lemma qdiv_gt a b c : (0 < c)%Q -> (b < a / c <-> b * c < a)%Q.
Proof.
  intros Hc. split; intros H.
  - apply (Qmult_lt_r _ _ c Hc) in H. assert (E : (a / c * c == a)%Q) by (field; lra). lra.
  - apply (Qmult_lt_r _ _ c Hc). assert (E : (a / c * c == a)%Q) by (field; lra). lra.
Qed.

(** ** Base of a peak *)
Section Base.
  Variables (dprof : list Q) (p : nat) (dist : Z) (lim : Q).
  Let d := section (Z.to_nat (Z.max (Z.of_nat p - dist) 0)) p dprof.
  Let start := Z.to_nat (Z.max (Z.of_nat p - dist) 0).

  Lemma base_window k x : (below_peak p dist k /\ nth_error dprof k = Some x) <->
    (start <= k /\ nth_error d (k - start) = Some x).
  Proof.
    unfold below_peak, d. rewrite nth_error_section. fold start.
    split.
    - intros [[H1 H2] H3]. assert (start <= k) by (unfold start; lia). split; [assumption|].
      replace (k - start <? p - start) with true by (symmetry; apply Nat.ltb_lt; lia).
      replace (start + (k - start)) with k by lia. exact H3.
    - intros [H1 H2]. destruct (k - start <? p - start) eqn:E; [|discriminate]. apply Nat.ltb_lt in E.
      replace (start + (k - start)) with k in H2 by lia. split; [|exact H2]. unfold start in *. lia.
  Qed.
  Lemma base_window' i x : nth_error d i = Some x -> below_peak p dist (start + i) /\ nth_error dprof (start + i) = Some x.
  Proof. intros H. apply base_window. split; [lia|]. replace (start + i - start) with i by lia. exact H. Qed.

  Lemma greatest_iff m : greatest (nth_error dprof) (below_peak p dist) m <->
    (exists i, nth_error d i = Some m) /\ forall i x, nth_error d i = Some x -> (x <= m)%Q.
  Proof.
    split.
    - intros [(k & Hk & E) H]. split.
      + exists (k - start). apply base_window. auto.
      + intros i x Hi. apply base_window' in Hi as [H1 H2]. exact (H _ _ H1 H2).
    - intros [(i & E) H]. split.
      + apply base_window' in E as [H1 H2]. eauto.
      + intros k x H1 H2. assert (G : start <= k /\ nth_error d (k - start) = Some x) by (apply base_window; auto).
        exact (H _ _ (proj2 G)).
  Qed.

  Lemma ind_base_cases : (0 < lim)%Q ->
    (d = [] /\ ind_base dprof p dist lim = Raise ValueError) \/
    (exists m, greatest (nth_error dprof) (below_peak p dist) m /\
       ((exists b, ind_base dprof p dist lim = Ok b /\ base_of (nth_error dprof) p dist lim b) \/
        (ind_base dprof p dist lim = Raise IndexError /\
         forall k y, below_peak p dist k -> nth_error dprof k = Some y -> (y * lim <= m)%Q))).
  Proof.
    intros Hlim. unfold ind_base. fold start. change (section start p dprof) with d.
    destruct (argmax d) as [mind|e] eqn:Ea.
    2:{ left. destruct d; [|discriminate]. cbn in Ea. split; [reflexivity|]. cbn [bind]. congruence. }
    right. cbn [bind]. destruct (argmax_spec d mind Ea) as (m & Em & Hm).
    assert (G : greatest (nth_error dprof) (below_peak p dist) m) by (apply greatest_iff; eauto).
    exists m. split; [exact G|]. unfold item. rewrite Em. cbn [bind].
    assert (T : forall i, nth_error (map (fun x => qlt (m / lim) x) d) i = Some true <->
                exists x, nth_error d i = Some x /\ (m < x * lim)%Q).
    { intros i. rewrite nth_error_map'. destruct (nth_error d i) as [x|]; cbn [option_map]; [|split; [discriminate|intros (x & H & _); discriminate]].
      split; [intros H; assert (H' : qlt (m / lim) x = true) by congruence|intros (x' & E & H)].
      - apply qlt_iff in H'. exists x. split; [reflexivity|]. apply qdiv_lt; assumption.
      - assert (x' = x) by congruence. subst. f_equal. apply qlt_iff. apply qdiv_lt; assumption. }
    destruct (where1 (map (fun x => qlt (m / lim) x) d)) as [|i r] eqn:W.
    - right. split; [reflexivity|]. intros k y Hk Ey. apply where1_nil with (k := k - start) in W.
      destruct (proj1 (base_window k y) (conj Hk Ey)) as [_ Hd].
      destruct (Qlt_le_dec m (y * lim)) as [L|L]; [|exact L]. exfalso. apply W. apply T. eauto.
    - left. destruct (where1_hd _ _ _ W) as [W1 W2]. apply T in W1 as (x & Ex & Hx).
      destruct (base_window' _ _ Ex) as [B1 B2]. exists (start + i). split; [reflexivity|].
      exists m, x. repeat split; try assumption; try apply B1; try apply G.
      intros k y Hk Hlt Ey. destruct (proj1 (base_window k y) (conj Hk Ey)) as [Hs Hd].
      destruct (Qlt_le_dec m (y * lim)) as [L|L]; [|exact L]. exfalso.
      apply (W2 (k - start)); [lia|]. apply T. eauto.
  Qed.
End Base.

Lemma greatest_unique d w m m' : greatest d w m -> greatest d w m' -> (m == m')%Q.
Proof.
  intros [(k & Hk & E) H] [(k' & Hk' & E') H']. apply Qle_antisym; [exact (H' _ _ Hk E)|exact (H _ _ Hk' E')].
Qed.
Lemma least_unique d w m m' : least d w m -> least d w m' -> (m == m')%Q.
Proof.
  intros [(k & Hk & E) H] [(k' & Hk' & E') H']. apply Qle_antisym; [exact (H _ _ Hk' E')|exact (H' _ _ Hk E)].
Qed.

Lemma base_of_unique d p dist lim b b' : base_of d p dist lim b -> base_of d p dist lim b' -> b = b'.
Proof.
  intros (m & x & G & B & E & L & F) (m' & x' & G' & B' & E' & L' & F').
  pose proof (greatest_unique _ _ _ _ G G') as Em.
  destruct (Nat.lt_trichotomy b b') as [Hl|[->|Hl]]; [|reflexivity|]; exfalso.
  - specialize (F' b x B Hl E). lra.
  - specialize (F b' x' B' Hl E'). lra.
Qed.

Lemma ind_base_iff dprof p dist lim b : (0 < lim)%Q ->
  ind_base dprof p dist lim = Ok b <-> base_of (nth_error dprof) p dist lim b.
Proof.
  intros Hl. destruct (ind_base_cases dprof p dist lim Hl) as [[E R]|(m & G & [(b' & E & B)|[E F]])].
  - rewrite R. split; [discriminate|]. intros (m & x & _ & B & Eb & _). exfalso.
    pose proof (proj1 (base_window dprof p dist b x) (conj B Eb)) as [_ H]. rewrite E in H.
    destruct (b - _); discriminate.
  - rewrite E. split; [intros H; assert (b' = b) by congruence; subst; exact B|].
    intros H. f_equal. eapply base_of_unique; eassumption.
  - rewrite E. split; [discriminate|]. intros (m' & x & G' & B & Eb & L & _). exfalso.
    pose proof (greatest_unique _ _ _ _ G G'). specialize (F b x B Eb). lra.
Qed.

Lemma ind_base_errors dprof p dist lim : (1 < lim)%Q ->
  ((exists b, ind_base dprof p dist lim = Ok b) <->
     exists k x, below_peak p dist k /\ nth_error dprof k = Some x /\ (0 < x)%Q) /\
  (ind_base dprof p dist lim = Raise ValueError <->
     forall k, below_peak p dist k -> nth_error dprof k = None) /\
  (forall e, ind_base dprof p dist lim = Raise e -> e = ValueError \/ e = IndexError).
Proof.
  intros Hl. assert (Hl0 : (0 < lim)%Q) by lra.
  destruct (ind_base_cases dprof p dist lim Hl0) as [[E R]|(m & G & C)].
  - rewrite R. assert (N : forall k, below_peak p dist k -> nth_error dprof k = None).
    { intros k Hk. destruct (nth_error dprof k) as [x|] eqn:Ex; [|reflexivity]. exfalso.
      pose proof (proj1 (base_window dprof p dist k x) (conj Hk Ex)) as [_ H]. rewrite E in H.
      destruct (k - _); discriminate. }
    split; [|split].
    + split; [intros [b H]; discriminate|]. intros (k & x & Hk & Ex & _). rewrite (N k Hk) in Ex. discriminate.
    + tauto.
    + intros e H. left. congruence.
  - destruct G as [(k0 & Hk0 & E0) G]. split; [|split].
    + split.
      * intros [b Hb]. destruct (proj1 (ind_base_iff dprof p dist lim b Hl0) Hb) as (m' & x & G' & B & Ex & L & _).
        exists b, x. split; [exact B|]. split; [exact Ex|]. pose proof (proj2 G' b x B Ex) as Hx.
        destruct (Qlt_le_dec 0 x) as [|Hn]; [assumption|exfalso]. nra.
      * intros (k & x & Hk & Ex & Hx). destruct C as [(b & Hb & _)|[_ F]]; [eauto|exfalso].
        pose proof (G k x Hk Ex). specialize (F k0 m Hk0 E0). nra.
    + split.
      * intros R. destruct C as [(b & Hb & _)|[R' _]]; congruence.
      * intros N. rewrite (N k0 Hk0) in E0. discriminate.
    + intros e R. destruct C as [(b & Hb & _)|[R' _]]; [congruence|]. right. congruence.
Qed.

(** ** Top of a peak *)
Section Top.
  Variables (dprof : list Q) (p nprof : nat) (dist : Z) (lim : Q).
  Let stop := Z.to_nat (Z.min (Z.of_nat p + dist) (Z.of_nat nprof)).
  Let d := section p stop dprof.

  Lemma top_window k x : (above_peak p dist nprof k /\ nth_error dprof k = Some x) <->
    (p <= k /\ nth_error d (k - p) = Some x).
  Proof.
    unfold above_peak, d. rewrite nth_error_section.
    split.
    - intros [(H1 & H2 & H3) H4]. split; [assumption|].
      replace (k - p <? stop - p) with true by (symmetry; apply Nat.ltb_lt; unfold stop; lia).
      replace (p + (k - p)) with k by lia. exact H4.
    - intros [H1 H2]. destruct (k - p <? stop - p) eqn:E; [|discriminate]. apply Nat.ltb_lt in E.
      replace (p + (k - p)) with k in H2 by lia. split; [|exact H2]. unfold stop in *. lia.
  Qed.
  Lemma top_window' i x : nth_error d i = Some x -> above_peak p dist nprof (p + i) /\ nth_error dprof (p + i) = Some x.
  Proof. intros H. apply top_window. split; [lia|]. replace (p + i - p) with i by lia. exact H. Qed.

  Lemma least_iff m : least (nth_error dprof) (above_peak p dist nprof) m <->
    (exists i, nth_error d i = Some m) /\ forall i x, nth_error d i = Some x -> (m <= x)%Q.
  Proof.
    split.
    - intros [(k & Hk & E) H]. split.
      + exists (k - p). apply top_window. auto.
      + intros i x Hi. apply top_window' in Hi as [H1 H2]. exact (H _ _ H1 H2).
    - intros [(i & E) H]. split.
      + apply top_window' in E as [H1 H2]. eauto.
      + intros k x H1 H2. assert (G : p <= k /\ nth_error d (k - p) = Some x) by (apply top_window; auto).
        exact (H _ _ (proj2 G)).
  Qed.

  Lemma ind_top_cases : (0 < lim)%Q ->
    (d = [] /\ ind_top dprof p nprof dist lim = Raise ValueError) \/
    (exists m, least (nth_error dprof) (above_peak p dist nprof) m /\
       ((exists t, ind_top dprof p nprof dist lim = Ok t /\ top_of (nth_error dprof) p nprof dist lim t) \/
        (ind_top dprof p nprof dist lim = Raise IndexError /\
         forall k y, above_peak p dist nprof k -> nth_error dprof k = Some y -> (m <= y * lim)%Q))).
  Proof.
    intros Hlim. unfold ind_top. fold stop. change (section p stop dprof) with d.
    destruct (argmin d) as [mind|e] eqn:Ea.
    2:{ left. destruct d; [|discriminate]. cbn in Ea. split; [reflexivity|]. cbn [bind]. congruence. }
    right. cbn [bind]. destruct (FillProofs.argmin_spec d mind Ea) as (m & Em & Hm).
    assert (G : least (nth_error dprof) (above_peak p dist nprof) m) by (apply least_iff; eauto).
    exists m. split; [exact G|]. unfold item. rewrite Em. cbn [bind].
    assert (T : forall i, nth_error (map (fun x => qlt x (m / lim)) d) i = Some true <->
                exists x, nth_error d i = Some x /\ (x * lim < m)%Q).
    { intros i. rewrite nth_error_map'. destruct (nth_error d i) as [x|]; cbn [option_map]; [|split; [discriminate|intros (x & H & _); discriminate]].
      split; [intros H; assert (H' : qlt x (m / lim) = true) by congruence|intros (x' & E & H)].
      - apply qlt_iff in H'. exists x. split; [reflexivity|]. apply qdiv_gt; assumption.
      - assert (x' = x) by congruence. subst. f_equal. apply qlt_iff. apply qdiv_gt; assumption. }
    destruct (where1 (map (fun x => qlt x (m / lim)) d)) as [|i r] eqn:W.
    - right. split; [reflexivity|]. intros k y Hk Ey. apply where1_nil with (k := k - p) in W.
      destruct (proj1 (top_window k y) (conj Hk Ey)) as [_ Hd].
      destruct (Qlt_le_dec (y * lim) m) as [L|L]; [|exact L]. exfalso. apply W. apply T. eauto.
    - left. destruct (where1_last _ _ _ W) as [W1 W2]. apply T in W1 as (x & Ex & Hx).
      destruct (top_window' _ _ Ex) as [B1 B2]. set (t := last (i :: r) 0) in *. exists (p + t + 1).
      split; [reflexivity|]. exists m, x, (p + t). split; [lia|].
      repeat split; try assumption; try apply B1; try apply G.
      intros k y Hk Hlt Ey. destruct (proj1 (top_window k y) (conj Hk Ey)) as [Hs Hd].
      destruct (Qlt_le_dec (y * lim) m) as [L|L]; [|exact L]. exfalso.
      apply (W2 (k - p)); [lia|]. apply T. eauto.
  Qed.
End Top.

Lemma top_of_unique d p n dist lim t t' : top_of d p n dist lim t -> top_of d p n dist lim t' -> t = t'.
Proof.
  intros (m & x & k & -> & G & B & E & L & F) (m' & x' & k' & -> & G' & B' & E' & L' & F').
  pose proof (least_unique _ _ _ _ G G') as Em. f_equal.
  destruct (Nat.lt_trichotomy k k') as [Hl|[->|Hl]]; [|reflexivity|]; exfalso.
  - specialize (F k' x' B' Hl E'). lra.
  - specialize (F' k x B Hl E). lra.
Qed.

Lemma ind_top_iff dprof p n dist lim t : (0 < lim)%Q ->
  ind_top dprof p n dist lim = Ok t <-> top_of (nth_error dprof) p n dist lim t.
Proof.
  intros Hl. destruct (ind_top_cases dprof p n dist lim Hl) as [[E R]|(m & G & [(b' & E & B)|[E F]])].
  - rewrite R. split; [discriminate|]. intros (m & x & k & _ & _ & B & Eb & _). exfalso.
    pose proof (proj1 (top_window dprof p n dist k x) (conj B Eb)) as [_ H]. rewrite E in H.
    destruct (k - _); discriminate.
  - rewrite E. split; [intros H; assert (b' = t) by congruence; subst; exact B|].
    intros H. f_equal. eapply top_of_unique; eassumption.
  - rewrite E. split; [discriminate|]. intros (m' & x & k & _ & G' & B & Eb & L & _). exfalso.
    pose proof (least_unique _ _ _ _ G G'). specialize (F k x B Eb). lra.
Qed.

Lemma ind_top_errors dprof p n dist lim : (1 < lim)%Q ->
  ((exists t, ind_top dprof p n dist lim = Ok t) <->
     exists k x, above_peak p dist n k /\ nth_error dprof k = Some x /\ (x < 0)%Q) /\
  (ind_top dprof p n dist lim = Raise ValueError <->
     forall k, above_peak p dist n k -> nth_error dprof k = None) /\
  (forall e, ind_top dprof p n dist lim = Raise e -> e = ValueError \/ e = IndexError).
Proof.
  intros Hl. assert (Hl0 : (0 < lim)%Q) by lra.
  destruct (ind_top_cases dprof p n dist lim Hl0) as [[E R]|(m & G & C)].
  - rewrite R. assert (N : forall k, above_peak p dist n k -> nth_error dprof k = None).
    { intros k Hk. destruct (nth_error dprof k) as [x|] eqn:Ex; [|reflexivity]. exfalso.
      pose proof (proj1 (top_window dprof p n dist k x) (conj Hk Ex)) as [_ H]. rewrite E in H.
      destruct (k - _); discriminate. }
    split; [|split].
    + split; [intros [b H]; discriminate|]. intros (k & x & Hk & Ex & _). rewrite (N k Hk) in Ex. discriminate.
    + tauto.
    + intros e H. left. congruence.
  - destruct G as [(k0 & Hk0 & E0) G]. split; [|split].
    + split.
      * intros [b Hb]. destruct (proj1 (ind_top_iff dprof p n dist lim b Hl0) Hb) as (m' & x & k & _ & G' & B & Ex & L & _).
        exists k, x. split; [exact B|]. split; [exact Ex|]. pose proof (proj2 G' k x B Ex) as Hx.
        destruct (Qlt_le_dec x 0) as [|Hn]; [assumption|exfalso]. nra.
      * intros (k & x & Hk & Ex & Hx). destruct C as [(b & Hb & _)|[_ F]]; [eauto|exfalso].
        pose proof (G k x Hk Ex). specialize (F k0 m Hk0 E0). nra.
    + split.
      * intros R. destruct C as [(b & Hb & _)|[R' _]]; congruence.
      * intros N. rewrite (N k0 Hk0) in E0. discriminate.
    + intros e R. destruct C as [(b & Hb & _)|[R' _]]; [congruence|]. right. congruence.
Qed.

Lemma forall2_length {A B} (R : A -> B -> Prop) l l' : Forall2 R l l' -> length l = length l'.
Proof. induction 1; cbn; auto. Qed.
Lemma Forall2_qeq_trans a b c : Forall2 Qeq a b -> Forall2 Qeq b c -> Forall2 Qeq a c.
Proof.
  intros H. revert c. induction H as [|x y l l' Hx H IH]; intros c Hc; inversion Hc; subst; constructor; auto.
  etransitivity; eassumption.
Qed.
Lemma Forall2_qeq_nth a b i x y : Forall2 Qeq a b -> nth_error a i = Some x -> nth_error b i = Some y -> (x == y)%Q.
Proof.
  intros H. revert i. induction H as [|u v l l' Hu H IH]; intros [|i] Hx Hy; cbn [nth_error] in *; try discriminate.
  - congruence.
  - eauto.
Qed.
(** Two sorted rearrangements of the same values are equal. *)
Lemma sorted_perm_qeq s s' : Permutation s s' ->
  (forall i j x y, i <= j -> nth_error s i = Some x -> nth_error s j = Some y -> (x <= y)%Q) ->
  (forall i j x y, i <= j -> nth_error s' i = Some x -> nth_error s' j = Some y -> (x <= y)%Q) ->
  Forall2 Qeq s s'.
Proof.
  revert s'. induction s as [|x s IH]; intros s' P S S'.
  - apply Permutation_nil in P. subst. constructor.
  - destruct s' as [|y s']; [apply Permutation_sym, Permutation_nil in P; discriminate|].
    assert (Hxy : (x == y)%Q).
    { apply Qle_antisym.
      - assert (I : In y (x :: s)) by (eapply Permutation_in; [apply Permutation_sym; exact P|left; reflexivity]).
        apply In_nth_error in I as [j Hj]. exact (S 0 j x y (Nat.le_0_l _) eq_refl Hj).
      - assert (I : In x (y :: s')) by (eapply Permutation_in; [exact P|left; reflexivity]).
        apply In_nth_error in I as [j Hj]. exact (S' 0 j y x (Nat.le_0_l _) eq_refl Hj). }
    (* the rest: compare with y replaced *)
    assert (Q2 : exists s2, Permutation s s2 /\ Forall2 Qeq s2 s').
    { assert (I : In x (y :: s')) by (eapply Permutation_in; [exact P|left; reflexivity]).
      destruct I as [E|I].
      - subst. exists s'. split; [eapply Permutation_cons_inv; exact P|].
        clear. induction s'; constructor; [reflexivity|assumption].
      - apply in_split in I as (l1 & l2 & ->).
        assert (P2 : Permutation s (y :: l1 ++ l2)).
        { apply (Permutation_cons_inv (a := x)). eapply Permutation_trans; [exact P|].
          change (y :: l1 ++ x :: l2) with ((y :: l1) ++ x :: l2). apply Permutation_sym. exact (Permutation_middle (y :: l1) l2 x). }
        exists (l1 ++ y :: l2). split.
        + eapply Permutation_trans; [exact P2|]. apply Permutation_middle.
        + clear - Hxy. induction l1 as [|a l1 IH]; cbn; constructor; try reflexivity; [symmetry; exact Hxy| |exact IH].
          clear. induction l2; constructor; [reflexivity|assumption]. }
    destruct Q2 as (s2 & P2 & F2). constructor; [exact Hxy|].
    eapply Forall2_qeq_trans; [|exact F2]. apply IH; [exact P2| |].
    + intros i j u v Hij Hu Hv. apply (S (Datatypes.S i) (Datatypes.S j) u v); [lia|exact Hu|exact Hv].
    + intros i j u v Hij Hu Hv.
      destruct (nth_error_lt_Some s' i) as [u' Hu'].
      { rewrite <- (forall2_length _ _ _ F2). eapply nth_error_Some_lt. exact Hu. }
      destruct (nth_error_lt_Some s' j) as [v' Hv'].
      { rewrite <- (forall2_length _ _ _ F2). eapply nth_error_Some_lt. exact Hv. }
      pose proof (Forall2_qeq_nth _ _ _ _ _ F2 Hu Hu'). pose proof (Forall2_qeq_nth _ _ _ _ _ F2 Hv Hv').
      pose proof (S' (Datatypes.S i) (Datatypes.S j) u' v' ltac:(lia) Hu' Hv'). lra.
Qed.

(** ** n_elements *)
Lemma qinsert_perm x l : Permutation (x :: l) (qinsert x l).
Proof.
  induction l as [|y l IH]; cbn [qinsert]; [apply Permutation_refl|].
  destruct (Qle_bool x y); [apply Permutation_refl|].
  eapply Permutation_trans; [apply perm_swap|]. apply perm_skip. exact IH.
Qed.
Lemma qsort_perm l : Permutation l (qsort l).
Proof.
  induction l as [|x l IH]; cbn [qsort fold_right]; [apply Permutation_refl|].
  eapply Permutation_trans; [apply perm_skip; exact IH|]. apply qinsert_perm.
Qed.
Lemma qinsert_sorted x l : StronglySorted Qle l -> StronglySorted Qle (qinsert x l).
Proof.
  induction l as [|y l IH]; intros Hs; cbn [qinsert].
  - constructor; constructor.
  - apply StronglySorted_inv in Hs as [Hs Hf]. destruct (Qle_bool x y) eqn:E.
    + apply Qle_bool_iff in E. constructor; [constructor; assumption|]. constructor; [exact E|].
      eapply Forall_impl; [|exact Hf]. intros z Hz. lra.
    + assert (Hyx : (y <= x)%Q).
      { destruct (Qlt_le_dec y x) as [H|H]; [lra|]. apply Qle_bool_iff in H. congruence. }
      constructor; [apply IH; exact Hs|].
      apply (Permutation_Forall (qinsert_perm x l)). constructor; assumption.
Qed.
Lemma qsort_sorted l : StronglySorted Qle (qsort l).
Proof. induction l as [|x l IH]; cbn [qsort fold_right]; [constructor|]. apply qinsert_sorted. exact IH. Qed.
Lemma sorted_nth l : StronglySorted Qle l ->
  forall i j x y, i <= j -> nth_error l i = Some x -> nth_error l j = Some y -> (x <= y)%Q.
Proof.
  induction 1 as [|a l Hs IH Hf]; intros i j x y Hij Hi Hj; [destruct i; discriminate|].
  rewrite Forall_forall in Hf. destruct i as [|i], j as [|j]; cbn [nth_error] in *; try lia.
  - assert (x = y) by congruence. subst. lra.
  - assert (a = x) by congruence. subst. apply Hf. eapply nth_error_In. exact Hj.
  - eapply (IH i j); [lia|eassumption|eassumption].
Qed.

Lemma median_iff l : match median l with Some m => is_median l m | None => l = [] end.
Proof.
  unfold median. pose proof (qsort_perm l) as Hp. pose proof (Permutation_length Hp) as Hl.
  rewrite <- Hl. destruct l as [|x l]; [reflexivity|]. set (l0 := x :: l) in *. set (s := qsort l0) in *.
  assert (Hn : 0 < length l0) by (cbn; lia).
  assert (H1 : (length l0 - 1) / 2 < length s).
  { rewrite <- Hl. apply Nat.div_lt_upper_bound; lia. }
  assert (H2 : length l0 / 2 < length s).
  { rewrite <- Hl. apply Nat.div_lt_upper_bound; lia. }
  destruct (nth_error_lt_Some s _ H1) as [a Ea], (nth_error_lt_Some s _ H2) as [b Eb]. rewrite Ea, Eb.
  exists s, a, b. split; [exact Hp|]. split; [apply sorted_nth; apply qsort_sorted|].
  split; [exact Ea|]. split; [exact Eb|]. field.
Qed.
Lemma is_median_between l m lo hi : is_median l m -> (forall x, In x l -> lo <= x /\ x <= hi)%Q -> (lo <= m /\ m <= hi)%Q.
Proof.
  intros (s & a & b & P & _ & Ea & Eb & E) H.
  assert (Ia : In a l) by (eapply Permutation_in; [apply Permutation_sym; exact P|eapply nth_error_In; exact Ea]).
  assert (Ib : In b l) by (eapply Permutation_in; [apply Permutation_sym; exact P|eapply nth_error_In; exact Eb]).
  destruct (H a Ia), (H b Ib). split; lra.
Qed.

Lemma diffs_steps array : array <> [] -> steps_of array (diffs array).
Proof.
  intros Hne. unfold diffs. destruct array as [|x r]; [congruence|]. cbn [tl]. clear Hne. split.
  - rewrite map2_length. cbn [length]. lia.
  - intros i d Hd. rewrite nth_error_map2 in Hd. cbn [nth_error].
    destruct (nth_error (x :: r) i) as [a|]; [|discriminate]. destruct (nth_error r i) as [b|]; [|discriminate].
    exists a, b. split; [reflexivity|]. split; [reflexivity|]. assert (d = b - a)%Q by congruence. subst. lra.
Qed.

Lemma round_nearest q : nearest_integer q (round_half_even q).
Proof.
  unfold nearest_integer. destruct (round_half_even_spec q) as [H|[H E]].
  - left. set (n := inject_Z (round_half_even q)) in *.
    pose proof (Qle_Qabs (q - n)). pose proof (Qle_Qabs (n - q)).
    rewrite (Qabs_Qminus n q) in H1. split; lra.
  - right. split; [|exact E]. set (n := inject_Z (round_half_even q)) in *.
    destruct (Qlt_le_dec (q - n) 0) as [L|L].
    + right. rewrite Qabs_neg in H by lra. lra.
    + left. rewrite Qabs_pos in H by lra. lra.
Qed.
Lemma nearest_unique q n n' : nearest_integer q n -> nearest_integer q n' -> n = n'.
Proof.
  intros H H'.
  assert (A : forall k k' : Z, (inject_Z k < inject_Z k' + 1)%Q -> (k <= k')%Z).
  { intros k k' L. change 1%Q with (inject_Z 1) in L. rewrite <- inject_Z_plus in L. rewrite <- Zlt_Qlt in L. lia. }
  assert (B : forall k k' : Z, (inject_Z k <= inject_Z k' + 1)%Q -> (k <= k' + 1)%Z).
  { intros k k' L. change 1%Q with (inject_Z 1) in L. rewrite <- inject_Z_plus in L. rewrite <- Zle_Qle in L. lia. }
  destruct H as [[L1 L2]|[L E]], H' as [[M1 M2]|[M F]].
  - apply Z.le_antisymm; apply A; lra.
  - apply Z.le_antisymm; apply A; destruct M; lra.
  - apply Z.le_antisymm; apply A; destruct L; lra.
  - assert ((n <= n' + 1)%Z) by (apply B; destruct L, M; lra).
    assert ((n' <= n + 1)%Z) by (apply B; destruct L, M; lra).
    assert (n = n' \/ n = n' + 1 \/ n' = n + 1)%Z as [|[->| ->]] by lia; [assumption| |]; exfalso.
    + rewrite Z.even_add, F in E. discriminate.
    + rewrite Z.even_add, E in F. discriminate.
Qed.
Lemma nearest_compat q q' n : (q == q')%Q -> nearest_integer q n -> nearest_integer q' n.
Proof.
  intros E [[H1 H2]|[H F]]; [left; split; lra|right]. split; [|exact F]. destruct H; [left|right]; lra.
Qed.

Lemma n_elements_ok array dist pm n : n_elements array dist pm = Ok n <->
  exists steps d, steps_of array steps /\ is_median steps d /\ ~ (d == 0)%Q /\
    nearest_integer (if pm then dist / d / 60 else dist / d)%Q n.
Proof.
  unfold n_elements, mdiff. pose proof (median_iff (diffs array)) as M. split.
  - destruct (median (diffs array)) as [d|]; [|discriminate]. destruct (Qeq_bool d 0) eqn:E; [discriminate|].
    intros H. exists (diffs array), d. split.
    { apply diffs_steps. intros ->. destruct M as (s & a & b & P & _ & Ea & _). apply Permutation_nil in P. subst. discriminate. }
    split; [exact M|]. split; [apply Qeq_bool_neq; exact E|].
    assert (n = round_half_even (if pm then dist / d / 60 else dist / d)%Q) by congruence. subst. apply round_nearest.
  - intros (steps & d & [Hl Hs] & Hm & Hd & Hn).
    assert (Hne : array <> []) by (intros ->; discriminate).
    destruct (diffs_steps array Hne) as [Hl' Hs'].
    assert (Q2 : Forall2 Qeq steps (diffs array)).
    { apply InstrumentProofs.forall2_of_nth; [lia|]. intros i x y Hx Hy.
      destruct (Hs i x Hx) as (a & b & Ea & Eb & Ex), (Hs' i y Hy) as (a' & b' & Ea' & Eb' & Ey).
      assert (a' = a) by congruence. assert (b' = b) by congruence. subst. lra. }
    assert (Hm2 : exists m, median (diffs array) = Some m /\ (m == d)%Q).
    { assert (Hne' : steps <> []).
      { intros ->. destruct Hm as (s & a & b & P & _ & Ea & _). apply Permutation_nil in P. subst. discriminate. }
      destruct (median (diffs array)) as [m|].
      2:{ exfalso. rewrite M in Q2. inversion Q2; congruence. }
      exists m. split; [reflexivity|].
      destruct Hm as (s & a & b & P & S & Ea & Eb & Em), M as (s' & a' & b' & P' & S' & Ea' & Eb' & Em').
      assert (Q3 : Forall2 Qeq s s').
      { assert (exists s2, Permutation (diffs array) s2 /\ Forall2 Qeq s s2) as (s2 & P2 & F2).
        { clear - Q2 P. revert Q2. generalize (diffs array). intros l2 Q2. revert l2 Q2.
          induction P as [|x l l' P IH|x y l|l l' l'' P1 IH1 P2 IH2]; intros l2 Q2.
          - inversion Q2; subst. exists []. auto.
          - inversion Q2 as [|? x2 ? l2' Hx Hl]; subst. destruct (IH _ Hl) as (s2 & H1 & H2). exists (x2 :: s2). auto.
          - inversion Q2 as [|? x2 ? l2' Hx Hl]; subst. inversion Hl as [|? y2 ? l3 Hy Hl3]; subst.
            exists (y2 :: x2 :: l3). split; [apply perm_swap|]. auto.
          - destruct (IH1 _ Q2) as (s2 & H1 & H2). destruct (IH2 _ H2) as (s3 & H3 & H4). exists s3. split; [|exact H4].
            eapply Permutation_trans; eassumption. }
        assert (P3 : Permutation s2 s') by (eapply Permutation_trans; [apply Permutation_sym; exact P2|exact P']).
        assert (S2 : forall i j x y, i <= j -> nth_error s2 i = Some x -> nth_error s2 j = Some y -> (x <= y)%Q).
        { intros i j x y Hij Hx Hy.
          assert (G : forall k z, nth_error s2 k = Some z -> exists w, nth_error s k = Some w /\ (w == z)%Q).
          { clear - F2. induction F2 as [|w z s s2 Hw F IH]; intros k u Hk; [destruct k; discriminate|].
            destruct k as [|k]; cbn [nth_error] in *; [|eauto]. exists w. assert (z = u) by congruence. subst. auto. }
          destruct (G _ _ Hx) as (w & Hw & E1), (G _ _ Hy) as (u & Hu & E2). pose proof (S i j w u Hij Hw Hu). lra. }
        eapply Forall2_qeq_trans; [exact F2|]. apply sorted_perm_qeq; assumption. }
      assert (Hlen : length steps = length (diffs array)) by (eapply forall2_length; exact Q2).
      rewrite Hlen in Ea, Eb.
      pose proof (Forall2_qeq_nth _ _ _ _ _ Q3 Ea Ea'). pose proof (Forall2_qeq_nth _ _ _ _ _ Q3 Eb Eb'). lra. }
    destruct Hm2 as (m & -> & Em).
    replace (Qeq_bool m 0) with false.
    2:{ symmetry. apply not_true_iff_false. intros C. apply Qeq_bool_iff in C. apply Hd. lra. }
    f_equal. eapply nearest_unique; [apply round_nearest|]. destruct pm.
    + eapply nearest_compat; [|exact Hn]. rewrite Em. reflexivity.
    + eapply nearest_compat; [|exact Hn]. rewrite Em. reflexivity.
Qed.

Lemma steps_in array steps lo hi : steps_of array steps -> spacing_within array lo hi ->
  forall x, In x steps -> (lo <= x /\ x <= hi)%Q.
Proof.
  intros [_ H] S x I. apply In_nth_error in I as [i Hi]. destruct (H i x Hi) as (a & b & Ea & Eb & E).
  destruct (S i a b Ea Eb). split; lra.
Qed.
Lemma nearest_bounds q n : nearest_integer q n -> (- (1 # 2) <= q - inject_Z n /\ q - inject_Z n <= 1 # 2)%Q.
Proof. unfold nearest_integer. generalize (inject_Z n). intros z [[? ?]|[[?|?] _]]; split; lra. Qed.
Lemma n_elements_covers array dist pm lo hi : 2 <= length array -> (0 < lo)%Q -> spacing_within array lo hi ->
  exists n d, n_elements array dist pm = Ok n /\ (lo <= d /\ d <= hi)%Q /\
    (2 * Qabs (inject_Z n * d * (if pm then 60 else 1) - dist) <= d * (if pm then 60 else 1))%Q.
Proof.
  intros L Hlo S. assert (Hne : array <> []) by (intros ->; cbn in L; lia).
  pose proof (diffs_steps array Hne) as D. pose proof (median_iff (diffs array)) as M.
  destruct (median (diffs array)) as [d|] eqn:Em.
  2:{ destruct D as [D _]. rewrite M in D. cbn in D. lia. }
  pose proof (is_median_between _ _ lo hi M (steps_in _ _ _ _ D S)) as [D1 D2].
  assert (Hd : ~ (d == 0)%Q) by lra.
  set (q := (if pm then dist / d / 60 else dist / d)%Q).
  exists (round_half_even q), d. split; [|split; [auto|]].
  - apply n_elements_ok. exists (diffs array), d. split; [exact D|]. split; [exact M|]. split; [exact Hd|]. apply round_nearest.
  - pose proof (round_nearest q) as N. set (n := inject_Z (round_half_even q)) in *.
    pose proof (nearest_bounds _ _ N : (- (1 # 2) <= q - n /\ q - n <= 1 # 2)%Q) as B.
    assert (Hd0 : (0 < d)%Q) by lra. unfold q in B. destruct pm.
    + assert (E : (dist == dist / d / 60 * (d * 60))%Q) by (field; exact Hd). set (z := (dist / d / 60)%Q) in *.
      destruct (Qlt_le_dec (n * d * 60 - dist) 0) as [C|C].
      * rewrite Qabs_neg by lra. rewrite E. nra.
      * rewrite Qabs_pos by lra. rewrite E. nra.
    + assert (E : (dist == dist / d * d)%Q) by (field; exact Hd). set (z := (dist / d)%Q) in *.
      destruct (Qlt_le_dec (n * d * 1 - dist) 0) as [C|C].
      * rewrite Qabs_neg by lra. rewrite E. nra.
      * rewrite Qabs_pos by lra. rewrite E. nra.
Qed.
Lemma n_elements_short array dist pm : length array < 2 -> n_elements array dist pm = Raise ValueError.
Proof. intros H. destruct array as [|a [|b r]]; [reflexivity|reflexivity|cbn in H; lia]. Qed.
Lemma n_elements_flat array dist pm : 2 <= length array -> spacing_within array 0 0 ->
  n_elements array dist pm = Raise ZeroDivisionError.
Proof.
  intros L S. assert (Hne : array <> []) by (intros ->; cbn in L; lia).
  pose proof (diffs_steps array Hne) as D. pose proof (median_iff (diffs array)) as M. unfold n_elements, mdiff.
  destruct (median (diffs array)) as [d|] eqn:Em.
  2:{ destruct D as [D _]. rewrite M in D. cbn in D. lia. }
  pose proof (is_median_between _ _ 0 0 M (steps_in _ _ _ _ D S)) as [D1 D2].
  replace (Qeq_bool d 0) with true; [reflexivity|]. symmetry. apply Qeq_bool_iff. lra.
Qed.
Lemma n_elements_monotone array d1 d2 pm n1 n2 lo hi : (0 < lo)%Q -> spacing_within array lo hi -> (d1 <= d2)%Q ->
  n_elements array d1 pm = Ok n1 -> n_elements array d2 pm = Ok n2 -> (n1 <= n2)%Z.
Proof.
  intros Hlo S Hd. unfold n_elements, mdiff. pose proof (median_iff (diffs array)) as M.
  destruct (median (diffs array)) as [d|]; [|discriminate].
  destruct (Qeq_bool d 0) eqn:E; [discriminate|]. intros H1 H2.
  assert (Hne : array <> []).
  { intros ->. destruct M as (s & a & b & P & _ & Ea & _). apply Permutation_nil in P. subst. discriminate. }
  pose proof (is_median_between _ _ lo hi M (steps_in _ _ _ _ (diffs_steps array Hne) S)) as [D1 D2].
  set (q1 := (if pm then d1 / d / 60 else d1 / d)%Q) in *. set (q2 := (if pm then d2 / d / 60 else d2 / d)%Q) in *.
  assert (Hq : (q1 <= q2)%Q).
  { assert (Hi : (d1 / d <= d2 / d)%Q).
    { unfold Qdiv. apply Qmult_le_compat_r; [exact Hd|]. apply Qlt_le_weak, Qinv_lt_0_compat. lra. }
    unfold q1, q2. destruct pm; [|exact Hi]. unfold Qdiv at 1 3. apply Qmult_le_compat_r; [exact Hi|]. discriminate. }
  assert (n1 = round_half_even q1) by congruence. assert (n2 = round_half_even q2) by congruence. subst n1 n2.
  pose proof (round_nearest q1) as N1. pose proof (round_nearest q2) as N2.
  destruct (Qlt_le_dec q1 q2) as [Lt|Ge].
  - assert (A : (inject_Z (round_half_even q1) < inject_Z (round_half_even q2) + 1)%Q).
    { destruct N1 as [[? ?]|[[?|?] _]], N2 as [[? ?]|[[?|?] _]]; lra. }
    change 1%Q with (inject_Z 1) in A. rewrite <- inject_Z_plus in A. rewrite <- Zlt_Qlt in A. lia.
  - assert (E2 : (q2 == q1)%Q) by lra. rewrite (nearest_unique q1 _ _ N1 (nearest_compat _ _ _ E2 N2)). lia.
Qed.

(** ** interpolate_lwp *)
Lemma in_lwp_samples time lwp t y : In (t, y) (lwp_samples time lwp) <->
  exists i, nth_error time i = Some t /\ nth_error lwp i = Some (Some y) /\ ~ (y == 0)%Q.
Proof.
  unfold lwp_samples. rewrite in_flat_map. split.
  - intros ([t' w] & I & H). cbn [fst snd] in H. destruct w as [y'|]; [|destruct H].
    destruct (Qeq_bool y' 0) eqn:E; [destruct H|]. destruct H as [H|[]].
    assert (t' = t) by congruence. assert (y' = y) by congruence. subst.
    apply In_nth_error in I as [i Hi]. rewrite nth_error_combine in Hi.
    destruct (nth_error time i) as [t0|] eqn:Et; [|discriminate]. destruct (nth_error lwp i) as [w|] eqn:Ew; [|discriminate].
    exists i. split; [congruence|]. split; [congruence|]. apply Qeq_bool_neq. exact E.
  - intros (i & Et & Ew & Hy). exists (t, Some y). split.
    + apply (nth_error_In _ i). rewrite nth_error_combine, Et, Ew. reflexivity.
    + cbn [fst snd]. destruct (Qeq_bool y 0) eqn:E; [apply Qeq_bool_iff in E; contradiction|left; reflexivity].
Qed.
Lemma rising_cons x l : rising (x :: l) -> rising l /\ forall y, In y l -> (x < y)%Q.
Proof.
  intros H. split.
  - intros i j a b Hij Ha Hb. apply (H (S i) (S j) a b); [lia|exact Ha|exact Hb].
  - intros y I. apply In_nth_error in I as [j Hj]. apply (H 0 (S j) x y); [lia|reflexivity|exact Hj].
Qed.
Lemma lwp_samples_sorted time lwp : rising time -> StronglySorted by_time (lwp_samples time lwp).
Proof.
  revert lwp. induction time as [|t time IH]; intros lwp R; [constructor|].
  destruct lwp as [|w lwp]; [constructor|]. apply rising_cons in R as [R H].
  unfold lwp_samples. cbn [combine flat_map fst snd]. fold (lwp_samples time lwp).
  destruct w as [y|]; cbn [app]; [|apply IH; exact R]. destruct (Qeq_bool y 0); cbn [app]; [apply IH; exact R|].
  constructor; [apply IH; exact R|]. apply Forall_forall. intros [t' y'] I.
  apply in_lwp_samples in I as (i & Et & _). unfold by_time. cbn [fst]. apply H. eapply nth_error_In. exact Et.
Qed.
Lemma sum_unmasked_zero lwp : (forall i y, nth_error lwp i = Some (Some y) -> (y == 0)%Q) ->
  (fold_right Qplus 0 (unmasked lwp) == 0)%Q.
Proof.
  induction lwp as [|w lwp IH]; intros H; cbn [unmasked fold_right]; [lra|].
  assert (IH' : (fold_right Qplus 0 (unmasked lwp) == 0)%Q) by (apply IH; intros i y Hi; exact (H (S i) y Hi)).
  destruct w as [y|]; cbn [fold_right]; [|exact IH']. rewrite IH'. rewrite (H 0 y eq_refl). lra.
Qed.

Lemma interpolate_lwp_length time lwp : length (interpolate_lwp time lwp) = length time.
Proof. unfold interpolate_lwp. destruct (_ || _); apply map_length. Qed.
Lemma interpolate_lwp_nth time lwp i t : ~ (fold_right Qplus 0 (unmasked lwp) == 0)%Q ->
  nth_error time i = Some t -> nth_error (interpolate_lwp time lwp) i = Some (interp (lwp_samples time lwp) t).
Proof.
  intros S Ht. unfold interpolate_lwp.
  replace (forallb is_masked lwp || _) with false.
  - rewrite nth_error_map', Ht. reflexivity.
  - symmetry. apply orb_false_iff. split.
    + apply not_true_iff_false. intros C. rewrite forallb_forall in C. apply S. apply sum_unmasked_zero.
      intros k y Hk. apply nth_error_In in Hk. specialize (C _ Hk). discriminate.
    + apply not_true_iff_false. intros C. apply Qeq_bool_iff in C. contradiction.
Qed.
Lemma interpolate_lwp_measured time lwp i t y : rising time -> ~ (fold_right Qplus 0 (unmasked lwp) == 0)%Q ->
  nth_error time i = Some t -> nth_error lwp i = Some (Some y) -> ~ (y == 0)%Q ->
  exists z, nth_error (interpolate_lwp time lwp) i = Some z /\ (z == y)%Q.
Proof.
  intros R S Ht Hy Hn. eexists. split; [apply interpolate_lwp_nth; eassumption|].
  apply (interp_at _ t t y); [apply lwp_samples_sorted; exact R| |reflexivity]. apply in_lwp_samples. eauto.
Qed.
Lemma interpolate_lwp_linear time lwp i t ia ta ya ib tb yb : rising time ->
  ~ (fold_right Qplus 0 (unmasked lwp) == 0)%Q -> nth_error time i = Some t ->
  nth_error time ia = Some ta -> nth_error lwp ia = Some (Some ya) -> ~ (ya == 0)%Q ->
  nth_error time ib = Some tb -> nth_error lwp ib = Some (Some yb) -> ~ (yb == 0)%Q ->
  ia < i -> i < ib ->
  (forall k y, ia < k -> k < ib -> nth_error lwp k = Some (Some y) -> (y == 0)%Q) ->
  exists z, nth_error (interpolate_lwp time lwp) i = Some z /\ (z == ya + (yb - ya) * ((t - ta) / (tb - ta)))%Q.
Proof.
  intros R S Ht Ha Hya Na Hb Hyb Nb L1 L2 Gap. eexists. split; [apply interpolate_lwp_nth; eassumption|].
  pose proof (R ia i ta t L1 Ha Ht). pose proof (R i ib t tb L2 Ht Hb).
  apply interp_linear.
  - apply lwp_samples_sorted; exact R.
  - apply in_lwp_samples. eauto.
  - apply in_lwp_samples. eauto.
  - lra.
  - intros [tk yk] I. apply in_lwp_samples in I as (k & Ek & Eyk & Nk). cbn [fst]. intros [C1 C2].
    apply Nk. apply (Gap k yk); [| |exact Eyk].
    + destruct (Nat.lt_trichotomy k ia) as [L|[->|L]]; [|exfalso|exact L].
      * pose proof (R k ia tk ta L Ek Ha). lra.
      * assert (tk = ta) by congruence. subst. lra.
    + destruct (Nat.lt_trichotomy k ib) as [L|[->|L]]; [exact L|exfalso|].
      * assert (tk = tb) by congruence. subst. lra.
      * pose proof (R ib k tb tk L Hb Ek). lra.
  - split; lra.
Qed.
Lemma interpolate_lwp_range time lwp m M : rising time -> length time = length lwp -> (m <= 0 /\ 0 <= M)%Q ->
  (forall i y, nth_error lwp i = Some (Some y) -> m <= y /\ y <= M)%Q ->
  forall z, In z (interpolate_lwp time lwp) -> (m <= z /\ z <= M)%Q.
Proof.
  intros R L [H1 H2] H z I. unfold interpolate_lwp in I.
  destruct (forallb is_masked lwp || Qeq_bool (fold_right Qplus 0%Q (unmasked lwp)) 0) eqn:E.
  - apply in_map_iff in I as (t & <- & _). split; lra.
  - apply in_map_iff in I as (t & <- & _). apply orb_false_iff in E as [_ E]. apply Qeq_bool_neq in E.
    apply interp_range.
    + intros C. apply E. apply sum_unmasked_zero. intros i y Hi.
      destruct (Qeq_dec y 0) as [|N]; [assumption|exfalso].
      destruct (nth_error_lt_Some time i) as [t' Ht']; [rewrite L; eapply nth_error_Some_lt; exact Hi|].
      assert (I : In (t', y) (lwp_samples time lwp)) by (apply in_lwp_samples; eauto). rewrite C in I. destruct I.
    + apply lwp_samples_sorted. exact R.
    + intros [t' y] I. apply in_lwp_samples in I as (i & _ & Hi & _). exact (H i y Hi).
Qed.
Lemma interpolate_lwp_masked time lwp : (forall i y, nth_error lwp i = Some (Some y) -> (y == 0)%Q) ->
  interpolate_lwp time lwp = map (fun _ => 0%Q) time.
Proof.
  intros H. unfold interpolate_lwp. pose proof (sum_unmasked_zero lwp H) as S. apply Qeq_bool_iff in S.
  rewrite S. rewrite orb_true_r. reflexivity.
Qed.

(** ** find_liquid *)
Lemma base_of_ext d d' p dist lim b : (forall k, d k = d' k) -> base_of d p dist lim b -> base_of d' p dist lim b.
Proof.
  intros H (m & x & [(k & Hk & E) G] & B & Eb & L & F). exists m, x. split; [split|].
  - exists k. rewrite <- H. auto.
  - intros j y Hj. rewrite <- H. apply G. exact Hj.
  - split; [exact B|]. rewrite <- H. split; [exact Eb|]. split; [exact L|]. intros j y Hj Hlt. rewrite <- H. apply F; assumption.
Qed.
Lemma top_of_ext d d' p n dist lim t : (forall k, d k = d' k) -> top_of d p n dist lim t -> top_of d' p n dist lim t.
Proof.
  intros H (m & x & k0 & -> & [(k & Hk & E) G] & B & Eb & L & F). exists m, x, k0. split; [reflexivity|]. split; [split|].
  - exists k. rewrite <- H. auto.
  - intros j y Hj. rewrite <- H. apply G. exact Hj.
  - split; [exact B|]. rewrite <- H. split; [exact Eb|]. split; [exact L|]. intros j y Hj Hlt. rewrite <- H. apply F; assumption.
Qed.

Lemma nth_error_tl {A} (l : list A) k : nth_error (tl l) k = nth_error l (S k).
Proof. destruct l; [destruct k|]; reflexivity. Qed.
Lemma filled_diff_nth row k : nth_error (filled_diff row) k = step_up row k.
Proof.
  unfold filled_diff, step_up. rewrite nth_error_map2, nth_error_tl.
  destruct (nth_error row k) as [[a|]|]; destruct (nth_error row (S k)) as [[b|]|]; reflexivity.
Qed.
Lemma filled_row_nth row k : nth k (filled_row row) 0%Q = signal row k.
Proof.
  unfold filled_row, signal. destruct (nth_error row k) as [w|] eqn:E.
  - erewrite nth_error_nth; [|rewrite nth_error_map', E; reflexivity]. destruct w; reflexivity.
  - apply nth_overflow. rewrite map_length. apply nth_error_None. exact E.
Qed.
Lemma filled_row_length row : length (filled_row row) = length row.
Proof. apply map_length. Qed.
Lemma filled_row_error row k : k < length row -> nth_error (filled_row row) k = Some (signal row k).
Proof.
  intros H. rewrite <- filled_row_nth. apply nth_error_nth'. rewrite filled_row_length. exact H.
Qed.

Lemma is_local_maximum_iff row p amp : p < length row ->
  is_local_maximum (filled_row row) p && qlt amp (nth p (filled_row row) 0%Q) = true <-> strong_peak row amp p.
Proof.
  intros Hp. unfold is_local_maximum, strong_peak. rewrite filled_row_nth, filled_row_length.
  rewrite andb_true_iff, qlt_iff, forallb_forall.
  assert (E : forall s, (qlt (nth (Nat.min (p + s) (length row - 1)) (filled_row row) 0%Q) (signal row p)
                && qlt (nth (p - s) (filled_row row) 0%Q) (signal row p)) = true <->
              (signal row (Nat.min (p + s) (length row - 1)) < signal row p)%Q /\ (signal row (p - s) < signal row p)%Q).
  { intros s. rewrite andb_true_iff, !qlt_iff, !filled_row_nth. reflexivity. }
  split.
  - intros [H A]. split; [exact A|].
    assert (H' : forall s, 1 <= s <= 4 -> (signal row (Nat.min (p + s) (length row - 1)) < signal row p)%Q /\ (signal row (p - s) < signal row p)%Q).
    { intros s Hs. apply E. apply H. cbn. lia. }
    split; [|split].
    + destruct p as [|p]; [|lia]. destruct (H' 1 ltac:(lia)) as [_ C]. cbn in C. lra.
    + destruct (Nat.eq_dec (S p) (length row)) as [C|]; [|lia]. exfalso.
      destruct (H' 1 ltac:(lia)) as [D _]. replace (Nat.min (p + 1) (length row - 1)) with p in D by lia. lra.
    + intros k N L1 L2 L3. destruct (Nat.lt_ge_cases k p) as [Lt|Ge].
      * destruct (H' (p - k) ltac:(lia)) as [_ D]. replace (p - (p - k)) with k in D by lia. exact D.
      * destruct (H' (k - p) ltac:(lia)) as [D _]. replace (Nat.min (p + (k - p)) (length row - 1)) with k in D by lia. exact D.
  - intros (A & P0 & P1 & H). split; [|exact A]. intros s Hs. apply E.
    assert (Hs' : 1 <= s <= 4) by (cbn in Hs; lia). split; apply H; lia.
Qed.
Lemma in_strong_peaks beta amp n p : In (n, p) (find_strong_peaks (map filled_row beta) amp) <->
  exists row, nth_error beta n = Some row /\ strong_peak row amp p.
Proof.
  unfold find_strong_peaks. rewrite in_where2. unfold set_in, pixel. cbn [fst snd].
  rewrite map_map, nth_error_map'. destruct (nth_error beta n) as [row|]; cbn [option_map].
  2:{ split; [discriminate|intros (row & H & _); discriminate]. }
  rewrite nth_error_map'. rewrite filled_row_length.
  destruct (Nat.lt_ge_cases p (length row)) as [L|L].
  - replace (nth_error (seq 0 (length row)) p) with (Some p).
    2:{ symmetry. rewrite (nth_error_nth' _ 0) by (rewrite seq_length; exact L). rewrite seq_nth by exact L. reflexivity. }
    cbn [option_map]. pose proof (is_local_maximum_iff row p amp L) as I.
    split.
    + intros H. exists row. split; [reflexivity|]. apply I. congruence.
    + intros (row' & H & S). f_equal. assert (row' = row) by congruence. subst. apply I. exact S.
  - replace (nth_error (seq 0 (length row)) p) with (@None nat) by (symmetry; apply nth_error_None; rewrite seq_length; exact L).
    split; [discriminate|]. intros (row' & H & S). assert (row' = row) by congruence. subst. destruct S as (_ & _ & S & _). lia.
Qed.

Lemma count_section row a b : b < length row ->
  length (filter (fun x => negb (Qeq_bool x 0)) (section a (b + 1) (filled_row row))) = gates_with_signal row a b.
Proof.
  intros L. unfold gates_with_signal.
  assert (E : section a (b + 1) (filled_row row) = map (signal row) (seq a (S b - a))).
  { apply nth_error_ext. intros i. rewrite nth_error_section, nth_error_map'.
    replace (b + 1 - a) with (S b - a) by lia. destruct (i <? S b - a) eqn:Ei.
    - apply Nat.ltb_lt in Ei. rewrite (nth_error_nth' (seq a (S b - a)) 0) by (rewrite seq_length; exact Ei).
      rewrite seq_nth by exact Ei. cbn [option_map]. apply filled_row_error. lia.
    - apply Nat.ltb_ge in Ei. rewrite (proj2 (nth_error_None (seq a (S b - a)) i)); [reflexivity|]. rewrite seq_length. exact Ei. }
  rewrite E. clear. induction (seq a (S b - a)) as [|k l IH]; [reflexivity|]. cbn [map filter].
  destruct (negb (Qeq_bool (signal row k) 0)); cbn [length]; auto.
Qed.

(** The layer around a peak, with the limits of the call. *)
Definition layer_at (o : liquid_limits) (below above : Z) (height : list Q) (lwp : Q) (row : list (masked Q)) :=
  layer_of_peak (peak_amp o) (max_width o) (min_points o) (min_top_der o) (min_lwp o) (min_alt o) below above height lwp row.

Lemma top_in_range row p n dist lim t : top_of (step_up row) p n dist lim t -> t < length row /\ p < t.
Proof.
  intros (m & x & k & -> & _ & (B & _) & E & _). unfold step_up in E.
  destruct (nth_error row k) as [[a|]|]; destruct (nth_error row (S k)) as [[b|]|] eqn:E2; try discriminate;
  (split; [eapply nth_error_Some_lt; exact E2|lia]).
Qed.
Lemma base_in_range d p dist lim b : base_of d p dist lim b -> b < p.
Proof. intros (m & x & _ & [B _] & _). exact B. Qed.

Lemma liquid_peak_cases o height lwp_int below above beta n row lwp p m :
  rising height -> nth_error beta n = Some row -> length row = length height ->
  nth_error lwp_int n = Some lwp -> strong_peak row (peak_amp o) p ->
  (liquid_peak o height lwp_int below above beta m (n, p) = Raise ValueError /\ (below < 1 \/ above < 1)%Z) \/
  exists m', liquid_peak o height lwp_int below above beta m (n, p) = Ok m' /\
    forall i j, exists c : bool, pixel m' i j = option_map (assign c true) (pixel m i j) /\
      (c = true <-> i = n /\ exists base top, layer_at o below above height lwp row p base top /\ base <= j <= top).
Proof.
  intros R Hrow Hlen Hlwp Hp. unfold liquid_peak. cbn [fst snd]. rewrite (nth_error_nth _ _ [] Hrow).
  assert (H4 : (0 < 4)%Q) by lra. assert (H41 : (1 < 4)%Q) by lra.
  assert (None_case : (forall base top, ~ layer_at o below above height lwp row p base top) ->
    exists m', Ok m = Ok m' /\
    forall i j, exists c : bool, pixel m' i j = option_map (assign c true) (pixel m i j) /\
      (c = true <-> i = n /\ exists base top, layer_at o below above height lwp row p base top /\ base <= j <= top)).
  { intros N. exists m. split; [reflexivity|]. intros i j. exists false. split.
    - destruct (pixel m i j); reflexivity.
    - split; [discriminate|]. intros (_ & base & top & L & _). destruct (N _ _ L). }
  pose proof Hp as (Ha & Hp0 & Hp1 & Hmax).
  assert (Hd : forall k, k < length row - 1 -> exists x, nth_error (filled_diff row) k = Some x).
  { intros k Hk. rewrite filled_diff_nth. unfold step_up.
    destruct (nth_error_lt_Some row k ltac:(lia)) as [[a|] ->]; destruct (nth_error_lt_Some row (S k) ltac:(lia)) as [[b|] ->]; eauto. }
  destruct (ind_base (filled_diff row) p below 4) as [base|e] eqn:Eb.
  2:{ destruct (ind_base_errors (filled_diff row) p below 4 H41) as (_ & V & Er).
      destruct (Er e Eb) as [-> | ->]; cbn [bind].
      - left. split; [reflexivity|]. left. destruct (Z_lt_le_dec below 1) as [|L]; [assumption|exfalso].
        apply V with (k := p - 1) in Eb; [|unfold below_peak; lia].
        destruct (Hd (p - 1) ltac:(lia)) as [x Ex]. congruence.
      - right. apply None_case. intros base top (_ & B & _).
        apply (base_of_ext _ _ _ _ _ _ (fun k => eq_sym (filled_diff_nth row k))) in B.
        apply (ind_base_iff _ _ _ _ _ H4) in B. congruence. }
  cbn [bind].
  destruct (ind_top (filled_diff row) p (length height) above 4) as [top|e] eqn:Et.
  2:{ destruct (ind_top_errors (filled_diff row) p (length height) above 4 H41) as (_ & V & Er).
      destruct (Er e Et) as [-> | ->]; cbn [bind].
      - left. split; [reflexivity|]. right. destruct (Z_lt_le_dec above 1) as [|L]; [assumption|exfalso].
        apply V with (k := p) in Et; [|unfold above_peak; lia].
        destruct (Hd p ltac:(lia)) as [x Ex]. congruence.
      - right. apply None_case. intros base' top (_ & _ & B & _).
        apply (top_of_ext _ _ _ _ _ _ _ (fun k => eq_sym (filled_diff_nth row k))) in B.
        apply (ind_top_iff _ _ _ _ _ _ H4) in B. congruence. }
  cbn [bind].
  pose proof (proj1 (ind_base_iff _ _ _ _ _ H4) Eb) as B. apply (base_of_ext _ _ _ _ _ _ (filled_diff_nth row)) in B.
  pose proof (proj1 (ind_top_iff _ _ _ _ _ _ H4) Et) as T. apply (top_of_ext _ _ _ _ _ _ _ (filled_diff_nth row)) in T.
  pose proof (base_in_range _ _ _ _ _ B) as Lb. destruct (top_in_range _ _ _ _ _ _ T) as [Lt Lpt].
  destruct (item_lt height top ltac:(lia)) as (h_top & -> & Eht).
  destruct (item_lt height base ltac:(lia)) as (h_base & -> & Ehb).
  destruct (item_lt height p ltac:(lia)) as (h_peak & -> & Ehp).
  destruct (item_lt height 0 ltac:(lia)) as (h_first & -> & Eh0).
  rewrite (proj2 (item_ok (filled_row row) p (signal row p))) by (apply filled_row_error; lia).
  rewrite (proj2 (item_ok (filled_row row) top (signal row top))) by (apply filled_row_error; lia).
  rewrite (proj2 (item_ok lwp_int n lwp) Hlwp). cbn [bind].
  rewrite count_section by exact Lt.
  assert (Hh : (0 < h_top - h_peak)%Q) by (pose proof (R p top h_peak h_top Lpt Ehp Eht); lra).
  set (cond := _ && _ && _ && _ && _).
  assert (C : cond = true <-> layer_at o below above height lwp row p base top).
  { unfold cond, layer_at, layer_of_peak. rewrite !andb_true_iff, !qlt_iff, Nat.leb_le, Qle_bool_iff.
    rewrite qdiv_gt by exact Hh. split.
    - intros ((((H1 & H2) & H3) & H5) & H6). split; [exact Hp|]. split; [exact B|]. split; [exact T|]. split; [exact H1|].
      split; [exact H5|]. exists h_first, h_peak, h_base, h_top. auto 10.
    - intros (_ & _ & _ & H1 & H5 & a & b & c & d & E1 & E2 & E3 & E4 & H2 & H3 & H6).
      assert (a = h_first) by congruence. assert (b = h_peak) by congruence.
      assert (c = h_base) by congruence. assert (d = h_top) by congruence. subst. auto. }
  assert (U : forall base' top', layer_at o below above height lwp row p base' top' -> base' = base /\ top' = top).
  { intros base' top' (_ & B' & T' & _). split; [eapply base_of_unique; eassumption|eapply top_of_unique; eassumption]. }
  right. destruct cond eqn:Ec.
  - exists (imapi (fun i j b => assign ((i =? n) && (base <=? j) && (j <=? top)) true b) m). split; [reflexivity|].
    intros i j. exists ((i =? n) && (base <=? j) && (j <=? top)). rewrite pixel_imapi. split; [reflexivity|].
    rewrite !andb_true_iff, Nat.eqb_eq, !Nat.leb_le. split.
    + intros [[-> H1] H2]. split; [reflexivity|]. exists base, top. split; [apply C; reflexivity|lia].
    + intros (-> & b & t & L & H). destruct (U _ _ L) as [-> ->]. lia.
  - apply None_case. intros b t L. destruct (U _ _ L) as [-> ->]. apply C in L. discriminate.
Qed.

Lemma fold_result_app_inv {A S} (f : S -> A -> result S) l s out : fold_result f l s = Ok out ->
  match l with [] => out = s | x :: r => exists s', f s x = Ok s' /\ fold_result f r s' = Ok out end.
Proof.
  destruct l as [|x r]; cbn [fold_result]; [congruence|]. destruct (f s x) as [s'|]; cbn [bind]; [|discriminate]. eauto.
Qed.

Section FoldLiquid.
  Variables (o : liquid_limits) (height lwp_int : list Q) (below above : Z) (beta : image (masked Q)).
  Hypothesis R : rising height.
  Hypothesis Rect : forall n row, nth_error beta n = Some row -> length row = length height.
  Hypothesis Lwp : forall n row, nth_error beta n = Some row -> exists lwp, nth_error lwp_int n = Some lwp.

  Let valid (peaks : list (nat * nat)) := forall n p, In (n, p) peaks ->
    exists row, nth_error beta n = Some row /\ strong_peak row (peak_amp o) p.
  Let layer i j p := exists row lwp base top, nth_error beta i = Some row /\ nth_error lwp_int i = Some lwp /\
    layer_at o below above height lwp row p base top /\ base <= j <= top.

  Lemma fold_liquid peaks : valid peaks -> forall m out,
    fold_result (liquid_peak o height lwp_int below above beta) peaks m = Ok out ->
    forall i j, (pixel out i j = Some true <->
      pixel m i j = Some true \/ exists b p, pixel m i j = Some b /\ In (i, p) peaks /\ layer i j p) /\
      (pixel out i j = None <-> pixel m i j = None).
  Proof.
    induction peaks as [|[n p] peaks IH]; intros V m out H i j; apply fold_result_app_inv in H.
    - subst. split; [|reflexivity]. split; [auto|]. intros [|(b & p & _ & [] & _)]. assumption.
    - destruct H as (m' & E & H).
      destruct (V n p (or_introl eq_refl)) as (row & Hrow & Hp). destruct (Lwp n row Hrow) as [lwp Hlwp].
      destruct (liquid_peak_cases o height lwp_int below above beta n row lwp p m R Hrow (Rect _ _ Hrow) Hlwp Hp) as [[C _]|(m2 & E2 & P)];
        [congruence|]. assert (m2 = m') by congruence. subst m2. clear E2.
      destruct (IH (fun n' p' I => V n' p' (or_intror I)) m' out H i j) as [IH1 IH2]. rewrite IH1, IH2.
      destruct (P i j) as (c & Pc & Hc). rewrite Pc. split.
      + split.
        * intros [T|(b & p' & Eb & I & L)].
          -- destruct (pixel m i j) as [b|]; [|discriminate]. cbn [option_map] in T. destruct c; cbn [assign] in T.
             ++ right. destruct (proj1 Hc eq_refl) as (-> & base & top & L & B). exists b, p. split; [reflexivity|].
                split; [left; reflexivity|]. exists row, lwp, base, top. auto.
             ++ left. exact T.
          -- right. destruct (pixel m i j) as [b'|] eqn:Em.
             ++ exists b', p'. split; [reflexivity|]. split; [right; exact I|exact L].
             ++ discriminate Eb.
        * intros [T|(b & p' & Eb & [I|I] & L)].
          -- left. rewrite T. cbn [option_map]. destruct c; reflexivity.
          -- left. rewrite Eb. cbn [option_map]. assert (i = n) by congruence. assert (p' = p) by congruence. subst.
             destruct L as (row' & lwp' & base & top & H1 & H2 & L & B).
             assert (row' = row) by congruence. assert (lwp' = lwp) by congruence. subst.
             rewrite (proj2 Hc); [reflexivity|]. eauto 6.
          -- right. rewrite Eb. cbn [option_map]. eauto.
      + destruct (pixel m i j); cbn [option_map]; split; congruence.
  Qed.

  Lemma fold_liquid_total peaks : valid peaks -> (1 <= below)%Z -> (1 <= above)%Z -> forall m,
    exists out, fold_result (liquid_peak o height lwp_int below above beta) peaks m = Ok out.
  Proof.
    intros V B A. induction peaks as [|[n p] peaks IH]; intros m; cbn [fold_result]; [eauto|].
    destruct (V n p (or_introl eq_refl)) as (row & Hrow & Hp). destruct (Lwp n row Hrow) as [lwp Hlwp].
    destruct (liquid_peak_cases o height lwp_int below above beta n row lwp p m R Hrow (Rect _ _ Hrow) Hlwp Hp) as [[_ C]|(m2 & E2 & _)].
    - lia.
    - rewrite E2. cbn [bind]. apply IH. intros n' p' I. apply V. right. exact I.
  Qed.
End FoldLiquid.

Definition rectangular {A B} (m : image A) (height : list B) : Prop :=
  forall n row, nth_error m n = Some row -> length row = length height.

Lemma find_liquid_exact o time height lwp beta below above out : rising height -> rectangular beta height ->
  length time = length beta ->
  n_elements height 200 false = Ok below -> n_elements height 150 false = Ok above ->
  find_liquid o time height lwp beta = Ok out ->
  forall i j, pixel out i j = Some true <->
    exists row w p base top, nth_error beta i = Some row /\ nth_error (interpolate_lwp time lwp) i = Some w /\
      layer_at o below above height w row p base top /\ base <= j <= top.
Proof.
  intros R Rect L Eb Ea H i j. unfold find_liquid in H. rewrite Eb, Ea in H. cbn [bind] in H.
  assert (Lwp : forall n row, nth_error beta n = Some row -> exists lwp0, nth_error (interpolate_lwp time lwp) n = Some lwp0).
  { intros n row Hn. apply nth_error_lt_Some. rewrite interpolate_lwp_length, L. eapply nth_error_Some_lt. exact Hn. }
  assert (V : forall n p, In (n, p) (find_strong_peaks (map filled_row beta) (peak_amp o)) ->
    exists row, nth_error beta n = Some row /\ strong_peak row (peak_amp o) p).
  { intros n p. apply in_strong_peaks. }
  destruct (fold_liquid o height _ below above beta R Rect Lwp _ V _ _ H i j) as [E _]. rewrite E. split.
  - intros [T|(b & p & Em & I & row & w & base & top & H1 & H2 & H3 & H4)].
    + exfalso. unfold pixel, imap in T. rewrite nth_error_map' in T. destruct (nth_error beta i) as [r|]; [|discriminate].
      cbn [option_map] in T. rewrite nth_error_map' in T. destruct (nth_error r j); discriminate.
    + eauto 10.
  - intros (row & w & p & base & top & H1 & H2 & H3 & H4). right.
    destruct H3 as (P & B & T & Rest) eqn:EH. clear EH.
    assert (Lj : j < length row) by (destruct (top_in_range _ _ _ _ _ _ T); lia).
    destruct (nth_error_lt_Some row j Lj) as [x Ex]. exists false, p. split; [|split].
    + unfold pixel, imap. rewrite nth_error_map', H1. cbn [option_map]. rewrite nth_error_map', Ex. reflexivity.
    + apply in_strong_peaks. eauto.
    + exists row, w, base, top. auto.
Qed.

Lemma find_liquid_total o time height lwp beta below above : rising height -> rectangular beta height ->
  length time = length beta ->
  n_elements height 200 false = Ok below -> n_elements height 150 false = Ok above -> (1 <= below)%Z -> (1 <= above)%Z ->
  exists out, find_liquid o time height lwp beta = Ok out /\
    forall i j, pixel out i j = None <-> pixel beta i j = None.
Proof.
  intros R Rect L Eb Ea Hb Ha. unfold find_liquid. rewrite Eb, Ea. cbn [bind].
  assert (Lwp : forall n row, nth_error beta n = Some row -> exists lwp0, nth_error (interpolate_lwp time lwp) n = Some lwp0).
  { intros n row Hn. apply nth_error_lt_Some. rewrite interpolate_lwp_length, L. eapply nth_error_Some_lt. exact Hn. }
  assert (V : forall n p, In (n, p) (find_strong_peaks (map filled_row beta) (peak_amp o)) ->
    exists row, nth_error beta n = Some row /\ strong_peak row (peak_amp o) p).
  { intros n p. apply in_strong_peaks. }
  destruct (fold_liquid_total o height (interpolate_lwp time lwp) below above beta R Rect Lwp _ V Hb Ha (imap (fun _ => false) beta)) as [out E].
  exists out. split; [exact E|]. intros i j.
  destruct (fold_liquid o height _ below above beta R Rect Lwp _ V _ _ E i j) as [_ N]. rewrite N.
  unfold pixel, imap. rewrite nth_error_map'. destruct (nth_error beta i) as [r|]; cbn [option_map]; [|split; reflexivity].
  rewrite nth_error_map'. destruct (nth_error r j); cbn [option_map]; split; congruence.
Qed.
