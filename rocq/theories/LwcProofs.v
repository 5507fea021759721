(** Lemmas about liquid water content and attenuation. *)
From Verif Require Import Base BitsModel StatusModel ArrayModel ArraySpec ArrayProofs FillModel FillProofs
  GridModel GridProofs ImageModel ImageProofs LwcModel LwcSpec.
From Coq Require Import Lqa.
Open Scope nat_scope.

(* ------------------------------------------------------------------ *)
(** ** Forward fill as a recursion, for any comparison *)
Fixpoint fill_rec {A} (eqb : A -> A -> bool) (value cur : A) (l : list A) : list A :=
  match l with
  | [] => []
  | x :: r => let c := if eqb x value then cur else x in c :: fill_rec eqb value c r
  end.

Lemma gather_fill {A} (eqb : A -> A -> bool) (value : A) rest : forall pre m cur,
  nth_error (pre ++ rest) m = Some cur -> m <= length pre ->
  gather (pre ++ rest)
    (max_acc_from m (map (fun p => if eqb (snd p) value then 0 else fst p) (enumerate_from (length pre) rest)))
  = Ok (fill_rec eqb value cur rest).
Proof.
  induction rest as [|x r IH]; intros pre m cur Hm Hle; [reflexivity|].
  cbn [enumerate_from map max_acc_from fill_rec fst snd].
  set (k := Nat.max m (if eqb x value then 0 else length pre)).
  assert (Hk : nth_error (pre ++ x :: r) k = Some (if eqb x value then cur else x) /\ k <= length pre).
  { subst k. destruct (eqb x value).
    - rewrite Nat.max_0_r. auto.
    - rewrite Nat.max_r by lia. rewrite nth_error_app2, Nat.sub_diag by lia. split; [reflexivity|lia]. }
  destruct Hk as [Hk1 Hk2]. cbn [gather]. rewrite Hk1.
  replace (pre ++ x :: r) with ((pre ++ [x]) ++ r) in * by (rewrite <- app_assoc; reflexivity).
  specialize (IH (pre ++ [x]) k _ Hk1). rewrite app_length in IH. cbn [length] in IH.
  rewrite Nat.add_1_r in IH. rewrite IH by lia. reflexivity.
Qed.

Lemma ffill_rec {A} (eqb : A -> A -> bool) (value : A) l :
  ffill eqb value l = Ok (fill_rec eqb value (hd value l) l).
Proof.
  destruct l as [|x r]; [reflexivity|]. unfold ffill, ffill_idx, enumerate.
  rewrite max_accumulate_0. apply (gather_fill eqb value (x :: r) [] 0 x); [reflexivity|lia].
Qed.

Lemma fill_rec_length {A} (eqb : A -> A -> bool) (value : A) l : forall cur,
  length (fill_rec eqb value cur l) = length l.
Proof. induction l; intros; simpl; auto. Qed.

(* ------------------------------------------------------------------ *)
(** ** Gradients filled into the clouds *)

(** Reference for one profile: [open] is the gradient of the cloud being filled. *)
Fixpoint filled_row (open : option Q) (mask : list bool) (g : list Q) : list Q :=
  match mask, g with
  | true :: m, x :: r => let c := match open with Some c => c | None => x end in c :: filled_row (Some c) m r
  | false :: m, _ :: r => 0%Q :: filled_row None m r
  | _, _ => []
  end.

Definition is_open (o : option Q) : bool := match o with Some _ => true | None => false end.

Lemma fill_row mask : forall g open cur tail,
  length g = length mask -> Forall (fun x => ~ x == 0)%Q g ->
  match open with Some c => c = cur | None => True end ->
  exists cur', scatter_row mask
    (fill_rec Qeq_bool 0%Q cur
       (select mask (map2 (fun (b : bool) x => assign b x 0%Q) (bases_from (is_open open) mask) g) ++ tail))
    = (filled_row open mask g, fill_rec Qeq_bool 0%Q cur' tail).
Proof.
  induction mask as [|b mask IH]; intros g open cur tail Hl Hg Ho.
  - destruct g; [|discriminate]. exists cur. reflexivity.
  - destruct g as [|x g]; [discriminate|]. cbn [length] in Hl. inversion Hg as [|? ? Hx Hg']; subst.
    destruct b.
    + cbn [bases_from map2]. unfold select. cbn [combine filter fst map snd app fill_rec scatter_row filled_row].
      destruct open as [c|].
      * subst c. cbn [is_open negb andb assign].
        replace (Qeq_bool 0 0) with true by reflexivity. cbn iota.
        destruct (IH g (Some cur) cur tail ltac:(lia) Hg' eq_refl) as (cur' & E). exists cur'.
        unfold select in E. cbn [is_open] in E. rewrite E. reflexivity.
      * cbn [is_open negb andb assign].
        assert (Ex : Qeq_bool x 0 = false).
        { destruct (Qeq_bool x 0) eqn:E; [|reflexivity]. apply Qeq_bool_iff in E. contradiction. }
        rewrite Ex. destruct (IH g (Some x) x tail ltac:(lia) Hg' eq_refl) as (cur' & E). exists cur'.
        unfold select in E. cbn [is_open] in E. rewrite E. reflexivity.
    + cbn [bases_from map2]. unfold select. cbn [combine filter fst map snd app scatter_row filled_row].
      destruct (IH g None cur tail ltac:(lia) Hg' I) as (cur' & E). exists cur'.
      unfold select in E. cbn [is_open] in E. rewrite E. reflexivity.
Qed.

Lemma fill_rows mask : forall gradient cur,
  Forall2 (fun g m => length g = length m /\ Forall (fun x => ~ x == 0)%Q g) gradient mask ->
  scatter mask (fill_rec Qeq_bool 0%Q cur
    (concat (map2 select mask (map2 (map2 (fun (b : bool) x => assign b x 0%Q)) (map find_cloud_bases_row mask) gradient))))
  = map2 (filled_row None) mask gradient.
Proof.
  induction mask as [|row mask IH]; intros gradient cur H; inversion H as [|g ? gs ? [Hl Hg] Hs]; subst.
  - reflexivity.
  - cbn [map map2 concat scatter]. rewrite find_cloud_bases_row_eq.
    destruct (fill_row row g None cur
      (concat (map2 select mask (map2 (map2 (fun (b : bool) x => assign b x 0%Q)) (map find_cloud_bases_row mask) gs)))
      Hl Hg I) as (cur' & E).
    cbn [is_open] in E. rewrite E. cbn [fst snd]. f_equal. apply IH. exact Hs.
Qed.

Lemma fill_clouds_rows gradient mask :
  Forall2 (fun g m => length g = length m /\ Forall (fun x => ~ x == 0)%Q g) gradient mask ->
  fill_clouds_with_lwc_dz gradient mask = Ok (map2 (filled_row None) mask gradient).
Proof.
  intros H. unfold fill_clouds_with_lwc_dz, get_lwc_change_rate_at_bases, select2, find_cloud_bases.
  rewrite ffill_rec. cbn [bind]. f_equal. apply fill_rows, H.
Qed.

Lemma filled_row_length mask : forall open g, length g = length mask -> length (filled_row open mask g) = length mask.
Proof.
  induction mask as [|[] mask IH]; intros open [|x g] H; try discriminate; [reflexivity| |];
    cbn [filled_row length] in *; rewrite IH by lia; reflexivity.
Qed.

Lemma filled_row_clear mask : forall open g j y, nth_error mask j = Some false ->
  nth_error (filled_row open mask g) j = Some y -> y = 0%Q.
Proof.
  induction mask as [|b mask IH]; intros open [|x g] [|j] y Hm Hy; try discriminate.
  - cbn in Hy. destruct b; discriminate.
  - destruct b; discriminate.
  - cbn in Hm. injection Hm as ->. cbn in Hy. congruence.
  - destruct b; cbn [filled_row nth_error] in *; eapply IH; eauto.
Qed.

(** In an open cloud all pixels up to the first gap carry its gradient. *)
Lemma filled_row_open mask : forall c g j y, (forall k, k <= j -> nth_error mask k = Some true) ->
  nth_error (filled_row (Some c) mask g) j = Some y -> y = c.
Proof.
  induction mask as [|b mask IH]; intros c [|x g] j y Hm Hy.
  - destruct j; discriminate.
  - destruct j; discriminate.
  - destruct b, j; discriminate.
  - pose proof (Hm 0 ltac:(lia)) as H0. cbn in H0. injection H0 as ->.
    destruct j as [|j]; cbn [filled_row nth_error] in Hy; [congruence|].
    eapply IH; [|exact Hy]. intros k Hk. apply (Hm (S k)). lia.
Qed.

Lemma filled_row_cloud mask : forall open g b j y gb,
  (match open with Some _ => b <> 0 | None => True end) ->
  b <= j -> (forall k, b <= k -> k <= j -> nth_error mask k = Some true) ->
  (b = 0 \/ nth_error mask (b - 1) = Some false) -> nth_error g b = Some gb ->
  nth_error (filled_row open mask g) j = Some y -> y = gb.
Proof.
  induction mask as [|c mask IH]; intros open [|x g] b j y gb Ho Hle Hin Hb Hg Hy.
  - destruct j; discriminate.
  - destruct j; discriminate.
  - destruct b; discriminate.
  - destruct b as [|b].
    + pose proof (Hin 0 ltac:(lia) ltac:(lia)) as H0. cbn in H0. injection H0 as ->.
      cbn in Hg. injection Hg as <-. destruct open; [contradiction|].
      destruct j as [|j]; cbn [filled_row nth_error] in Hy; [congruence|].
      eapply filled_row_open; [|exact Hy]. intros k Hk. apply (Hin (S k)); lia.
    + destruct j as [|j]; [lia|]. cbn [nth_error] in Hg.
      assert (Hin' : forall k, b <= k -> k <= j -> nth_error mask k = Some true)
        by (intros k H1 H2; apply (Hin (S k)); lia).
      destruct Hb as [Hb|Hb]; [discriminate|]. cbn [Nat.sub] in Hb. rewrite Nat.sub_0_r in Hb.
      destruct b as [|b].
      * cbn in Hb. injection Hb as ->. cbn [filled_row nth_error] in Hy.
        apply (IH None g 0 j y gb I ltac:(lia) Hin' (or_introl eq_refl) Hg Hy).
      * assert (Hb' : nth_error mask (S b - 1) = Some false) by (cbn [Nat.sub]; rewrite Nat.sub_0_r; exact Hb).
        destruct c; cbn [filled_row nth_error] in Hy.
        -- apply (IH (Some (match open with Some c => c | None => x end)) g (S b) j y gb ltac:(cbn; lia)
             ltac:(lia) Hin' (or_intror Hb') Hg Hy).
        -- apply (IH None g (S b) j y gb I ltac:(lia) Hin' (or_intror Hb') Hg Hy).
Qed.

(* ------------------------------------------------------------------ *)
(** ** Path lengths and sums *)
Lemma qdiff_from_length l : forall p, length (qdiff_from p l) = length l.
Proof. induction l; intros; simpl; auto. Qed.

Lemma nth_qdiff_from l : forall p j x, nth_error (qdiff_from p l) j = Some x ->
  exists y, nth_error l j = Some y /\
    x = (y - match j with O => p | S k => nth k l 0 end)%Q.
Proof.
  induction l as [|a l IH]; intros p [|j] x H; cbn [qdiff_from nth_error] in H; try discriminate.
  - injection H as <-. exists a. auto.
  - destruct (IH a j x H) as (y & Hy & ->). exists y. split; [exact Hy|].
    destruct j; reflexivity.
Qed.

Lemma path_nth h j : j < length h ->
  nth_error (path_lengths_from_ground h) j = Some (level h j - below_gate h j)%Q.
Proof.
  intros Hj. destruct (nth_error_lt_Some (path_lengths_from_ground h) j) as [x Hx].
  { unfold path_lengths_from_ground. rewrite qdiff_from_length. exact Hj. }
  rewrite Hx. f_equal. unfold path_lengths_from_ground in Hx.
  destruct (nth_qdiff_from _ _ _ _ Hx) as (y & Hy & ->). unfold level, below_gate, level.
  rewrite (nth_error_nth _ _ _ Hy). reflexivity.
Qed.

Lemma path_length h : length (path_lengths_from_ground h) = length h.
Proof. apply qdiff_from_length. Qed.

Lemma level_pos h j : heights_ok h -> j < length h -> (0 < level h j)%Q.
Proof.
  intros [H0 Hi]. induction j as [|j IH]; intros Hj.
  - destruct (nth_error_lt_Some h 0 Hj) as [x Hx]. unfold level. rewrite (nth_error_nth _ _ _ Hx). auto.
  - destruct (nth_error_lt_Some h (S j) Hj) as [y Hy].
    destruct (nth_error_lt_Some h j ltac:(lia)) as [x Hx].
    specialize (IH ltac:(lia)). unfold level in *. rewrite (nth_error_nth _ _ _ Hx) in IH.
    rewrite (nth_error_nth _ _ _ Hy). pose proof (Hi j x y Hx Hy). lra.
Qed.

Lemma path_pos h j : heights_ok h -> j < length h -> (0 < level h j - below_gate h j)%Q.
Proof.
  intros Hh Hj. destruct j as [|j]; cbn [below_gate].
  - pose proof (level_pos h 0 Hh Hj). lra.
  - destruct (nth_error_lt_Some h (S j) Hj) as [y Hy]. destruct (nth_error_lt_Some h j ltac:(lia)) as [x Hx].
    unfold level. rewrite (nth_error_nth _ _ _ Hx), (nth_error_nth _ _ _ Hy).
    destruct Hh as [_ Hi]. pose proof (Hi j x y Hx Hy). lra.
Qed.

(** Sum of a slice whose entries are given. *)
Fixpoint sum_to (f : nat -> Q) (a n : nat) : Q :=
  match n with 0 => 0%Q | S k => (f a + sum_to f (S a) k)%Q end.

Lemma qsum_slice l f n : forall a, a + n <= length l ->
  (forall k, a <= k -> k < a + n -> exists x, nth_error l k = Some x /\ (x == f k)%Q) ->
  (qsum (slice a (a + n) l) == sum_to f a n)%Q.
Proof.
  unfold slice. intros a. replace (a + n - a) with n by lia. revert a.
  induction n as [|n IH]; intros a Hl H; [reflexivity|].
  destruct (H a ltac:(lia) ltac:(lia)) as (x & Hx & Hf).
  assert (E : skipn a l = x :: skipn (S a) l).
  { clear -Hx. revert a Hx. induction l as [|y l IHl]; intros [|a] Hx; cbn in Hx; try discriminate.
    - injection Hx as ->. reflexivity.
    - cbn [skipn]. rewrite (IHl a Hx). destruct l; reflexivity. }
  rewrite E. cbn [firstn qsum sum_to]. rewrite Hf. rewrite (IH (S a)); [reflexivity|lia|].
  intros k H1 H2. apply H; lia.
Qed.

Lemma sum_to_S f n : forall a, (sum_to f a (S n) == sum_to f a n + f (a + n)%nat)%Q.
Proof.
  induction n as [|n IH]; intros a.
  - cbn [sum_to]. rewrite Nat.add_0_r. ring.
  - change (sum_to f a (S (S n))) with (f a + sum_to f (S a) (S n))%Q. rewrite IH.
    cbn [sum_to]. rewrite Nat.add_succ_r. cbn [Nat.add]. ring.
Qed.

Lemma sum_path h n : forall a, (sum_to (fun k => level h k - below_gate h k)%Q a n ==
  match n with O => 0 | S m => level h (a + m)%nat - below_gate h a end)%Q.
Proof.
  induction n as [|n IH]; intros a; [reflexivity|].
  rewrite sum_to_S, IH. destruct n as [|n].
  - rewrite Nat.add_0_r. ring.
  - replace (below_gate h (a + S n)) with (level h (a + n)) by (rewrite Nat.add_succ_r; reflexivity). ring.
Qed.

(* ------------------------------------------------------------------ *)
(** ** The adiabatic profile *)
Section Adiabatic.
  Variables (row : list bool) (dz h : list Q).
  Hypothesis Hlen : length dz = length row.
  Hypothesis Hlenh : length h = length row.
  Hypothesis Hh : heights_ok h.
  Hypothesis Hdz : forall j b x, nth_error row j = Some b -> nth_error dz j = Some x ->
    if b then ~ (x == 0)%Q else (x == 0)%Q.

  Let ones := map (fun b : bool => if b then 1%Q else 0%Q) (map (fun x => negb (Qeq_bool x 0)) dz).
  Let inside := map2 (fun c p => assign (qlt c 1) 0%Q p) (cumsumr ones) (path_lengths_from_ground h).

  Lemma ones_nth j b : nth_error row j = Some b -> nth_error ones j = Some (if b then 1%Q else 0%Q).
  Proof.
    intros Hb. pose proof (nth_error_Some_lt _ _ _ Hb) as Hj. rewrite <- Hlen in Hj.
    destruct (nth_error_lt_Some dz j Hj) as [x Hx]. unfold ones.
    rewrite !nth_error_map', Hx. cbn [option_map]. pose proof (Hdz j b x Hb Hx) as H. f_equal.
    destruct b, (Qeq_bool x 0) eqn:E; try reflexivity.
    - apply Qeq_bool_iff in E. contradiction.
    - apply Qeq_bool_iff in H. congruence.
  Qed.

  Lemma ones_nonneg : Forall (fun x => 0 <= x)%Q ones.
  Proof.
    apply Forall_forall. intros x Hx. unfold ones in Hx. rewrite map_map in Hx.
    apply in_map_iff in Hx as (y & <- & _). destruct (negb (Qeq_bool y 0)); lra.
  Qed.

  Lemma cumsumr_length l : length (cumsumr l) = length l.
  Proof.
    unfold cumsumr. rewrite map2_length. unfold cumsum. rewrite cumsum_from_length.
    destruct l as [|x l]; [reflexivity|]. cbn [cumsum_from map2 qmax_accumulate length].
    rewrite qmax_acc_from_length, map2_length, cumsum_from_length. lia.
  Qed.

  Lemma qsum_nonneg l : Forall (fun x => 0 <= x)%Q l -> (0 <= qsum l)%Q.
  Proof. induction 1; cbn [qsum]; lra. Qed.

  Lemma forall_slice {A} (P : A -> Prop) l a b : Forall P l -> Forall P (slice a b l).
  Proof.
    intros H. unfold slice. apply Forall_forall. intros x Hx.
    assert (Hx' : In x (skipn a l)).
    { rewrite <- (firstn_skipn (b - a) (skipn a l)). apply in_or_app. auto. }
    assert (Hx'' : In x l). { rewrite <- (firstn_skipn a l). apply in_or_app. auto. }
    rewrite Forall_forall in H. auto.
  Qed.

  Lemma slice_last (l : list Q) s i x : s <= i -> nth_error l i = Some x ->
    slice s (S i) l = slice s i l ++ [x].
  Proof.
    intros Hs Hx. unfold slice. replace (S i - s) with (S (i - s)) by lia.
    remember (i - s) as n eqn:En. assert (Ei : i = s + n) by lia. clear En Hs. subst i.
    revert l s Hx. induction n as [|n IH]; intros l s Hx.
    - rewrite Nat.add_0_r in Hx. revert l Hx. induction s as [|s IHs]; intros [|y l] Hx; cbn in Hx; try discriminate.
      + injection Hx as ->. reflexivity.
      + cbn [skipn]. apply IHs, Hx.
    - assert (Hs : s < length l) by (apply nth_error_Some_lt in Hx; lia).
      destruct (nth_error_lt_Some l s Hs) as [y Hy].
      assert (E : skipn s l = y :: skipn (S s) l).
      { clear -Hy. revert s Hy. induction l as [|z l IHl]; intros [|s] Hy; cbn in Hy; try discriminate.
        - injection Hy as ->. reflexivity.
        - cbn [skipn]. rewrite (IHl s Hy). destruct l; reflexivity. }
      rewrite E. change (firstn (S (S n)) (y :: skipn (S s) l)) with (y :: firstn (S n) (skipn (S s) l)).
      rewrite (IH l (S s)) by (rewrite <- Hx; f_equal; lia). reflexivity.
  Qed.

  Lemma qsum_app l1 l2 : (qsum (l1 ++ l2) == qsum l1 + qsum l2)%Q.
  Proof. induction l1 as [|x l1 IH]; cbn [app qsum]; [ring|]. rewrite IH. ring. Qed.

  Lemma inside_nth j b : nth_error row j = Some b ->
    nth_error inside j = Some (if b then (level h j - below_gate h j)%Q else 0%Q).
  Proof.
    intros Hb. pose proof (nth_error_Some_lt _ _ _ Hb) as Hj.
    unfold inside. rewrite nth_error_map2, path_nth by lia.
    assert (Hl : length ones = length row) by (unfold ones; rewrite !map_length; exact Hlen).
    destruct (nth_error_lt_Some (cumsumr ones) j) as [c Hc]; [rewrite cumsumr_length; lia|].
    rewrite Hc. f_equal. pose proof (ones_nth j b Hb) as Ho.
    destruct b.
    - assert (Hge : (1 <= c)%Q).
      { destruct (since_zero_exists ones j ltac:(lia)) as (s & Hs).
        destruct (cumsumr_correct ones ones_nonneg) as [_ Hspec]. rewrite (Hspec j c s Hc Hs).
        assert (s <= j).
        { destruct Hs as (Hs1 & _ & [->|(x & Hx & Hz)]); [lia|].
          destruct (Nat.eq_dec s (S j)) as [->|]; [|lia].
          cbn [Nat.sub] in Hx. rewrite Nat.sub_0_r in Hx. rewrite Ho in Hx. injection Hx as <-.
          discriminate. }
        rewrite (slice_last ones s j 1%Q) by assumption. rewrite qsum_app. cbn [qsum].
        pose proof (qsum_nonneg _ (forall_slice _ _ s j ones_nonneg)). lra. }
      unfold assign, qlt. destruct (Qle_bool 1 c) eqn:E; [reflexivity|].
      apply Qle_bool_iff in Hge. congruence.
    - assert (Hz : (c == 0)%Q) by (eapply (cumsumr_zero ones); eauto using ones_nonneg; reflexivity).
      unfold assign, qlt. destruct (Qle_bool 1 c) eqn:E; [|reflexivity].
      apply Qle_bool_iff in E. lra.
  Qed.

  Lemma inside_length : length inside = length row.
  Proof.
    unfold inside. rewrite map2_length, cumsumr_length, path_length. unfold ones. rewrite !map_length. lia.
  Qed.

  Lemma inside_nonneg : Forall (fun x => 0 <= x)%Q inside.
  Proof.
    apply Forall_forall. intros x Hx. apply In_nth_error in Hx as [j Hj].
    pose proof (nth_error_Some_lt _ _ _ Hj) as Hlt. rewrite inside_length in Hlt.
    destruct (nth_error_lt_Some row j Hlt) as [b Hb]. rewrite (inside_nth j b Hb) in Hj.
    injection Hj as <-. destruct b; [|lra]. pose proof (path_pos h j Hh ltac:(lia)). lra.
  Qed.

  Lemma adiabatic_length : length (calc_adiabatic_lwc dz h) = length row.
  Proof.
    change (calc_adiabatic_lwc dz h) with (map2 Qmult (cumsumr inside) dz).
    rewrite map2_length, cumsumr_length, inside_length. lia.
  Qed.

  Lemma adiabatic_clear j y : nth_error row j = Some false ->
    nth_error (calc_adiabatic_lwc dz h) j = Some y -> (y == 0)%Q.
  Proof.
    change (calc_adiabatic_lwc dz h) with (map2 Qmult (cumsumr inside) dz).
    intros Hb Hy. rewrite nth_error_map2 in Hy.
    destruct (nth_error (cumsumr inside) j); [|discriminate].
    destruct (nth_error dz j) as [x|] eqn:Hx; [|discriminate]. injection Hy as <-.
    pose proof (Hdz j false x Hb Hx) as E. cbn in E. rewrite E. ring.
  Qed.

  Lemma adiabatic_cloud b j x y : b <= j ->
    (forall k, b <= k -> k <= j -> nth_error row k = Some true) ->
    (b = 0 \/ nth_error row (b - 1) = Some false) ->
    nth_error dz j = Some x -> nth_error (calc_adiabatic_lwc dz h) j = Some y ->
    (y == (level h j - below_gate h b) * x)%Q.
  Proof.
    change (calc_adiabatic_lwc dz h) with (map2 Qmult (cumsumr inside) dz).
    intros Hle Hin Hb Hx Hy. rewrite nth_error_map2, Hx in Hy.
    destruct (nth_error (cumsumr inside) j) as [c|] eqn:Hc; [|discriminate]. injection Hy as <-.
    destruct (cumsumr_correct inside inside_nonneg) as [_ Hspec].
    assert (Hj : j < length row) by (eapply nth_error_Some_lt; apply (Hin j); lia).
    assert (Hs : since_zero inside j b).
    { split; [lia|]. split.
      - intros k z H1 H2 Hz. rewrite (inside_nth k true (Hin k H1 H2)) in Hz. injection Hz as <-.
        pose proof (path_pos h k Hh ltac:(lia)). lra.
      - destruct Hb as [->|Hb]; [left; reflexivity|]. right. exists 0%Q.
        rewrite (inside_nth (b - 1) false Hb). split; reflexivity. }
    rewrite (Hspec j c b Hc Hs).
    replace (S j) with (b + (S j - b)) at 1 by lia.
    rewrite (qsum_slice inside (fun k => level h k - below_gate h k)%Q (S j - b) b).
    - rewrite sum_path. replace (S j - b) with (S (j - b)) by lia. replace (b + (j - b)) with j by lia. ring.
    - rewrite inside_length. lia.
    - intros k H1 H2. rewrite (inside_nth k true) by (apply Hin; lia). eexists. split; [reflexivity|reflexivity].
  Qed.
End Adiabatic.

(* ------------------------------------------------------------------ *)
(** ** Integrals *)
Lemma nth_error_nth0 (l : list Q) k x : nth_error l k = Some x -> nth k l 0%Q = x.
Proof. apply nth_error_nth. Qed.

Lemma sum_to_ext f g n : forall a, (forall k, a <= k -> k < a + n -> (f k == g k)%Q) ->
  (sum_to f a n == sum_to g a n)%Q.
Proof.
  induction n as [|n IH]; intros a H; cbn [sum_to]; [reflexivity|].
  rewrite (H a) by lia. rewrite (IH (S a)); [reflexivity|]. intros; apply H; lia.
Qed.

Lemma integrate_sum_to h f n :
  (integrate h f n == sum_to (fun k => f k * (level h k - below_gate h k))%Q 0 n)%Q.
Proof.
  induction n as [|n IH]; [reflexivity|]. cbn [integrate]. rewrite IH, sum_to_S. cbn [Nat.add]. reflexivity.
Qed.

Lemma total_qsum l : total l = qsum l.
Proof. reflexivity. Qed.

Lemma total_integrate a h : length a = length h ->
  (total (map2 Qmult a (path_lengths_from_ground h)) == integrate h (fun k => nth k a 0) (length h))%Q.
Proof.
  intros Hl. rewrite integrate_sum_to, total_qsum.
  assert (E : slice 0 (0 + length h) (map2 Qmult a (path_lengths_from_ground h))
              = map2 Qmult a (path_lengths_from_ground h)).
  { unfold slice. cbn [skipn]. rewrite Nat.add_0_l, Nat.sub_0_r. apply firstn_all2.
    rewrite map2_length, path_length. lia. }
  rewrite <- E. apply qsum_slice.
  - rewrite map2_length, path_length. lia.
  - intros k _ Hk. destruct (nth_error_lt_Some a k ltac:(lia)) as [x Hx].
    exists (x * (level h k - below_gate h k))%Q. rewrite nth_error_map2, Hx, path_nth by lia.
    split; [reflexivity|]. rewrite (nth_error_nth _ _ _ Hx). reflexivity.
Qed.

Lemma integrate_ext h f g n : (forall k, k < n -> (f k == g k)%Q) -> (integrate h f n == integrate h g n)%Q.
Proof.
  induction n as [|n IH]; intros H; [reflexivity|]. cbn [integrate].
  rewrite IH, (H n) by (auto with arith). reflexivity.
Qed.

Lemma integrate_scale h f c n : (integrate h (fun k => f k * c) n == integrate h f n * c)%Q.
Proof. induction n as [|n IH]; cbn [integrate]; [ring|]. rewrite IH. ring. Qed.

Lemma integrate_nonneg h f n : heights_ok h -> n <= length h -> (forall k, k < n -> (0 <= f k)%Q) ->
  (0 <= integrate h f n)%Q.
Proof.
  intros Hh. induction n as [|n IH]; intros Hn H; cbn [integrate]; [lra|].
  pose proof (IH ltac:(lia) ltac:(intros; apply H; lia)) as I.
  pose proof (path_pos h n Hh ltac:(lia)). pose proof (H n ltac:(lia)).
  pose proof (Qmult_le_0_compat (f n) (level h n - below_gate h n) ltac:(lra) ltac:(lra)). lra.
Qed.

Lemma integrate_pos h f n k : heights_ok h -> n <= length h -> (forall k, k < n -> (0 <= f k)%Q) ->
  k < n -> (0 < f k)%Q -> (0 < integrate h f n)%Q.
Proof.
  intros Hh. induction n as [|n IH]; intros Hn H Hk Hf; cbn [integrate]; [lia|].
  pose proof (path_pos h n Hh ltac:(lia)) as P. pose proof (H n ltac:(lia)) as F.
  destruct (Nat.eq_dec k n) as [->|].
  - pose proof (integrate_nonneg h f n Hh ltac:(lia) ltac:(intros; apply H; lia)).
    assert (0 < f n * (level h n - below_gate h n))%Q by (apply Qmult_lt_0_compat; assumption). lra.
  - pose proof (IH ltac:(lia) ltac:(intros; apply H; lia) ltac:(lia) Hf).
    pose proof (Qmult_le_0_compat (f n) (level h n - below_gate h n) ltac:(lra) ltac:(lra)). lra.
Qed.

Lemma integrate_zero h f n : (forall k, k < n -> (f k == 0)%Q) -> (integrate h f n == 0)%Q.
Proof.
  induction n as [|n IH]; intros H; cbn [integrate]; [reflexivity|].
  rewrite IH, (H n) by (auto with arith). ring.
Qed.

(* ------------------------------------------------------------------ *)
(** ** The lwc of one profile *)

(** Start of the run of set pixels around a set pixel. *)
Lemma run_start row j : nth_error row j = Some true ->
  exists b, b <= j /\ (forall k, b <= k -> k <= j -> nth_error row k = Some true) /\
    (b = 0 \/ nth_error row (b - 1) = Some false).
Proof.
  induction j as [|j IH]; intros H.
  - exists 0. repeat split; auto. intros k _ Hk. replace k with 0 by lia. exact H.
  - destruct (nth_error row j) as [[]|] eqn:E.
    + destruct (IH eq_refl) as (b & Hb & Hin & Hs). exists b. repeat split; auto.
      intros k H1 H2. destruct (Nat.eq_dec k (S j)) as [->|]; [exact H|]. apply Hin; lia.
    + exists (S j). split; [lia|]. split.
      * intros k H1 H2. replace k with (S j) by lia. exact H.
      * right. cbn [Nat.sub]. rewrite Nat.sub_0_r. exact E.
    + apply nth_error_None in E. apply nth_error_Some_lt in H. lia.
Qed.

Lemma level_mono h b j : heights_ok h -> b <= j -> j < length h -> (level h b <= level h j)%Q.
Proof.
  intros Hh Hb. induction j as [|j IH]; intros Hj.
  - replace b with 0 by lia. lra.
  - destruct (Nat.eq_dec b (S j)) as [->|]; [lra|].
    specialize (IH ltac:(lia) ltac:(lia)). pose proof (path_pos h (S j) Hh Hj) as P.
    cbn [below_gate] in P. lra.
Qed.

Section Profile.
  Variables (row : list bool) (g h : list Q).
  Hypothesis Hlg : length g = length row.
  Hypothesis Hlh : length h = length row.
  Hypothesis Hh : heights_ok h.
  Hypothesis Hg : Forall (fun x => 0 < x)%Q g.
  Let dz := filled_row None row g.
  Let adi := calc_adiabatic_lwc dz h.

  Lemma Hg_nz : Forall (fun x => ~ x == 0)%Q g.
  Proof. eapply Forall_impl; [|exact Hg]. intros a H. cbn in H. lra. Qed.

  Lemma dz_len : length dz = length row.
  Proof. apply filled_row_length, Hlg. Qed.

  Lemma dz_cloud b j x gb : b <= j ->
    (forall k, b <= k -> k <= j -> nth_error row k = Some true) ->
    (b = 0 \/ nth_error row (b - 1) = Some false) -> nth_error g b = Some gb ->
    nth_error dz j = Some x -> x = gb.
  Proof. intros. eapply (filled_row_cloud row None g b j x gb); eauto. Qed.

  Lemma dz_sign j b x : nth_error row j = Some b -> nth_error dz j = Some x ->
    if b then ~ (x == 0)%Q else (x == 0)%Q.
  Proof.
    intros Hb Hx. destruct b.
    - destruct (run_start row j Hb) as (b & Hb1 & Hin & Hs).
      assert (Hbl : b < length g). { rewrite Hlg. eapply nth_error_Some_lt. apply (Hin b); lia. }
      destruct (nth_error_lt_Some g b Hbl) as [gb Hgb].
      rewrite (dz_cloud b j x gb Hb1 Hin Hs Hgb Hx).
      pose proof Hg_nz as Hn. rewrite Forall_forall in Hn. apply Hn. eapply nth_error_In, Hgb.
    - rewrite (filled_row_clear row None g j x Hb Hx). reflexivity.
  Qed.

  Lemma adi_len : length adi = length row.
  Proof. apply adiabatic_length; auto using dz_len. Qed.

  Lemma adi_clear j y : nth_error row j = Some false -> nth_error adi j = Some y -> (y == 0)%Q.
  Proof. exact (adiabatic_clear row dz h dz_sign j y). Qed.

  Lemma adi_cloud b j y gb : b <= j ->
    (forall k, b <= k -> k <= j -> nth_error row k = Some true) ->
    (b = 0 \/ nth_error row (b - 1) = Some false) -> nth_error g b = Some gb ->
    nth_error adi j = Some y -> (y == gb * (level h j - below_gate h b))%Q.
  Proof.
    intros H1 H2 H3 H4 H5.
    assert (Hj : j < length dz). { rewrite dz_len. eapply nth_error_Some_lt. apply (H2 j); lia. }
    destruct (nth_error_lt_Some dz j Hj) as [x Hx].
    rewrite (adiabatic_cloud row dz h dz_len Hlh Hh dz_sign b j x y H1 H2 H3 Hx H5).
    rewrite (dz_cloud b j x gb H1 H2 H3 H4 Hx). ring.
  Qed.

  Lemma adi_pos j y : nth_error row j = Some true -> nth_error adi j = Some y -> (0 < y)%Q.
  Proof.
    intros Hb Hy. destruct (run_start row j Hb) as (b & Hb1 & Hin & Hs).
    pose proof (nth_error_Some_lt _ _ _ Hb) as Hj.
    assert (Hbl : b < length g) by lia. destruct (nth_error_lt_Some g b Hbl) as [gb Hgb].
    rewrite (adi_cloud b j y gb Hb1 Hin Hs Hgb Hy). apply Qmult_lt_0_compat.
    - rewrite Forall_forall in Hg. apply Hg. eapply nth_error_In, Hgb.
    - pose proof (level_mono h b j Hh Hb1 ltac:(lia)). pose proof (path_pos h b Hh ltac:(lia)). lra.
  Qed.

  Lemma adi_nonneg k : k < length h -> (0 <= nth k adi 0)%Q.
  Proof.
    intros Hk. destruct (nth_error_lt_Some adi k) as [y Hy]; [rewrite adi_len; lia|].
    rewrite (nth_error_nth _ _ _ Hy). destruct (nth_error_lt_Some row k ltac:(lia)) as [[] Hb].
    - pose proof (adi_pos k y Hb Hy). lra.
    - pose proof (adi_clear k y Hb Hy). lra.
  Qed.

  Let T := total (map2 Qmult adi (path_lengths_from_ground h)).

  Lemma T_pos : In true row -> (0 < T)%Q.
  Proof.
    intros H. apply In_nth_error in H as [j Hj]. unfold T.
    rewrite total_integrate by (rewrite adi_len; lia).
    pose proof (nth_error_Some_lt _ _ _ Hj) as Hlt.
    destruct (nth_error_lt_Some adi j) as [y Hy]; [rewrite adi_len; lia|].
    apply (integrate_pos h _ (length h) j Hh (le_n _)); [exact adi_nonneg|lia|].
    rewrite (nth_error_nth _ _ _ Hy). apply (adi_pos j y Hj Hy).
  Qed.

  Lemma T_zero : (forall b, In b row -> b = false) -> (T == 0)%Q.
  Proof.
    intros H. unfold T. rewrite total_integrate by (rewrite adi_len; lia).
    apply integrate_zero. intros k Hk. destruct (nth_error_lt_Some adi k) as [y Hy]; [rewrite adi_len; lia|].
    rewrite (nth_error_nth _ _ _ Hy). destruct (nth_error_lt_Some row k ltac:(lia)) as [b Hb].
    apply (adi_clear k y); [|exact Hy]. rewrite Hb. f_equal. apply H. eapply nth_error_In, Hb.
  Qed.

  Lemma clip_eq l : exists v, clip_lwp (Some l) = Some v /\ (v == Qmax 0 l)%Q /\ (0 <= v)%Q /\ (0 < l -> 0 < v)%Q.
  Proof.
    unfold clip_lwp, qlt. destruct (Qle_bool 0 l) eqn:E; cbn [negb]; eexists; (split; [reflexivity|]).
    - apply Qle_bool_iff in E. rewrite Q.max_r by exact E. repeat split; auto; lra.
    - assert (~ 0 <= l)%Q by (intros C; apply Qle_bool_iff in C; congruence).
      rewrite Q.max_l by lra. repeat split; lra.
  Qed.

  Lemma norm_nth lwp rain j : nth_error (lwc_profile dz h lwp rain) j =
    option_map (fun x => assign rain None (option_map (fun s => (x * s)%Q)
      match clip_lwp lwp with Some x => if Qeq_bool T 0 then None else Some (x / T)%Q | None => None end))
      (nth_error adi j).
  Proof.
    unfold lwc_profile, normalize_lwc_by_lwp. rewrite !nth_error_map'. fold adi. fold T.
    destruct (nth_error adi j); reflexivity.
  Qed.

  Lemma profile_len lwp rain : length (lwc_profile dz h lwp rain) = length row.
  Proof. unfold lwc_profile, normalize_lwc_by_lwp. rewrite !map_length. apply adi_len. Qed.

  Lemma profile_masked lwp rain :
    rain = true \/ lwp = None \/ (forall b, In b row -> b = false) ->
    forall j x, nth_error (lwc_profile dz h lwp rain) j = Some x -> x = None.
  Proof.
    intros H j x Hx. rewrite norm_nth in Hx. destruct (nth_error adi j) as [y|]; [|discriminate].
    cbn [option_map] in Hx. injection Hx as <-. destruct H as [->|[->|H]].
    - reflexivity.
    - destruct rain; reflexivity.
    - apply T_zero in H. apply Qeq_bool_iff in H. rewrite H.
      destruct rain, (clip_lwp lwp); reflexivity.
  Qed.

  Lemma profile_values l : In true row -> exists c, (0 <= c)%Q /\ (0 < l -> 0 < c)%Q /\
    (forall j, j < length row -> exists y, nth_error (lwc_profile dz h (Some l) false) j = Some (Some y) /\
      (nth_error row j = Some false -> (y == 0)%Q) /\
      (forall b t gb, max_run row b t -> b <= j -> j <= t -> nth_error g b = Some gb ->
        (y == c * gb * (level h j - below_gate h b))%Q)) /\
    (integrate h (value0 (lwc_profile dz h (Some l) false)) (length h) == Qmax 0 l)%Q.
  Proof.
    intros H. pose proof (T_pos H) as HT. destruct (clip_eq l) as (v & Hv & Hm & Hv0 & Hvp).
    assert (ET : Qeq_bool T 0 = false).
    { destruct (Qeq_bool T 0) eqn:E; [|reflexivity]. apply Qeq_bool_iff in E. lra. }
    assert (Hnth : forall j, nth_error (lwc_profile dz h (Some l) false) j =
              option_map (fun x => Some (x * (v / T))%Q) (nth_error adi j)).
    { intros j. rewrite norm_nth, Hv, ET. destruct (nth_error adi j); reflexivity. }
    exists (v / T)%Q. split; [|split; [|split]].
    - apply Qle_shift_div_l; lra.
    - intros Hl. apply Qlt_shift_div_l; [exact HT|]. specialize (Hvp Hl). lra.
    - intros j Hj. destruct (nth_error_lt_Some adi j) as [y Hy]; [rewrite adi_len; lia|].
      rewrite Hnth, Hy. exists (y * (v / T))%Q. split; [reflexivity|]. split.
      + intros Hb. rewrite (adi_clear j y Hb Hy). ring.
      + intros b t gb (Hbt & Hin & Hs & _) Hb Ht Hgb.
        rewrite (adi_cloud b j y gb Hb ltac:(intros; apply Hin; lia) Hs Hgb Hy). ring.
    - rewrite (integrate_ext h _ (fun k => nth k adi 0 * (v / T))%Q).
      + rewrite integrate_scale, <- total_integrate by (rewrite adi_len; lia). fold T.
        rewrite <- Hm. field. lra.
      + intros k Hk. destruct (nth_error_lt_Some adi k) as [y Hy]; [rewrite adi_len; lia|].
        unfold value0. rewrite Hnth, Hy. cbn [option_map]. rewrite (nth_error_nth _ _ _ Hy). reflexivity.
  Qed.
End Profile.

(** ** The whole field *)
Lemma forall2_len {A B} (P : A -> B -> Prop) l l' : Forall2 P l l' -> length l = length l'.
Proof. induction 1; cbn [length]; congruence. Qed.
Lemma forall2_impl {A B} (P Q : A -> B -> Prop) l l' : (forall a b, P a b -> Q a b) -> Forall2 P l l' -> Forall2 Q l l'.
Proof. intros H. induction 1; constructor; auto. Qed.


Lemma lwc_field_rows gradient liquid h lwp rain :
  Forall2 (fun g m => length g = length m /\ Forall (fun x => 0 < x)%Q g) gradient liquid ->
  exists out, lwc_field gradient liquid h lwp rain = Ok out /\ length out = length liquid /\
    forall i row g, nth_error liquid i = Some row -> nth_error gradient i = Some g ->
      nth_error out i = Some (lwc_profile (filled_row None row g) h (nth i lwp None) (nth i rain false)).
Proof.
  intros H. unfold lwc_field. rewrite fill_clouds_rows.
  - cbn [bind]. eexists. split; [reflexivity|]. split.
    + rewrite mapi_from_length, map2_length. pose proof (forall2_len _ _ _ H). lia.
    + intros i row g Hr Hg. rewrite nth_error_mapi_from, nth_error_map2, Hr, Hg. reflexivity.
  - eapply forall2_impl; [|exact H]. intros a b [H1 H2]. split; [exact H1|].
    eapply Forall_impl; [|exact H2]. intros x Hx. cbn in Hx. lra.
Qed.

(* ------------------------------------------------------------------ *)
(** ** Two-way attenuation *)
Lemma ma_cumsum_len l : forall s, length (ma_cumsum_from s l) = length l.
Proof. induction l as [|[x m] l IH]; intros; cbn [ma_cumsum_from length]; auto. Qed.

Definition cell0 (c : cell) : Q := if snd c then 0%Q else fst c.

Lemma ma_cumsum_nth l : forall s j c, nth_error l j = Some c ->
  exists v, nth_error (ma_cumsum_from s l) j = Some (v, snd c) /\
    (v == s + sum_to (fun k => cell0 (nth k l (0%Q, true))) 0 (S j))%Q.
Proof.
  induction l as [|[x m] l IH]; intros s j c H; [destruct j; discriminate|].
  destruct j as [|j]; cbn [nth_error ma_cumsum_from] in *.
  - injection H as <-. eexists. split; [reflexivity|]. cbn [sum_to nth]. unfold cell0. cbn [snd fst].
    destruct m; ring.
  - destruct (IH (if m then s + 0 else s + x)%Q j c H) as (v & Hv & E). exists v. split; [exact Hv|].
    rewrite E. change (sum_to (fun k => cell0 (nth k ((x, m) :: l) (0%Q, true))) 0 (S (S j)))
      with (cell0 (x, m) + sum_to (fun k => cell0 (nth k ((x, m) :: l) (0%Q, true))) 1 (S j))%Q.
    assert (Es : forall n a, sum_to (fun k => cell0 (nth k ((x, m) :: l) (0%Q, true))) (S a) n
              = sum_to (fun k => cell0 (nth k l (0%Q, true))) a n).
    { induction n as [|n IHn]; intros a; cbn [sum_to]; [reflexivity|]. rewrite IHn. reflexivity. }
    rewrite Es. unfold cell0 at 2. cbn [fst snd]. destruct m; ring.
Qed.

Lemma two_way_cells h cells : length cells = length h -> forall j c, nth_error cells j = Some c ->
  exists v, nth_error (calc_two_way_attenuation h cells) j = Some (v, snd c) /\
    (snd c = false -> v == 2 * integrate h (value0 (map to_masked cells)) (S j) / 1000)%Q.
Proof.
  intros Hl j c Hc. unfold calc_two_way_attenuation.
  pose proof (nth_error_Some_lt _ _ _ Hc) as Hj. rewrite nth_error_map'.
  set (one := map2 (fun c p => ma_scale p c) cells (map (fun p => (p * (1 # 1000))%Q) (path_lengths_from_ground h))).
  assert (Hone : forall k c, nth_error cells k = Some c ->
            nth_error one k = Some (ma_scale ((level h k - below_gate h k) * (1 # 1000)) c)).
  { intros k d Hd. unfold one. rewrite nth_error_map2, nth_error_map', Hd.
    rewrite path_nth by (apply nth_error_Some_lt in Hd; lia). reflexivity. }
  destruct (ma_cumsum_nth one 0%Q j _ (Hone j c Hc)) as (v & Hv & E). rewrite Hv. cbn [option_map].
  assert (Es : snd (ma_scale ((level h j - below_gate h j) * (1 # 1000)) c) = snd c).
  { unfold ma_scale. destruct (snd c) eqn:Em; [exact Em|reflexivity]. }
  rewrite Es in *. unfold ma_scale. cbn [snd]. destruct (snd c) eqn:Em.
  - exists v. cbn [fst snd]. split; [reflexivity|discriminate].
  - exists (v * 2)%Q. cbn [fst snd]. split; [reflexivity|]. intros _. rewrite E, integrate_sum_to.
    assert (X : (sum_to (fun k => cell0 (nth k one (0%Q, true))) 0 (S j) ==
                 sum_to (fun k => value0 (map to_masked cells) k * (level h k - below_gate h k))%Q 0 (S j) * (1 # 1000))%Q).
    { clear -Hone Hj.
      assert (G : forall n a, a + n <= length cells ->
        (sum_to (fun k => cell0 (nth k one (0%Q, true))) a n ==
         sum_to (fun k => value0 (map to_masked cells) k * (level h k - below_gate h k))%Q a n * (1 # 1000))%Q).
      { induction n as [|n IH]; intros a Ha; cbn [sum_to]; [ring|]. rewrite (IH (S a)) by lia.
        destruct (nth_error_lt_Some cells a ltac:(lia)) as [d Hd].
        rewrite (nth_error_nth _ _ _ (Hone a d Hd)). unfold value0. rewrite nth_error_map', Hd. cbn [option_map].
        unfold to_masked, ma_scale, cell0. destruct (snd d) eqn:E; cbn [fst snd]; [rewrite E|]; ring. }
      apply G. lia. }
    rewrite X. field.
Qed.

Lemma two_way_length h cells : length cells = length h -> length (calc_two_way_attenuation h cells) = length h.
Proof.
  intros H. unfold calc_two_way_attenuation. rewrite map_length, ma_cumsum_len, map2_length, map_length, path_length. lia.
Qed.

Lemma two_way_value h cells j a : length cells = length h ->
  nth_error (map to_masked cells) j = Some a ->
  exists y, nth_error (map to_masked (calc_two_way_attenuation h cells)) j = Some y /\
    match a with
    | None => y = None
    | Some _ => exists v, y = Some v /\
        (v == 2 * integrate h (value0 (map to_masked cells)) (S j) / 1000)%Q
    end.
Proof.
  intros Hl Ha. rewrite nth_error_map' in *. destruct (nth_error cells j) as [c|] eqn:Hc; [|discriminate].
  cbn [option_map] in Ha. injection Ha as <-. destruct (two_way_cells h cells Hl j c Hc) as (v & Hv & E).
  rewrite Hv. eexists. split; [reflexivity|]. unfold to_masked. cbn [fst snd]. destruct (snd c).
  - reflexivity.
  - exists v. auto.
Qed.

Lemma integrate_mono h f n m : heights_ok h -> m <= length h -> (forall k, k < m -> (0 <= f k)%Q) -> n <= m ->
  (integrate h f n <= integrate h f m)%Q.
Proof.
  intros Hh Hm Hf Hn. induction m as [|m IH]; [replace n with 0 by lia; lra|].
  destruct (Nat.eq_dec n (S m)) as [->|]; [lra|].
  specialize (IH ltac:(lia) ltac:(intros; apply Hf; lia) ltac:(lia)). cbn [integrate].
  pose proof (path_pos h m Hh ltac:(lia)). pose proof (Hf m ltac:(lia)).
  pose proof (Qmult_le_0_compat (f m) (level h m - below_gate h m) ltac:(lra) ltac:(lra)). lra.
Qed.

Lemma two_way_mono h cells i j x y : heights_ok h -> length cells = length h ->
  (forall k a, nth_error (map to_masked cells) k = Some (Some a) -> (0 <= a)%Q) ->
  i <= j ->
  nth_error (map to_masked (calc_two_way_attenuation h cells)) i = Some (Some x) ->
  nth_error (map to_masked (calc_two_way_attenuation h cells)) j = Some (Some y) -> (0 <= x /\ x <= y)%Q.
Proof.
  intros Hh Hl Ha Hij Hx Hy.
  assert (V : forall k z, nth_error (map to_masked (calc_two_way_attenuation h cells)) k = Some (Some z) ->
            k < length h /\ (z == 2 * integrate h (value0 (map to_masked cells)) (S k) / 1000)%Q).
  { intros k z Hz. pose proof (nth_error_Some_lt _ _ _ Hz) as Hk. rewrite map_length, two_way_length in Hk by exact Hl.
    split; [exact Hk|]. destruct (nth_error_lt_Some (map to_masked cells) k) as [a E]; [rewrite map_length; lia|].
    destruct (two_way_value h cells k a Hl E) as (w & Hw & M). rewrite Hz in Hw. injection Hw as <-.
    destruct a; [|discriminate]. destruct M as (v & Hv & M). injection Hv as ->. exact M. }
  destruct (V i x Hx) as [Hi Ex]. destruct (V j y Hy) as [Hj Ey].
  assert (N : forall k, (0 <= value0 (map to_masked cells) k)%Q).
  { intros k. unfold value0. destruct (nth_error (map to_masked cells) k) as [[a|]|] eqn:E; try lra. eauto. }
  rewrite Ex, Ey. 
  pose proof (integrate_nonneg h (value0 (map to_masked cells)) (S i) Hh ltac:(lia) ltac:(auto)) as P.
  pose proof (integrate_mono h (value0 (map to_masked cells)) (S i) (S j) Hh ltac:(lia) ltac:(auto) ltac:(lia)) as M.
  set (I1 := integrate h (value0 (map to_masked cells)) (S i)) in *.
  set (I2 := integrate h (value0 (map to_masked cells)) (S j)) in *. unfold Qdiv.
  change (/ 1000)%Q with (1 # 1000)%Q. lra.
Qed.

(* ------------------------------------------------------------------ *)
(** ** Flags and amounts *)
Lemma nth_corrected a j : nth_error (corrected a) j = Some true ->
  nth_error (attenuated a) j = Some true /\ nth_error (uncorrected a) j = Some false.
Proof.
  unfold corrected. rewrite nth_error_map2. destruct (nth_error (attenuated a) j) as [[]|]; try discriminate;
    destruct (nth_error (uncorrected a) j) as [[]|]; try discriminate; auto.
Qed.

Lemma liquid_corrected rate h dz lwp row rain j :
  nth_error (corrected (screen_liquid rain (calc_liquid_attenuation rate h dz lwp row))) j = Some true ->
  exists y, nth_error (amount (screen_liquid rain (calc_liquid_attenuation rate h dz lwp row))) j = Some (Some y).
Proof.
  intros H. apply nth_corrected in H as [H1 H2].
  unfold screen_liquid, calc_liquid_attenuation in *. cbn [amount attenuated uncorrected] in *.
  rewrite !nth_error_map2 in *. destruct (nth_error (attenuated rain) j) as [r|]; [|discriminate].
  destruct (nth_error (ffill_bool row) j) as [a|]; [|discriminate].
  destruct r; cbn [assign] in *; [discriminate|]. assert (a = true) by congruence. subst a.
  cbn [negb assign andb] in *.
  destruct (nth_error (map to_masked _) j) as [[y|]|]; try discriminate. exists y. reflexivity.
Qed.

Lemma liquid_fields rate h dz lwp row rain j :
  let liquid := screen_liquid rain (calc_liquid_attenuation rate h dz lwp row) in
  (forall y, nth_error (amount liquid) j = Some (Some y) ->
     nth_error (attenuated liquid) j = Some true /\ nth_error (attenuated rain) j = Some false) /\
  (nth_error (uncorrected liquid) j = Some true ->
     nth_error (attenuated liquid) j = Some true /\ nth_error (amount liquid) j = Some None) /\
  (nth_error (attenuated liquid) j = Some true -> nth_error (amount liquid) j = Some None ->
     nth_error (uncorrected liquid) j = Some true).
Proof.
  unfold screen_liquid, calc_liquid_attenuation. cbn [amount attenuated uncorrected].
  rewrite !nth_error_map2.
  destruct (nth_error (attenuated rain) j) as [r|]; [|repeat split; intros; discriminate].
  destruct (nth_error (ffill_bool row) j) as [a|]; [|repeat split; intros; discriminate].
  destruct (nth_error _ j) as [x|]; [|repeat split; intros; discriminate].
  destruct r, a, x as [x|]; cbn; repeat split; intros; try reflexivity; try discriminate.
Qed.

Lemma melting_corrected formula b rate is_rain freezing melting a j :
  calc_melting_attenuation formula b rate is_rain freezing melting = Ok a ->
  nth_error (corrected a) j = Some true ->
  exists y, nth_error (amount a) j = Some (Some y) /\ ~ (y == 0)%Q.
Proof.
  intros E H. apply nth_corrected in H as [H1 H2]. unfold calc_melting_attenuation in E. destruct rate as [r|].
  - set (att := option_map (formula b) (if (is_rain =? 0)%Z then Some 0%Q else r)) in *.
    assert (Ea : a = {| amount := map2 (fun (z : bool) x => assign z None x)
         (map (fun x : masked Q => match x with Some y => Qeq_bool y 0 | None => false end)
            (map (fun f : bool => option_map (fun a => ((if f then 1 else 0) * a)%Q) att) freezing))
         (map (fun f : bool => option_map (fun a => ((if f then 1 else 0) * a)%Q) att) freezing);
        attenuated := map2 (fun (z f : bool) => assign z false f)
         (map (fun x : masked Q => match x with Some y => Qeq_bool y 0 | None => false end)
            (map (fun f : bool => option_map (fun a => ((if f then 1 else 0) * a)%Q) att) freezing)) freezing;
        uncorrected := uncorrected a |} /\ uncorrected a = map2 (fun (f : bool) x => f && is_masked x) (attenuated a) (amount a)).
    { destruct b; try discriminate; apply (f_equal (fun r => match r with Ok x => x | Raise _ => a end)) in E;
        rewrite <- E; split; reflexivity. }
    destruct Ea as [Ea Eu]. clear E. rewrite Eu in H2. rewrite nth_error_map2, H1 in H2.
    destruct (nth_error (amount a) j) as [y|] eqn:Ey; [|discriminate]. cbn [andb] in H2.
    destruct y as [y|]; [|discriminate]. exists y. split; [reflexivity|].
    rewrite Ea in Ey. cbn [amount] in Ey. rewrite !nth_error_map2, !nth_error_map' in Ey.
    destruct (nth_error freezing j) as [f|]; [|discriminate]. cbn [option_map] in Ey.
    destruct att as [v|]; [|discriminate]. cbn [option_map] in Ey.
    destruct (Qeq_bool ((if f then 1 else 0) * v) 0) eqn:Ez; [discriminate|].
    cbn [assign] in Ey. assert (y = (if f then 1 else 0) * v)%Q by congruence. subst y.
    intros C. apply Qeq_bool_iff in C. congruence.
  - apply (f_equal (fun r => match r with Ok x => x | Raise _ => a end)) in E. rewrite <- E in H1, H2.
    cbn [attenuated uncorrected] in *. congruence.
Qed.

(** The element an index is filled from. *)
Lemma fill_rec_nth {A} (eqb : A -> A -> bool) value l : forall cur j y,
  nth_error (fill_rec eqb value cur l) j = Some y ->
  (exists k, k <= j /\ nth_error l k = Some y /\ eqb y value = false /\
     forall m x, k < m -> m <= j -> nth_error l m = Some x -> eqb x value = true) \/
  (y = cur /\ forall m x, m <= j -> nth_error l m = Some x -> eqb x value = true).
Proof.
  induction l as [|x l IH]; intros cur j y H; [destruct j; discriminate|].
  destruct j as [|j]; cbn [fill_rec nth_error] in H.
  - injection H as H. destruct (eqb x value) eqn:E.
    + right. split; [congruence|]. intros m z Hm Hz. replace m with 0 in Hz by lia. cbn in Hz. congruence.
    + left. exists 0. subst y. repeat split; auto. intros; lia.
  - destruct (IH _ _ _ H) as [(k & Hk & Hy & Hv & Hm)|[Hy Hm]].
    + left. exists (S k). repeat split; auto; [lia|]. intros m z H1 H2 Hz.
      destruct m as [|m]; [lia|]. apply (Hm m z); auto; lia.
    + destruct (eqb x value) eqn:E.
      * right. split; [exact Hy|]. intros [|m] z H1 Hz; cbn in Hz; [congruence|]. apply (Hm m z); auto; lia.
      * left. exists 0. subst y. split; [lia|]. split; [reflexivity|]. split; [exact E|].
        intros [|m] z H1 H2 Hz; [lia|]. apply (Hm m z); auto; lia.
Qed.

Lemma fill_rec_cases {A} (eqb : A -> A -> bool) value l : eqb value value = true -> forall j y,
  nth_error (fill_rec eqb value (hd value l) l) j = Some y ->
  (exists k, k <= j /\ nth_error l k = Some y /\ eqb y value = false /\
     forall m x, k < m -> m <= j -> nth_error l m = Some x -> eqb x value = true) \/
  (eqb y value = true /\ forall m x, m <= j -> nth_error l m = Some x -> eqb x value = true).
Proof.
  intros Hv j y H. destruct (fill_rec_nth _ _ _ _ _ _ H) as [?|[Hy Hm]]; [left; assumption|].
  right. split; [|exact Hm]. subst y. destruct l as [|x l]; [exact Hv|]. apply (Hm 0 x); [lia|reflexivity].
Qed.

Lemma ffill_list_rec {A} (eqb : A -> A -> bool) value (l : list A) :
  ffill_list eqb value l = fill_rec eqb value (hd value l) l.
Proof. unfold ffill_list. rewrite ffill_rec. reflexivity. Qed.

Section Rain.
  Variables (specific : Q -> Q) (junk : Q) (h : list Q) (freezing : list bool) (is_rain : Z) (r : masked Q).
  Hypothesis Hh : heights_ok h.
  Hypothesis Hl : length h = length freezing.
  Let att := calc_rain_attenuation specific junk h (Some r) is_rain freezing.

  Let sp : cell := match (assign (is_rain =? 0)%Z None r : masked Q) with Some x => (specific x, false) | None => (junk, true) end.
  Let tw : list cell := map2 (fun (b : bool) c => assign (negb b) (0%Q, false) c)
      (map (fun f => negb f && negb (is_rain =? 0)%Z) freezing)
      (calc_two_way_attenuation h (map (fun _ => sp) freezing)).

  Lemma rain_amount_eq : amount att =
    map (fun x => if Qeq_bool x 0 then None else Some x) (fill_rec Qeq_bool 0%Q (hd 0%Q (map fst tw)) (map fst tw)).
  Proof. unfold att, calc_rain_attenuation. cbn [amount]. rewrite ffill_list_rec. reflexivity. Qed.

  Lemma const_len : length (map (fun _ : bool => sp) freezing) = length h.
  Proof. rewrite map_length. auto. Qed.

  Lemma sum_to_zero f n : forall a, (forall k, (f k == 0)%Q) -> (sum_to f a n == 0)%Q.
  Proof. induction n; intros a H; cbn [sum_to]; [reflexivity|]. rewrite H, IHn by exact H. ring. Qed.

  Lemma tw_masked_zero k c : snd sp = true -> nth_error tw k = Some c -> (fst c == 0)%Q.
  Proof.
    intros Hs Hc. unfold tw in Hc. rewrite nth_error_map2, nth_error_map' in Hc.
    destruct (nth_error freezing k) as [f|]; [|discriminate]. cbn [option_map] in Hc.
    unfold calc_two_way_attenuation in Hc. rewrite nth_error_map' in Hc.
    match type of Hc with context [ma_cumsum_from 0 ?X] => set (one := X) in Hc end.
    assert (Ho : forall k d, nth_error one k = Some d -> snd d = true).
    { intros m d Hd. unfold one in Hd. rewrite nth_error_map2, !nth_error_map' in Hd.
      destruct (nth_error freezing m); [|discriminate]. cbn [option_map] in Hd.
      destruct (nth_error _ m); [|discriminate]. cbn [option_map] in Hd.
      unfold ma_scale in Hd. rewrite Hs in Hd. congruence. }
    destruct (nth_error (ma_cumsum_from 0 one) k) as [d|] eqn:Hd; [|discriminate].
    cbn [option_map] in Hc. pose proof (nth_error_Some_lt _ _ _ Hd) as Hk. rewrite ma_cumsum_len in Hk.
    destruct (nth_error_lt_Some one k Hk) as [e He].
    destruct (ma_cumsum_nth one 0%Q k e He) as (v & Hv & E). rewrite Hd in Hv. injection Hv as ->.
    assert (Hz : (v == 0)%Q).
    { rewrite E, sum_to_zero; [ring|]. intros m. destruct (nth_in_or_default m one (0%Q, true)) as [Hi|Hi].
      - apply In_nth_error in Hi as [q Hq]. unfold cell0. rewrite (Ho q _ Hq). reflexivity.
      - rewrite Hi. reflexivity. }
    injection Hc as <-. unfold assign, ma_scale. rewrite (Ho k e He). cbn [snd fst].
    match goal with |- context [if ?b then _ else _] => destruct b end; cbn [fst]; [reflexivity|exact Hz].
  Qed.

  (** Rate missing (or no rain): no amount anywhere. *)
  Lemma rain_amount_masked j y : r = None \/ is_rain = 0%Z -> nth_error (amount att) j = Some y -> y = None.
  Proof.
    intros Hr Hy. assert (Hs : snd sp = true).
    { unfold sp. destruct Hr as [->| ->]; [destruct (is_rain =? 0)%Z|]; reflexivity. }
    rewrite rain_amount_eq, nth_error_map' in Hy. destruct (nth_error _ j) as [x|] eqn:Hx; [|discriminate].
    cbn [option_map] in Hy. assert (Qeq_bool x 0 = true) as Ez.
    { destruct (fill_rec_cases Qeq_bool 0%Q (map fst tw) eq_refl j x Hx) as [(k & _ & Hk & _)|[H _]]; [|exact H].
      rewrite nth_error_map' in Hk. destruct (nth_error tw k) as [c|] eqn:Hc; [|discriminate].
      cbn [option_map] in Hk. injection Hk as <-. apply Qeq_bool_iff. apply (tw_masked_zero k c Hs Hc). }
    rewrite Ez in Hy. congruence.
  Qed.

  Lemma tw_value x k : r = Some x -> is_rain <> 0%Z -> (0 < specific x)%Q -> k < length h ->
    exists v, nth_error (map fst tw) k = Some v /\
      (nth_error freezing k = Some true -> (v == 0)%Q) /\
      (nth_error freezing k = Some false -> (0 < v)%Q /\ (v == 2 * (specific x * level h k) / 1000)%Q).
  Proof.
    intros Hr Hn Hs Hk. assert (Er : (is_rain =? 0)%Z = false) by (apply Z.eqb_neq; exact Hn).
    assert (Esp : sp = (specific x, false)) by (unfold sp; rewrite Hr, Er; reflexivity).
    destruct (nth_error_lt_Some freezing k ltac:(lia)) as [f Hf].
    destruct (two_way_cells h _ const_len k (specific x, false)) as (v & Hv & E).
    { rewrite nth_error_map', Hf. cbn [option_map]. rewrite Esp. reflexivity. }
    specialize (E eq_refl). cbn [snd] in Hv.
    assert (Ei : (integrate h (value0 (map to_masked (map (fun _ : bool => sp) freezing))) (S k) == specific x * level h k)%Q).
    { rewrite integrate_sum_to.
      rewrite (sum_to_ext _ (fun k => specific x * (level h k - below_gate h k))%Q).
      - assert (G : forall n a, (sum_to (fun k => specific x * (level h k - below_gate h k))%Q a n ==
            specific x * sum_to (fun k => level h k - below_gate h k)%Q a n)%Q).
        { induction n as [|n IH]; intros a; cbn [sum_to]; [ring|]. rewrite IH. ring. }
        rewrite G, sum_path. cbn [below_gate Nat.add]. ring.
      - intros m _ Hm. unfold value0. rewrite !nth_error_map'.
        destruct (nth_error_lt_Some freezing m ltac:(lia)) as [q ->]. cbn [option_map]. rewrite Esp. reflexivity. }
    rewrite Ei in E.
    assert (Et : nth_error tw k = Some (assign (negb (negb f && negb (is_rain =? 0)%Z)) (0%Q, false) (v, false))).
    { unfold tw. rewrite nth_error_map2, nth_error_map', Hf, Hv. reflexivity. }
    rewrite nth_error_map', Et. cbn [option_map]. rewrite Er. rewrite andb_true_r, negb_involutive.
    eexists. split; [reflexivity|]. rewrite Hf. split; intros H; injection H as ->; cbn [assign fst].
    - reflexivity.
    - split; [|exact E]. rewrite E. pose proof (level_pos h k Hh Hk) as P.
      pose proof (Qmult_lt_0_compat _ _ Hs P) as M. unfold Qdiv. change (/ 1000)%Q with (1 # 1000)%Q. lra.
  Qed.

  (** Rate available and attenuating: the amount is that of the last warm gate at or
      below the pixel, and is missing if there is none. *)
  Lemma rain_amount_value x j : r = Some x -> is_rain <> 0%Z -> (0 < specific x)%Q -> j < length h ->
    exists a, nth_error (amount att) j = Some a /\
    match a with
    | None => forall k, k <= j -> nth_error freezing k = Some true
    | Some y => exists k, k <= j /\ nth_error freezing k = Some false /\
        (forall m, k < m -> m <= j -> nth_error freezing m = Some true) /\
        (y == 2 * (specific x * level h k) / 1000)%Q
    end.
  Proof.
    intros Hr Hn Hs Hj. assert (Hlt : length tw = length h).
    { unfold tw. rewrite map2_length, map_length, two_way_length by apply const_len. lia. }
    rewrite rain_amount_eq, nth_error_map'.
    destruct (nth_error_lt_Some (fill_rec Qeq_bool 0%Q (hd 0%Q (map fst tw)) (map fst tw)) j) as [y Hy].
    { rewrite fill_rec_length, map_length. lia. }
    rewrite Hy. cbn [option_map]. eexists. split; [reflexivity|].
    assert (Hz : forall m, m < length h -> (forall z, nth_error (map fst tw) m = Some z -> Qeq_bool z 0 = true) ->
              nth_error freezing m = Some true).
    { intros m Hm H. destruct (tw_value x m Hr Hn Hs Hm) as (v & Hv & _ & V).
      destruct (nth_error_lt_Some freezing m ltac:(lia)) as [[] Hf]; [exact Hf|].
      destruct (V Hf) as [P _]. specialize (H v Hv). apply Qeq_bool_iff in H. lra. }
    destruct (fill_rec_cases Qeq_bool 0%Q (map fst tw) eq_refl j y Hy) as [(k & Hk & Hyk & Ey & Hm)|[Ey Hm]].
    - rewrite Ey. exists k. split; [exact Hk|].
      destruct (tw_value x k Hr Hn Hs ltac:(lia)) as (v & Hv & V1 & V2). rewrite Hyk in Hv. injection Hv as <-.
      destruct (nth_error_lt_Some freezing k ltac:(lia)) as [[] Hf].
      + specialize (V1 Hf). apply Qeq_bool_iff in V1. congruence.
      + split; [exact Hf|]. split; [|apply V2; exact Hf].
        intros m H1 H2. apply Hz; [lia|]. intros z E. apply (Hm m z); auto.
    - rewrite Ey. intros k Hk. apply Hz; [lia|]. intros z E. apply (Hm k z); auto.
  Qed.
End Rain.

(** ** The reflectivity *)
Lemma add_amount_nth z am j x : nth_error z j = Some (Some x) -> j < length am ->
  exists v, nth_error (add_amount z am) j = Some (Some v) /\ (v == x + value0 am j)%Q.
Proof.
  intros Hz Hj. unfold add_amount. rewrite nth_error_map2, Hz.
  destruct (nth_error_lt_Some am j Hj) as [a Ha]. rewrite Ha. unfold value0. rewrite Ha.
  destruct a as [y|]; [destruct (Qeq_bool y 0) eqn:E|].
  - apply Qeq_bool_iff in E. eexists. split; [reflexivity|]. rewrite E. ring.
  - eexists. split; [reflexivity|]. reflexivity.
  - eexists. split; [reflexivity|]. ring.
Qed.

Lemma correct_atten_nth z gas liquid rain melt j x y :
  nth_error z j = Some (Some x) -> nth_error (amount gas) j = Some (Some y) ->
  j < length (amount liquid) -> j < length (amount rain) -> j < length (amount melt) ->
  exists v, nth_error (correct_atten z gas liquid rain melt) j = Some (Some v) /\
    (v == x + y + value0 (amount liquid) j + value0 (amount rain) j + value0 (amount melt) j)%Q.
Proof.
  intros Hz Hg H1 H2 H3. unfold correct_atten.
  match goal with |- context [map2 ?f z (amount gas)] => set (z0 := map2 f z (amount gas)) end.
  assert (E0 : nth_error z0 j = Some (Some (x + y)%Q)) by (unfold z0; rewrite nth_error_map2, Hz, Hg; reflexivity).
  destruct (add_amount_nth z0 (amount liquid) j _ E0 H1) as (v1 & E1 & Q1).
  destruct (add_amount_nth _ (amount rain) j _ E1 H2) as (v2 & E2 & Q2).
  destruct (add_amount_nth _ (amount melt) j _ E2 H3) as (v3 & E3 & Q3).
  exists v3. split; [exact E3|]. rewrite Q3, Q2, Q1. reflexivity.
Qed.

Lemma correct_atten_mask z gas liquid rain melt j v :
  nth_error (correct_atten z gas liquid rain melt) j = Some (Some v) ->
  exists x y, nth_error z j = Some (Some x) /\ nth_error (amount gas) j = Some (Some y).
Proof.
  assert (A : forall z am v, nth_error (add_amount z am) j = Some (Some v) -> exists x, nth_error z j = Some (Some x)).
  { intros z' am w H. unfold add_amount in H. rewrite nth_error_map2 in H.
    destruct (nth_error z' j) as [a|]; [|discriminate]. destruct (nth_error am j) as [b|]; [|discriminate].
    destruct a as [x|]; [eauto|]. destruct b as [y|]; [destruct (Qeq_bool y 0)|]; discriminate. }
  unfold correct_atten. intros H. apply A in H as [x1 H]. apply A in H as [x2 H]. apply A in H as [x3 H].
  rewrite nth_error_map2 in H. destruct (nth_error z j) as [[x|]|]; try discriminate;
    destruct (nth_error (amount gas) j) as [[y|]|]; try discriminate. eauto.
Qed.

(* ------------------------------------------------------------------ *)
(** ** Cloud-top adjustment *)
Lemma nth_skipn {A} (l : list A) : forall a k, nth_error (skipn a l) k = nth_error l (a + k).
Proof. induction l as [|x l IH]; intros [|a] k; cbn; auto. destruct k; reflexivity. Qed.

Lemma nth_removelast {A} (l : list A) i : S i < length l -> nth_error (removelast l) i = nth_error l i.
Proof.
  revert i. induction l as [|x l IH]; intros i H; [cbn in H; lia|].
  destruct l as [|y l]; [cbn in H; lia|]. cbn [removelast]. destruct i as [|i]; [reflexivity|].
  cbn [nth_error]. apply IH. cbn [length] in *. lia.
Qed.

Lemma removelast_len {A} (l : list A) : length (removelast l) = length l - 1.
Proof.
  induction l as [|x l IH]; [reflexivity|]. destruct l as [|y l]; [reflexivity|].
  change (removelast (x :: y :: l)) with (x :: removelast (y :: l)). cbn [length] in *. rewrite IH. lia.
Qed.

Lemma edges_nth row i : S i < length row ->
  nth_error (map2 (fun a b => negb a && b) (removelast row) (skipn 1 row)) i = Some true <-> starts row (S i).
Proof.
  intros Hi. rewrite nth_error_map2, nth_removelast, nth_skipn by exact Hi.
  unfold starts. cbn [Nat.sub]. rewrite Nat.sub_0_r. cbn [Nat.add].
  destruct (nth_error_lt_Some row i ltac:(lia)) as [a ->]. destruct (nth_error_lt_Some row (S i) Hi) as [b ->].
  split.
  - intros H. injection H as H. apply andb_true_iff in H as [H1 H2]. subst b.
    apply negb_true_iff in H1. subst a. repeat split; auto; lia.
  - intros (_ & H1 & H2). injection H1 as ->. injection H2 as ->. reflexivity.
Qed.

Lemma edges_len row : length (map2 (fun a b => negb a && b) (removelast row) (skipn 1 row)) = length row - 1.
Proof. rewrite map2_length, removelast_len, skipn_length. lia. Qed.

Lemma topmost_spec row : 2 <= length row -> exists b, 1 <= b /\ b < length row /\
  find_topmost_clouds row = Ok (mapi_from (fun j x => assign (j <? b) false x) 0 row) /\
  (forall k, b < k -> ~ starts row k) /\ (starts row b \/ (S b = length row /\ forall k, ~ starts row k)).
Proof.
  intros Hn. unfold find_topmost_clouds.
  set (e := map2 (fun a b => negb a && b) (removelast row) (skipn 1 row)).
  assert (Le : length e = length row - 1) by apply edges_len.
  assert (Lr : length (rev e) = length row - 1) by (rewrite rev_length; exact Le).
  assert (St : forall k, starts row k -> nth_error e (k - 1) = Some true).
  { intros k Hk. pose proof Hk as (H1 & _ & H2). apply nth_error_Some_lt in H2.
    apply edges_nth; [lia|]. replace (S (k - 1)) with k by lia. exact Hk. }
  unfold argmax_bool. destruct (rev e) as [|x r] eqn:Er; [cbn in Lr; lia|]. rewrite <- Er in *. clear x r Er.
  cbn [bind]. pose proof (first_true_spec (rev e)) as F. destruct (first_true (rev e)) as [k|].
  - destruct F as [F1 F2]. pose proof (nth_error_Some_lt _ _ _ F1) as Hk. rewrite Lr in Hk.
    rewrite nth_error_rev in F1 by lia. exists (length row - 1 - k). split; [lia|]. split; [lia|].
    split; [reflexivity|]. split.
    + intros m Hm S. pose proof S as (_ & _ & Hml). apply nth_error_Some_lt in Hml.
      apply St in S. assert (H : nth_error (rev e) (length e - 1 - (m - 1)) = Some false) by (apply F2; lia).
      rewrite nth_error_rev in H by lia. replace (length e - 1 - (length e - 1 - (m - 1))) with (m - 1) in H by lia.
      congruence.
    + left. replace (length row - 1 - k) with (S (length e - 1 - k)) by lia. apply edges_nth; [lia|].
      exact F1.
  - exists (length row - 1). split; [lia|]. split; [lia|]. split; [rewrite Nat.sub_0_r; reflexivity|]. split.
    + intros m Hm (_ & _ & H). apply nth_error_Some_lt in H. lia.
    + right. split; [lia|]. intros m S. pose proof S as (_ & _ & Hml). apply nth_error_Some_lt in Hml.
      apply St in S. assert (H : nth_error (rev e) (length e - 1 - (m - 1)) = Some false) by (apply F; lia).
      rewrite nth_error_rev in H by lia. replace (length e - 1 - (length e - 1 - (m - 1))) with (m - 1) in H by lia.
      congruence.
Qed.

(** Detection types. *)
Lemma detection_count (l : list Z) : (forall d, In d l -> 0 <= d)%Z ->
  (Z.of_nat (length (filter (fun d => (0 <? d)%Z) l)) <= fold_right Z.add 0 l)%Z /\
  ((Z.of_nat (length (filter (fun d => (0 <? d)%Z) l)) = fold_right Z.add 0 l)%Z <-> (forall d, In d l -> d <= 1)%Z).
Proof.
  induction l as [|d l IH]; intros H.
  - cbn. split; [lia|]. split; [intros _ d []|reflexivity].
  - destruct (IH ltac:(intros; apply H; right; assumption)) as [I1 I2].
    pose proof (H d ltac:(left; reflexivity)) as Hd. cbn [filter fold_right].
    destruct (Z.ltb_spec 0 d) as [Hp|Hp]; cbn [length].
    + split; [lia|]. split.
      * intros E e [<-|He]; [lia|]. apply I2; [lia|exact He].
      * intros A. assert (d = 1)%Z by (pose proof (A d ltac:(left; reflexivity)); lia). subst d.
        assert (E : Z.of_nat (length (filter (fun d => (0 <? d)%Z) l)) = fold_right Z.add 0%Z l)
          by (apply I2; intros; apply A; right; assumption). lia.
    + split; [lia|]. split.
      * intros E e [<-|He]; [lia|]. apply I2; [lia|exact He].
      * intros A. assert (E : Z.of_nat (length (filter (fun d => (0 <? d)%Z) l)) = fold_right Z.add 0%Z l)
          by (apply I2; intros; apply A; right; assumption). lia.
Qed.

Lemma sum_pos (l : list Z) : (forall d, In d l -> 0 <= d)%Z ->
  (fold_right Z.add 0 l <> 0)%Z <-> exists d, In d l /\ (0 < d)%Z.
Proof.
  induction l as [|d l IH]; intros H; cbn [fold_right].
  - split; [congruence|]. intros (d & [] & _).
  - specialize (IH ltac:(intros; apply H; right; assumption)).
    pose proof (H d ltac:(left; reflexivity)) as Hd.
    assert (S : (0 <= fold_right Z.add 0 l)%Z).
    { assert (H' : (forall d, In d l -> 0 <= d)%Z) by (intros; apply H; right; assumption). clear -H'.
      induction l as [|e l IH]; cbn [fold_right]; [lia|].
      pose proof (H' e ltac:(left; reflexivity)). assert (0 <= fold_right Z.add 0 l)%Z by (apply IH; intros; apply H'; right; assumption). lia. }
    split.
    + intros E. destruct (Z.eq_dec d 0) as [->|].
      * destruct IH as [I _]. destruct (I ltac:(lia)) as (e & He & P). exists e. split; [right|]; assumption.
      * exists d. split; [left; reflexivity|lia].
    + intros (e & [<-|He] & P); [lia|]. destruct IH as [_ I].
      assert (fold_right Z.add 0 l <> 0)%Z by (apply I; eauto). lia.
Qed.

Lemma lidar_only_spec row radar lidar b : length radar = length row -> length lidar = length row ->
  find_lidar_only (map2 (fun (t : bool) d => assign (negb t) 0%Z d)
    (mapi_from (fun j x => assign (j <? b) false x) 0 row) (find_echo_combinations row radar lidar)) = true
  <-> lidar_only row radar lidar b.
Proof.
  intros Hr Hl. set (det := map2 _ _ _).
  assert (N : forall k t r li, nth_error row k = Some t -> nth_error radar k = Some r -> nth_error lidar k = Some li ->
     nth_error det k = Some (if (k <? b) then 0%Z else if t then (Z.b2z li + Z.b2z r * 2)%Z else 0%Z)).
  { intros k t r li H1 H2 H3. unfold det, find_echo_combinations.
    rewrite !nth_error_map2, nth_error_mapi_from, H1, nth_error_combine, H2, H3. cbn [option_map fst snd Nat.add].
    destruct (k <? b), t, r, li; reflexivity. }
  assert (Ld : length det = length row).
  { unfold det, find_echo_combinations. rewrite !map2_length, mapi_from_length, combine_length. lia. }
  assert (I : forall d, In d det -> exists k t r li, nth_error row k = Some t /\ nth_error radar k = Some r /\
     nth_error lidar k = Some li /\ d = if (k <? b) then 0%Z else if t then (Z.b2z li + Z.b2z r * 2)%Z else 0%Z).
  { intros d Hd. apply In_nth_error in Hd as [k Hk]. pose proof (nth_error_Some_lt _ _ _ Hk) as H. rewrite Ld in H.
    destruct (nth_error_lt_Some row k H) as [t H1]. destruct (nth_error_lt_Some radar k ltac:(lia)) as [r H2].
    destruct (nth_error_lt_Some lidar k ltac:(lia)) as [li H3].
    exists k, t, r, li. repeat split; auto. rewrite (N k t r li H1 H2 H3) in Hk. congruence. }
  assert (P : forall d, In d det -> (0 <= d)%Z).
  { intros d Hd. destruct (I d Hd) as (k & t & r & li & _ & _ & _ & ->).
    destruct (k <? b), t, r, li; cbn; lia. }
  unfold find_lidar_only. rewrite andb_true_iff, Z.eqb_eq, negb_true_iff, Z.eqb_neq.
  rewrite (proj2 (detection_count det P)), (sum_pos det P). split.
  - intros [A (d & Hd & Hp)]. split.
    + intros k Hk Ht. pose proof (nth_error_Some_lt _ _ _ Ht) as H.
      destruct (nth_error_lt_Some radar k ltac:(lia)) as [r H2]. destruct (nth_error_lt_Some lidar k ltac:(lia)) as [li H3].
      pose proof (N k true r li Ht H2 H3) as E. apply nth_error_In in E. apply A in E.
      destruct (Nat.ltb_spec k b); [lia|]. destruct r; [destruct li; cbn in E; lia|exact H2].
    + destruct (I d Hd) as (k & t & r & li & H1 & H2 & H3 & ->). exists k.
      destruct (Nat.ltb_spec k b); [lia|]. split; [assumption|]. destruct t; [|lia]. split; [exact H1|].
      destruct li; [exact H3|]. destruct r; [|cbn in Hp; lia]. apply A in Hd. cbn in Hd. lia.
  - intros [A (k & Hk & H1 & H3)]. split.
    + intros d Hd. destruct (I d Hd) as (m & t & r & li & G1 & G2 & G3 & ->).
      destruct (Nat.ltb_spec m b); [lia|]. destruct t; [|lia]. specialize (A m ltac:(lia) G1).
      assert (r = false) by congruence. subst r. destruct li; cbn; lia.
    + pose proof (nth_error_Some_lt _ _ _ H1) as H. destruct (nth_error_lt_Some radar k ltac:(lia)) as [r H2].
      pose proof (N k true r true H1 H2 H3) as E. apply nth_error_In in E. eexists. split; [exact E|].
      destruct (Nat.ltb_spec k b); [lia|]. destruct r; cbn; lia.
Qed.

(** The loop. *)
Definition ext_list (b lo t : nat) (base : Q) (lwc : list Q) : list Q :=
  mapi_from (fun k x => if (lo <=? k) && (k <=? t) then (base * inject_Z (Z.of_nat (k - b + 1)))%Q else x) 0 lwc.
Definition st_list (lo t : nat) (st : list Z) : list Z :=
  mapi_from (fun k s => if (lo <=? k) && (k <=? t) && (s =? 0)%Z then 3%Z else s) 0 st.

Lemma adjust_loop path l base b n fuel : forall d lwc status,
  length lwc = n -> length status = n -> b + d < n -> n - (b + d) <= fuel ->
  exists t, b + d <= t /\ t < n /\
    adjust_lwc fuel path l base b d lwc status = Some (Ok (ext_list b (b + d) t base lwc, st_list (b + d) t status)) /\
    (has_converged (ext_list b (b + d) t base lwc) path l = true \/ S t = n) /\
    (forall t', b + d <= t' -> t' < t -> has_converged (ext_list b (b + d) t' base lwc) path l = false).
Proof.
  induction fuel as [|f IH]; intros d lwc status H1 H2 H3 H4; [lia|].
  cbn [adjust_lwc]. unfold set_at. rewrite H1.
  replace (b + d <? n) with true by (symmetry; apply Nat.ltb_lt; exact H3). cbn iota.
  set (lwc' := mapi_from (fun k x => assign (k =? b + d) (base * inject_Z (Z.of_nat (d + 1)))%Q x) 0 lwc).
  assert (Hs : b + d < length status) by lia.
  destruct (nth_error_lt_Some status (b + d) Hs) as [s Es]. rewrite Es.
  set (st' := mapi_from (fun k x => assign ((k =? b + d) && (s =? 0)%Z) 3%Z x) 0 status).
  assert (El : forall t, ext_list b (b + d) t base lwc =
             if b + d <=? t then ext_list b (b + S d) t base lwc' else lwc).
  { intros t. apply nth_error_ext. intros k. unfold ext_list, lwc'.
    destruct (Nat.leb_spec (b + d) t) as [Hle|Hle].
    - rewrite !nth_error_mapi_from. destruct (nth_error lwc k) as [x|]; [|reflexivity]. cbn [option_map Nat.add].
      f_equal. destruct (Nat.eqb_spec k (b + d)) as [->|Hne]; cbn [assign].
      + replace (b + d <=? b + d) with true by (symmetry; apply Nat.leb_le; lia).
        replace (b + d <=? t) with true by (symmetry; apply Nat.leb_le; lia).
        replace (b + S d <=? b + d) with false by (symmetry; apply Nat.leb_gt; lia). cbn [andb].
        do 3 f_equal. lia.
      + destruct (Nat.leb_spec (b + d) k), (Nat.leb_spec (b + S d) k); try lia; reflexivity.
    - rewrite nth_error_mapi_from. destruct (nth_error lwc k) as [x|]; [|reflexivity]. cbn [option_map Nat.add].
      f_equal. destruct (Nat.leb_spec (b + d) k), (Nat.leb_spec k t); cbn [andb]; try reflexivity; lia. }
  assert (E0 : ext_list b (b + d) (b + d) base lwc = lwc').
  { rewrite El, Nat.leb_refl. apply nth_error_ext. intros k. unfold ext_list. rewrite nth_error_mapi_from.
    destruct (nth_error lwc' k) as [x|]; [|reflexivity]. cbn [option_map Nat.add].
    f_equal. destruct (Nat.leb_spec (b + S d) k), (Nat.leb_spec k (b + d)); cbn [andb]; try reflexivity; lia. }
  assert (Sl : forall t, b + d <= t -> st_list (b + d) t status = st_list (b + S d) t st').
  { intros t Ht. apply nth_error_ext. intros k. unfold st_list, st'. rewrite !nth_error_mapi_from.
    destruct (nth_error status k) as [x|] eqn:Ex; [|reflexivity]. cbn [option_map Nat.add]. f_equal.
    destruct (Nat.eqb_spec k (b + d)) as [->|Hne]; cbn [andb].
    - assert (x = s) by congruence. subst x.
      replace (b + d <=? b + d) with true by (symmetry; apply Nat.leb_le; lia).
      replace (b + d <=? t) with true by (symmetry; apply Nat.leb_le; lia).
      replace (b + S d <=? b + d) with false by (symmetry; apply Nat.leb_gt; lia). cbn [andb].
      destruct (s =? 0)%Z; reflexivity.
    - cbn [assign]. destruct (Nat.leb_spec (b + d) k), (Nat.leb_spec (b + S d) k); try lia; reflexivity. }
  assert (S0 : st_list (b + d) (b + d) status = st').
  { rewrite Sl by lia. apply nth_error_ext. intros k. unfold st_list. rewrite nth_error_mapi_from.
    destruct (nth_error st' k) as [x|]; [|reflexivity]. cbn [option_map Nat.add].
    f_equal. destruct (Nat.leb_spec (b + S d) k), (Nat.leb_spec k (b + d)); cbn [andb]; try reflexivity; lia. }
  assert (Ll : length lwc' = n) by (unfold lwc'; rewrite mapi_from_length; exact H1).
  assert (Ls : length st' = n) by (unfold st'; rewrite mapi_from_length; exact H2).
  destruct (has_converged lwc' path l) eqn:Ec; [|destruct (Nat.leb_spec (length lwc' - 1) (b + d)) as [Hb|Hb]]; cbn [orb].
  - exists (b + d). split; [lia|]. split; [lia|]. rewrite E0, S0. split; [reflexivity|]. split; [left; exact Ec|]. intros; lia.
  - exists (b + d). split; [lia|]. split; [lia|]. rewrite E0, S0. split; [reflexivity|]. split; [right; lia|]. intros; lia.
  - destruct (IH (S d) lwc' st' Ll Ls ltac:(lia) ltac:(lia)) as (t & T1 & T2 & T3 & T4 & T5).
    exists t. split; [lia|]. split; [lia|].
    assert (Et : ext_list b (b + d) t base lwc = ext_list b (b + S d) t base lwc').
    { rewrite El. replace (b + d <=? t) with true by (symmetry; apply Nat.leb_le; lia). reflexivity. }
    rewrite Et, Sl by lia. split; [exact T3|]. split; [exact T4|].
    intros t' G1 G2. destruct (Nat.eq_dec t' (b + d)) as [->|]; [rewrite E0; exact Ec|].
    rewrite El. replace (b + d <=? t') with true by (symmetry; apply Nat.leb_le; lia). apply T5; lia.
Qed.

(* ------------------------------------------------------------------ *)
(** ** Status of one profile *)
Lemma where1_first l k r : where1 l = k :: r ->
  nth_error l k = Some true /\ forall k', k' < k -> nth_error l k' <> Some true.
Proof.
  intros H. assert (Hk : In k (where1 l)) by (rewrite H; left; reflexivity).
  apply where1_in in Hk. split; [exact Hk|]. intros k' Hlt Hk'. apply where1_in in Hk'.
  pose proof (where1_sorted l) as HS. rewrite H in Hk', HS. destruct Hk' as [->|Hin]; [lia|].
  inversion HS as [|? ? _ HF]; subst. rewrite Forall_forall in HF. specialize (HF k' Hin). lia.
Qed.

Lemma no_start_all_true row b : (forall k, ~ starts row k) -> nth_error row b = Some true ->
  forall k, k <= b -> nth_error row k = Some true.
Proof.
  intros Hs. induction b as [|b IH]; intros Hb k Hk; [replace k with 0 by lia; exact Hb|].
  destruct (Nat.eq_dec k (S b)) as [->|]; [exact Hb|]. apply IH; [|lia].
  pose proof (nth_error_Some_lt _ _ _ Hb) as Hl. destruct (nth_error_lt_Some row b ltac:(lia)) as [[] E]; [exact E|].
  exfalso. apply (Hs (S b)). unfold starts. cbn [Nat.sub]. rewrite Nat.sub_0_r. split; [lia|]. split; assumption.
Qed.

Lemma topmost_base_unique row b b' : topmost_base row b -> topmost_base row b' -> b = b'.
Proof.
  intros [[S1 N1]|(E1 & L1 & A1)] [[S2 N2]|(E2 & L2 & A2)].
  - destruct (Nat.lt_trichotomy b b') as [H|[H|H]]; [|exact H|]; exfalso; [apply (N1 b' H S2)|apply (N2 b H S1)].
  - destruct S1 as (H1 & H2 & H3). apply nth_error_Some_lt in H3. rewrite A2 in H2 by lia. discriminate.
  - destruct S2 as (H1 & H2 & H3). apply nth_error_Some_lt in H3. rewrite A1 in H2 by lia. discriminate.
  - lia.
Qed.

Lemma integrate_upto_ext h f g n : (forall k, k < n -> (f k == g k)%Q) -> (integrate h f n == integrate h g n)%Q.
Proof. apply integrate_ext. Qed.

Section Status.
  Variables (row : list bool) (g h : list Q) (radar lidar : list bool) (lwp : masked Q) (is_rain : bool).
  Variable adiabatic : nat -> Q.
  Hypothesis Hlg : length g = length row.
  Hypothesis Hlh : length h = length row.
  Hypothesis Hlr : length radar = length row.
  Hypothesis Hll : length lidar = length row.
  Hypothesis Hh : heights_ok h.
  Hypothesis Hg : Forall (fun x => 0 < x)%Q g.
  Hypothesis Hn : 2 <= length row.
  Hypothesis Ha : is_adiabatic row g h adiabatic.
  Let dz := filled_row None row g.
  Let adi := calc_adiabatic_lwc dz h.
  Let path := path_lengths_from_ground h.
  Let out := lwc_status_profile dz h row radar lidar lwp is_rain.

  Lemma adi_length : length adi = length row.
  Proof. apply (adi_len row g h Hlg Hlh). Qed.

  Lemma adiabatic_eq k : k < length row -> (nth k adi 0 == adiabatic k)%Q.
  Proof.
    intros Hk. destruct (nth_error_lt_Some adi k) as [y Hy]; [rewrite adi_length; exact Hk|].
    rewrite (nth_error_nth _ _ _ Hy). destruct Ha as [A1 A2].
    destruct (nth_error_lt_Some row k Hk) as [[] E].
    - destruct (runs_cover row k E) as (b & t & Hr & Hb & Ht). apply runs_max_run in Hr.
      pose proof Hr as (Hbt & Hin & Hs & _).
      destruct (nth_error_lt_Some g b ltac:(lia)) as [gb Hgb].
      rewrite (A2 b t k gb Hr Hb Ht Hgb).
      apply (adi_cloud row g h Hlg Hlh Hh Hg b k y gb Hb ltac:(intros; apply Hin; lia) Hs Hgb Hy).
    - rewrite (A1 k E). apply (adi_clear row g h Hlg Hlh Hg k y E Hy).
  Qed.

  Lemma total_lwc l : length l = length row -> (total (map2 Qmult l path) == integrate h (fun k => nth k l 0%Q) (length row))%Q.
  Proof. intros H. rewrite <- Hlh. apply total_integrate. lia. Qed.

  Lemma total_adi : (total (map2 Qmult adi path) == integrate h adiabatic (length row))%Q.
  Proof. rewrite total_lwc by apply adi_length. apply integrate_ext, adiabatic_eq. Qed.

  Lemma qlt_iff a b : qlt a b = true <-> (a < b)%Q.
  Proof.
    unfold qlt. destruct (Qle_bool b a) eqn:E; cbn [negb]; split; intros H; try discriminate; try reflexivity.
    - apply Qle_bool_iff in E. lra.
    - apply Qnot_le_lt. intros C. apply Qle_bool_iff in C. congruence.
  Qed.

  Lemma dubious_spec : is_dubious adi path (clip_lwp lwp) is_rain = true <->
    is_rain = false /\ exists l, lwp = Some l /\ (integrate h adiabatic (length row) < Qmax 0 l)%Q.
  Proof.
    unfold is_dubious. destruct lwp as [l|].
    - destruct (clip_eq l) as (v & -> & Hm & _). rewrite andb_true_iff, qlt_iff, negb_true_iff, total_adi, Hm.
      split.
      + intros [H1 H2]. split; [exact H2|]. exists l. split; [reflexivity|lra].
      + intros [H1 (l' & E & H2)]. injection E as <-. split; [lra|exact H1].
    - cbn [clip_lwp]. split; [discriminate|]. intros [_ (l & E & _)]. discriminate.
  Qed.

  (** The pixel mask of the cloud to be adjusted. *)
  Lemma adjustable_spec : exists m,
    find_adjustable_clouds row radar lidar adi path (clip_lwp lwp) is_rain = Ok m /\
    ((where1 m = [] /\ forall b, ~ adjusted row radar lidar h adiabatic lwp is_rain b) \/
     (exists b r, where1 m = b :: r /\ b < length row /\ adjusted row radar lidar h adiabatic lwp is_rain b)).
  Proof.
    unfold find_adjustable_clouds. destruct (topmost_spec row Hn) as (b & Hb1 & Hb2 & -> & Hno & Hst).
    cbn [bind]. set (top := mapi_from (fun j x => assign (j <? b) false x) 0 row).
    match goal with |- context [find_lidar_only ?d] => set (det := d) end.
    eexists. split; [reflexivity|].
    pose proof (lidar_only_spec row radar lidar b Hlr Hll) as HL. fold top in HL. fold det in HL.
    pose proof dubious_spec as HD.
    set (lo := find_lidar_only det) in *. set (du := is_dubious adi path (clip_lwp lwp) is_rain) in *.
    assert (E : forall k, nth_error (map (fun b => assign (negb du) false b) (map (fun b => assign (negb lo) false b) top)) k =
              option_map (fun x => lo && du && negb (k <? b) && x) (nth_error row k)).
    { intros k. rewrite !nth_error_map'. unfold top. rewrite nth_error_mapi_from.
      destruct (nth_error row k) as [x|]; [|reflexivity]. cbn [option_map Nat.add]. f_equal.
      destruct lo, du, (k <? b), x; reflexivity. }
    match goal with |- context [where1 ?m] => set (msk := m) in * end.
    assert (Tb : nth_error row b = Some true -> topmost_base row b).
    { intros Hr. destruct Hst as [Hs|[Hs Hs2]]; [left; auto|]. right. split; [exact Hs|]. split; [exact Hn|].
      apply no_start_all_true; auto. }
    destruct (where1 msk) as [|k r] eqn:Ew.
    - left. split; [reflexivity|]. intros b' (T & L & D).
      assert (Hbt : nth_error row b = Some true).
      { destruct Hst as [(_ & _ & ?)|[Hs1 Hs2]]; [assumption|]. destruct T as [[T _]|(T1 & _ & T2)].
        - exfalso. apply (Hs2 b' T).
        - replace b with b' by lia. apply T2; lia. }
      pose proof (topmost_base_unique row b b' (Tb Hbt) T). subst b'.
      assert (lo = true) by (apply HL; exact L). assert (du = true) by (apply HD; exact D).
      assert (X : nth_error msk b = Some true).
      { rewrite E, Hbt, H, H0, Nat.ltb_irrefl. reflexivity. }
      apply where1_in in X. rewrite Ew in X. destruct X.
    - right. apply where1_first in Ew as [Ek Eb]. rewrite E in Ek.
      destruct (nth_error row k) as [x|] eqn:Er; [|discriminate]. cbn [option_map] in Ek.
      assert (Ex : lo && du && negb (k <? b) && x = true) by congruence.
      apply andb_true_iff in Ex as [Ex ->]. apply andb_true_iff in Ex as [Ex Ekb].
      apply andb_true_iff in Ex as [Elo Edu]. apply negb_true_iff, Nat.ltb_ge in Ekb.
      assert (Hbt : nth_error row b = Some true).
      { destruct Hst as [(_ & _ & ?)|[Hs1 Hs2]]; [assumption|]. apply nth_error_Some_lt in Er as Hk.
        replace b with k by lia. exact Er. }
      assert (k = b).
      { destruct (Nat.eq_dec k b) as [|Hne]; [assumption|]. exfalso. apply (Eb b); [lia|].
        rewrite E, Hbt, Elo, Edu, Nat.ltb_irrefl. reflexivity. }
      subst k. exists b, r. split; [reflexivity|]. split; [exact Hb2|]. split; [apply Tb, Hbt|].
      split; [apply HL; exact Elo|]. apply HD. exact Edu.
  Qed.

  Lemma clip_masked : is_masked (clip_lwp lwp) = is_masked lwp.
  Proof. destruct lwp; reflexivity. Qed.

  Lemma status_plain : (forall b, ~ adjusted row radar lidar h adiabatic lwp is_rain b) ->
    out = Some (Ok (map (fun b : bool => if is_rain || is_masked lwp then 4%Z else if b then 1%Z else 0%Z) row)).
  Proof.
    intros N. unfold out, lwc_status_profile. fold adi. fold path.
    destruct adjustable_spec as (m & -> & [[Ew _]|(b & r & _ & _ & A)]); [|exfalso; apply (N b A)].
    rewrite Ew. do 2 f_equal. rewrite !map_map. apply map_ext. intros b. rewrite clip_masked.
    destruct is_rain, (is_masked lwp), b; reflexivity.
  Qed.

  Lemma status_last b : adjusted row radar lidar h adiabatic lwp is_rain b -> S b = length row ->
    out = Some (Raise IndexError).
  Proof.
    intros A Hb. unfold out, lwc_status_profile. fold adi. fold path.
    destruct adjustable_spec as (m & -> & [[_ N]|(b' & r & Ew & Hb' & A')]); [exfalso; apply (N b A)|].
    assert (b' = b) by (eapply topmost_base_unique; [apply A'|apply A]). subst b'. rewrite Ew.
    destruct A as (_ & _ & _ & l & El & _). rewrite El. destruct (clip_eq l) as (v & -> & _).
    destruct (nth_error_lt_Some adi b) as [base Hbase]; [rewrite adi_length; lia|]. rewrite Hbase.
    assert (Ef : b + 1 <? length adi = false) by (apply Nat.ltb_ge; rewrite adi_length; lia).
    assert (El2 : exists n, length row = S n) by (exists b; auto). destruct El2 as [n ->].
    cbn [adjust_lwc]. unfold set_at. rewrite Ef. reflexivity.
  Qed.

  Lemma ext_total b t base v : b < length row -> nth_error adi b = Some base ->
    has_converged (ext_list b (b + 1) t base adi) path v = true <->
    (v < integrate h (extended adiabatic b t) (length row))%Q.
  Proof.
    intros Hb Hbase. unfold has_converged. rewrite qlt_iff.
    assert (E : (total (map2 Qmult (ext_list b (b + 1) t base adi) path) ==
                 integrate h (extended adiabatic b t) (length row))%Q).
    { rewrite total_lwc by (unfold ext_list; rewrite mapi_from_length; apply adi_length).
      apply integrate_ext. intros k Hk.
      destruct (nth_error_lt_Some adi k) as [y Hy]; [rewrite adi_length; exact Hk|].
      assert (En : nth_error (ext_list b (b + 1) t base adi) k =
        Some (if (b + 1 <=? k) && (k <=? t) then (base * inject_Z (Z.of_nat (k - b + 1)))%Q else y)).
      { unfold ext_list. rewrite nth_error_mapi_from, Hy. reflexivity. }
      rewrite (nth_error_nth _ _ _ En). unfold extended.
      replace (b + 1 <=? k) with (b <? k)
        by (destruct (Nat.ltb_spec b k), (Nat.leb_spec (b + 1) k); try reflexivity; lia).
      pose proof (adiabatic_eq b Hb) as E1. rewrite (nth_error_nth _ _ _ Hbase) in E1.
      pose proof (adiabatic_eq k Hk) as E2. rewrite (nth_error_nth _ _ _ Hy) in E2.
      destruct ((b <? k) && (k <=? t)); [rewrite E1|rewrite E2]; reflexivity. }
    rewrite E. reflexivity.
  Qed.

  Lemma status_adjusted b l : adjusted row radar lidar h adiabatic lwp is_rain b -> lwp = Some l ->
    S b < length row ->
    exists t st, out = Some (Ok st) /\ b < t /\ t < length row /\ length st = length row /\
      (forall j x s, nth_error row j = Some x -> nth_error st j = Some s ->
         s = if x then 2%Z else if (b <? j) && (j <=? t) then 3%Z else 0%Z) /\
      ((Qmax 0 l < integrate h (extended adiabatic b t) (length row))%Q \/ S t = length row) /\
      (forall t', b < t' -> t' < t -> (integrate h (extended adiabatic b t') (length row) <= Qmax 0 l)%Q).
  Proof.
    intros A Hl Hb. unfold out, lwc_status_profile. fold adi. fold path.
    destruct adjustable_spec as (m & -> & [[_ N]|(b' & r & Ew & Hb' & A')]); [exfalso; apply (N b A)|].
    assert (b' = b) by (eapply topmost_base_unique; [apply A'|apply A]). subst b'. rewrite Ew.
    destruct A as (_ & _ & Hr & l' & El & _). rewrite Hr in *. rewrite Hl. destruct (clip_eq l) as (v & -> & Hm & _).
    destruct (nth_error_lt_Some adi b) as [base Hbase]; [rewrite adi_length; lia|]. rewrite Hbase.
    match goal with |- context [adjust_lwc _ _ _ _ _ _ _ ?s] => set (st0 := s) end.
    assert (L0 : length st0 = length row) by (unfold st0; rewrite map2_length, map_length; lia).
    destruct (adjust_loop path v base b (length row) (length row) 1 adi st0 adi_length L0 ltac:(lia) ltac:(lia))
      as (t & T1 & T2 & -> & T4 & T5).
    exists t. cbn [option_map bind snd is_masked assign]. eexists. split; [reflexivity|]. split; [lia|]. split; [exact T2|].
    split; [rewrite !map_length; unfold st_list; rewrite mapi_from_length; exact L0|]. split; [|split].
    - intros j x s Hx Hs. rewrite !nth_error_map' in Hs. unfold st_list in Hs. rewrite nth_error_mapi_from in Hs.
      assert (E0 : nth_error st0 j = Some (if x then 2%Z else 0%Z)).
      { unfold st0. rewrite nth_error_map2, nth_error_map', Hx. destruct x; reflexivity. }
      rewrite E0 in Hs. cbn [option_map Nat.add] in Hs.
      replace (b + 1 <=? j) with (b <? j) in Hs
        by (destruct (Nat.ltb_spec b j), (Nat.leb_spec (b + 1) j); try reflexivity; lia).
      injection Hs as <-. destruct x.
      + change (2 =? 0)%Z with false. rewrite andb_false_r. reflexivity.
      + change (0 =? 0)%Z with true. rewrite andb_true_r. reflexivity.
    - destruct T4 as [T4|T4]; [left|right; exact T4]. rewrite <- Hm. apply (ext_total b t base v Hb' Hbase), T4.
    - intros t' G1 G2. rewrite <- Hm. apply Qnot_lt_le. intros C.
      apply (ext_total b t' base v Hb' Hbase) in C. rewrite T5 in C by lia. discriminate.
  Qed.

  Lemma status_total : out <> None.
  Proof.
    destruct adjustable_spec as (m & _ & [[_ N]|(b & _ & _ & Hb & A)]).
    - rewrite (status_plain N). discriminate.
    - destruct (Nat.eq_dec (S b) (length row)) as [E|E].
      + rewrite (status_last b A E). discriminate.
      + pose proof A as (_ & _ & _ & l & El & _).
        destruct (status_adjusted b l A El ltac:(lia)) as (t & st & -> & _). discriminate.
  Qed.
End Status.
