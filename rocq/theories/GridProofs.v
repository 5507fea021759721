(** Lemmas about the grid model. *)
From Verif Require Import Base ArrayModel ArrayProofs FillModel FillProofs TimeModel TimeSpec TimeProofs GridModel GridSpec.
From Coq Require Import Lqa Qabs String.
Open Scope nat_scope.

Lemma qlt_iff a b : qlt a b = true <-> (a < b)%Q.
Proof. unfold qlt. exact (qgt_iff b a). Qed.
Lemma qlt_false a b : qlt a b = false <-> (b <= a)%Q.
Proof. unfold qlt. exact (qgt_false b a). Qed.
Lemma qle_iff a b : Qle_bool a b = true <-> (a <= b)%Q.
Proof. apply Qle_bool_iff. Qed.
Lemma qle_false a b : Qle_bool a b = false <-> (b < a)%Q.
Proof.
  split; intros H.
  - apply Qnot_le_lt. intros Hc. apply Qle_bool_iff in Hc. congruence.
  - destruct (Qle_bool a b) eqn:E; [|reflexivity]. apply Qle_bool_iff in E. lra.
Qed.

Lemma ss_left_le l x : searchsorted_left l x <= List.length l.
Proof. induction l as [|g l IH]; simpl; [lia|]. destruct (qlt g x); simpl; lia. Qed.
Lemma ss_right_le l x : searchsorted_right l x <= List.length l.
Proof. induction l as [|g l IH]; simpl; [lia|]. destruct (Qle_bool g x); simpl; lia. Qed.

Lemma ss_left_before l x : forall i g, i < searchsorted_left l x -> nth_error l i = Some g -> (g < x)%Q.
Proof.
  induction l as [|h l IH]; simpl; intros i g Hi Hg; [lia|]. destruct (qlt h x) eqn:E; [|lia].
  destruct i as [|i]; simpl in Hg; [|apply (IH i); [lia|assumption]]. injection Hg as <-. apply qlt_iff. exact E.
Qed.
Lemma ss_left_after l x : ascending l -> forall i g, searchsorted_left l x <= i -> nth_error l i = Some g -> (x <= g)%Q.
Proof.
  induction 1 as [|h l Hl IH Hf]; simpl; intros i g Hi Hg; [destruct i; discriminate|].
  destruct (qlt h x) eqn:E.
  - destruct i as [|i]; [lia|]. apply (IH i); [lia|exact Hg].
  - apply qlt_false in E. destruct i as [|i]; simpl in Hg; [injection Hg as <-; exact E|].
    rewrite Forall_forall in Hf. apply nth_error_In in Hg. specialize (Hf g Hg). lra.
Qed.
Lemma ss_right_before l x : forall i g, i < searchsorted_right l x -> nth_error l i = Some g -> (g <= x)%Q.
Proof.
  induction l as [|h l IH]; simpl; intros i g Hi Hg; [lia|]. destruct (Qle_bool h x) eqn:E; [|lia].
  destruct i as [|i]; simpl in Hg; [|apply (IH i); [lia|assumption]]. injection Hg as <-. apply qle_iff. exact E.
Qed.
Lemma ss_right_after l x : ascending l -> forall i g, searchsorted_right l x <= i -> nth_error l i = Some g -> (x < g)%Q.
Proof.
  induction 1 as [|h l Hl IH Hf]; simpl; intros i g Hi Hg; [destruct i; discriminate|].
  destruct (Qle_bool h x) eqn:E.
  - destruct i as [|i]; [lia|]. apply (IH i); [lia|exact Hg].
  - apply qle_false in E. destruct i as [|i]; simpl in Hg; [injection Hg as <-; exact E|].
    rewrite Forall_forall in Hf. apply nth_error_In in Hg. specialize (Hf g Hg). lra.
Qed.

Lemma ascending_nth l : ascending l -> forall i j a b, i <= j -> nth_error l i = Some a -> nth_error l j = Some b -> (a <= b)%Q.
Proof.
  induction 1 as [|h l Hl IH Hf]; intros i j a b Hij Ha Hb; [destruct i; discriminate|].
  destruct i as [|i], j as [|j]; simpl in *; [|  |lia|].
  - injection Ha as <-. injection Hb as <-. lra.
  - injection Ha as <-. rewrite Forall_forall in Hf. apply Hf. eapply nth_error_In. exact Hb.
  - apply (IH i j); [lia|assumption|assumption].
Qed.

Lemma strictly_ascending l : strictly_increasing l -> ascending l.
Proof. induction 1; constructor; [assumption|]. eapply Forall_impl; [|eassumption]. simpl. intros; lra. Qed.

(** where1 *)
Lemma where_from_in l : forall j k, In k (where_from j l) <-> j <= k /\ nth_error l (k - j) = Some true.
Proof.
  induction l as [|b l IH]; intros j k; simpl.
  - split; [tauto|]. intros [_ H]. destruct (k - j); discriminate.
  - rewrite in_app_iff, IH. destruct (Nat.eq_dec k j) as [->|Hne].
    + rewrite Nat.sub_diag. simpl. destruct b; simpl; split; intros H.
      * split; [lia|reflexivity].
      * left. left. reflexivity.
      * destruct H as [[]|[H _]]; lia.
      * destruct H as [_ H]; discriminate.
    + split.
      * intros [H|[H1 H2]]; [destruct b; simpl in H; [destruct H as [H|[]]; lia|destruct H]|].
        split; [lia|]. replace (k - j) with (S (k - S j)) by lia. exact H2.
      * intros [H1 H2]. right. split; [lia|]. replace (k - j) with (S (k - S j)) in H2 by lia. exact H2.
Qed.
Lemma where1_in l k : In k (where1 l) <-> nth_error l k = Some true.
Proof. unfold where1. rewrite where_from_in, Nat.sub_0_r. split; [tauto|]. intros H; split; [lia|exact H]. Qed.
Lemma where1_sorted l : StronglySorted lt (where1 l).
Proof.
  unfold where1. generalize 0. induction l as [|b l IH]; intros j; simpl; [constructor|].
  destruct b; simpl; [|apply IH]. constructor; [apply IH|]. apply Forall_forall. intros k Hk.
  apply where_from_in in Hk as [Hk _]. lia.
Qed.

(** ** linspace *)
Lemma linspace_length a b n : List.length (linspace a b n) = S n.
Proof. unfold linspace. rewrite map_length, seq_length. reflexivity. Qed.
Lemma linspace_nth a b n i : i <= n ->
  nth_error (linspace a b n) i = Some (a + nat_q i * ((b - a) / nat_q n))%Q.
Proof.
  intros H. unfold linspace. rewrite nth_error_map'.
  rewrite (nth_error_nth' (seq 0 (S n)) 0) by (rewrite seq_length; lia). rewrite seq_nth by lia. reflexivity.
Qed.
Lemma nat_q_pos n : 0 < n -> (0 < nat_q n)%Q.
Proof. intros H. unfold nat_q. change 0%Q with (inject_Z 0). rewrite <- Zlt_Qlt. lia. Qed.
Lemma nat_q_le a b : a <= b -> (nat_q a <= nat_q b)%Q.
Proof. intros H. unfold nat_q. rewrite <- Zle_Qle. lia. Qed.
Lemma nat_q_S n : (nat_q (S n) == nat_q n + 1)%Q.
Proof. unfold nat_q. rewrite Nat2Z.inj_succ, <- Z.add_1_r, inject_Z_plus. reflexivity. Qed.
Lemma nat_q_nonneg n : (0 <= nat_q n)%Q.
Proof. change 0%Q with (nat_q 0). apply nat_q_le. lia. Qed.

Lemma linspace_ascending a b n : 0 < n -> (a <= b)%Q -> ascending (linspace a b n).
Proof.
  intros Hn Hab. set (w := ((b - a) / nat_q n)%Q).
  assert (Hw : (0 <= w)%Q).
  { unfold w. apply Qle_shift_div_l; [apply nat_q_pos; exact Hn|]. lra. }
  unfold linspace, ascending. generalize (S n). intros m.
  assert (Hs := seq_sorted m 0). induction Hs as [|k l Hl IH Hf]; simpl; constructor; [exact IH|].
  apply Forall_forall. intros x Hx. apply in_map_iff in Hx as (k' & <- & Hk'). rewrite Forall_forall in Hf.
  specialize (Hf k' Hk'). change (inject_Z (Z.of_nat n)) with (nat_q n). fold w.
  change (inject_Z (Z.of_nat k)) with (nat_q k). change (inject_Z (Z.of_nat k')) with (nat_q k').
  assert (H : (nat_q k * w <= nat_q k' * w)%Q) by (apply Qmult_le_compat_r; [apply nat_q_le; lia|exact Hw]). lra.
Qed.

Lemma binvec_ok x : 2 <= List.length x -> exists lo hi, outer_edges x lo hi /\ binvec x = Ok (linspace lo hi (List.length x)).
Proof.
  intros H. unfold binvec, outer_edges.
  destruct (nth_error_lt_Some x 0) as [x0 E0]; [lia|]. destruct (nth_error_lt_Some x 1) as [x1 E1]; [lia|].
  destruct (nth_error_lt_Some x (List.length x - 1)) as [xl El]; [lia|].
  destruct (nth_error_lt_Some x (List.length x - 2)) as [xp Ep]; [lia|].
  rewrite E0, E1, El, Ep. do 2 eexists. split; [|reflexivity]. exists x0, x1, xp, xl.
  repeat (split; [assumption||reflexivity|]). reflexivity.
Qed.
Lemma binvec_short x : List.length x < 2 -> binvec x = Raise IndexError.
Proof. intros H. unfold binvec. destruct x as [|a [|b x]]; simpl in *; [reflexivity|reflexivity|lia]. Qed.

(** Bin number of a value between the edges. *)
Lemma digitize_bin lo hi n k x : 0 < n -> (lo < hi)%Q -> k < n ->
  (searchsorted_right (linspace lo hi n) x = S k <-> in_bin lo hi n k x).
Proof.
  intros Hn Hlt Hk. assert (Ha : ascending (linspace lo hi n)) by (apply linspace_ascending; [exact Hn|lra]).
  set (s := searchsorted_right (linspace lo hi n) x). unfold in_bin.
  split.
  - intros E. split.
    + apply (ss_right_before (linspace lo hi n) x k); [fold s; lia|]. apply linspace_nth. lia.
    + rewrite <- nat_q_S. apply (ss_right_after _ x Ha (S k)); [fold s; lia|]. apply linspace_nth. lia.
  - intros [H1 H2]. rewrite <- nat_q_S in H2.
    destruct (lt_eq_lt_dec s (S k)) as [[Hs|Hs]|Hs]; [|exact Hs|].
    + exfalso. assert (Hx : (x < lo + nat_q k * ((hi - lo) / nat_q n))%Q).
      { apply (ss_right_after _ x Ha k); [fold s; lia|]. apply linspace_nth. lia. } lra.
    + exfalso. assert (Hx : (lo + nat_q (S k) * ((hi - lo) / nat_q n) <= x)%Q).
      { apply (ss_right_before (linspace lo hi n) x (S k)); [fold s; lia|]. apply linspace_nth. lia. } lra.
Qed.

Lemma outer_edges_unique x lo hi lo' hi' : outer_edges x lo hi -> outer_edges x lo' hi' -> (lo == lo' /\ hi == hi')%Q.
Proof.
  intros (a & b & c & d & A & B & C & D & E & F) (a' & b' & c' & d' & A' & B' & C' & D' & E' & F').
  rewrite A in A'; rewrite B in B'; rewrite C in C'; rewrite D in D'.
  injection A' as <-; injection B' as <-; injection C' as <-; injection D' as <-.
  split; lra.
Qed.
Lemma in_bin_compat lo hi lo' hi' n k x : (lo == lo')%Q -> (hi == hi')%Q -> (in_bin lo hi n k x <-> in_bin lo' hi' n k x).
Proof. intros H1 H2. unfold in_bin. rewrite H1, H2. reflexivity. Qed.

Lemma in_bin_unique lo hi n k k' x : 0 < n -> (lo < hi)%Q -> in_bin lo hi n k x -> in_bin lo hi n k' x -> k = k'.
Proof.
  intros Hn Hlt [A B] [C D]. set (w := ((hi - lo) / nat_q n)%Q) in *.
  assert (Hw : (0 < w)%Q).
  { unfold w. apply Qlt_shift_div_l; [apply nat_q_pos; exact Hn|]. lra. }
  assert (H : forall a b, a < b -> ((nat_q a + 1) * w <= nat_q b * w)%Q).
  { intros a b Hab. apply Qmult_le_compat_r; [|lra]. rewrite <- nat_q_S. apply nat_q_le. lia. }
  destruct (lt_eq_lt_dec k k') as [[Hc|Hc]|Hc]; [|exact Hc|]; exfalso; specialize (H _ _ Hc); lra.
Qed.

Lemma where_from_map {A} (f : A -> bool) l : forall j, List.length (where_from j (map f l)) = List.length (filter f l).
Proof. induction l as [|a l IH]; intros j; simpl; [reflexivity|]. destruct (f a); simpl; rewrite IH; reflexivity. Qed.
Lemma count_occ_filter l k : (0 <= k)%Z ->
  count_occ Z.eq_dec (filter (fun b => (0 <=? b)%Z) l) k = List.length (filter (Z.eqb k) l).
Proof.
  intros Hk. induction l as [|a l IH]; simpl; [reflexivity|].
  destruct (Z.leb_spec 0 a) as [Ha|Ha]; simpl.
  - destruct (Z.eq_dec a k) as [->|Hne]; [rewrite Z.eqb_refl; simpl; rewrite IH; reflexivity|].
    destruct (Z.eqb_spec k a); [congruence|]. exact IH.
  - destruct (Z.eqb_spec k a); [lia|]. exact IH.
Qed.
Lemma fold_max_ge (l : list nat) n : n <= fold_right Nat.max n l.
Proof. induction l; simpl; lia. Qed.
Lemma fold_max_in (l : list nat) n x : In x l -> x <= fold_right Nat.max n l.
Proof. induction l as [|a l IH]; simpl; [tauto|]. intros [->|H]; [lia|]. specialize (IH H). lia. Qed.
Lemma fold_max_le (l : list nat) n m : n <= m -> (forall x, In x l -> x <= m) -> fold_right Nat.max n l <= m.
Proof. intros Hn. induction l as [|a l IH]; simpl; intros H; [exact Hn|]. apply Nat.max_lub; [apply H; auto|apply IH; auto]. Qed.
Lemma fold_max_cases (l : list nat) n : fold_right Nat.max n l = n \/ In (fold_right Nat.max n l) l.
Proof.
  induction l as [|a l IH]; simpl; [auto|]. destruct (Nat.max_spec a (fold_right Nat.max n l)) as [[H E]|[H E]]; rewrite E.
  - destruct IH as [IH|IH]; auto.
  - auto.
Qed.

Definition bin_total (binn : list Z) (n_bins : nat) : nat :=
  fold_right Nat.max n_bins (map (fun b => S (Z.to_nat b)) (filter (fun b => (0 <=? b)%Z) binn)).
Lemma bincount_nth binn n k :
  nth_error (bincount binn n) k =
  if Nat.ltb k (bin_total binn n) then Some (List.length (filter (Z.eqb (Z.of_nat k)) binn)) else None.
Proof.
  unfold bincount. fold (bin_total binn n). rewrite nth_error_map'. destruct (Nat.ltb_spec k (bin_total binn n)) as [H|H].
  - rewrite (nth_error_nth' (seq 0 (bin_total binn n)) 0) by (rewrite seq_length; exact H). rewrite seq_nth by exact H.
    cbn [option_map]. rewrite count_occ_filter by lia. reflexivity.
  - replace (nth_error (seq 0 (bin_total binn n)) k) with (@None nat); [reflexivity|].
    symmetry. apply nth_error_None. rewrite seq_length. exact H.
Qed.
Lemma bincount_nth_lt binn n k : k < n ->
  nth k (bincount binn n) 0 = List.length (filter (Z.eqb (Z.of_nat k)) binn).
Proof.
  intros H. apply nth_error_nth. rewrite bincount_nth.
  destruct (Nat.ltb_spec k (bin_total binn n)) as [_|Hc]; [reflexivity|].
  pose proof (fold_max_ge (map (fun b => S (Z.to_nat b)) (filter (fun b => (0 <=? b)%Z) binn)) n).
  unfold bin_total in Hc. lia.
Qed.

Lemma select_where {A} (mask : list bool) (l : list (list (masked A))) j : List.length mask = List.length l ->
  column (select mask l) j = map (fun i => cell l i j) (where1 mask).
Proof.
  intros H. unfold where1, select, column.
  assert (G : forall pre, List.length mask = List.length l ->
    map (fun row => match nth_error row j with Some v => v | None => None end) (map snd (filter fst (combine mask l))) =
    map (fun i => cell (pre ++ l) i j) (where_from (List.length pre) mask)); [|exact (G [] H)].
  clear H. revert l. induction mask as [|b mask IH]; intros [|r l] pre H; try discriminate; [reflexivity|].
  simpl in H. injection H as H. simpl. specialize (IH l (pre ++ [r]) H).
  rewrite <- app_assoc, app_length in IH. simpl in IH. rewrite Nat.add_1_r in IH.
  destruct b; simpl; [|exact IH]. f_equal; [|exact IH].
  unfold cell. rewrite nth_error_app2 by lia. rewrite Nat.sub_diag. reflexivity.
Qed.

Lemma unmasked_present {A} (l : list (masked A)) : unmasked l = present l.
Proof. induction l as [|[v|] l IH]; simpl; congruence. Qed.

Lemma nth_error_seq0 n k : k < n -> nth_error (seq 0 n) k = Some k.
Proof. intros H. rewrite (nth_error_nth' (seq 0 n) 0) by (rewrite seq_length; exact H). rewrite seq_nth by exact H. reflexivity. Qed.

Lemma rebin_row_value stat mz ncol block j : j < ncol ->
  exists v, nth_error (rebin_row stat mz ncol block) j = Some v /\ bin_value stat mz (present (column block j)) v.
Proof.
  intros Hj. unfold rebin_row. rewrite nth_error_map', nth_error_seq0 by exact Hj. cbn [option_map].
  eexists. split; [reflexivity|]. unfold bin_value, ma_stat. change (@unmasked Q) with (@present Q).
  destruct (present (column block j)) as [|a r]; [reflexivity|]. set (s := stat (a :: r)).
  destruct mz; simpl; [|reflexivity]. destruct (Qeq_bool s 0) eqn:E.
  - apply Qeq_bool_iff in E. split; [reflexivity|]. intros Hc. contradiction.
  - split; [|reflexivity]. intros Hc. apply Qeq_bool_iff in Hc. congruence.
Qed.

(** Rows of the input that belong to bin [k]. *)
Lemma bin_members lo hi n k x_in : 0 < n -> (lo < hi)%Q -> k < n ->
  let sel := where1 (map (Z.eqb (Z.of_nat k)) (bin_numbers (linspace lo hi n) x_in)) in
  StronglySorted lt sel /\
  (forall i, In i sel <-> exists x, nth_error x_in i = Some x /\ in_bin lo hi n k x).
Proof.
  intros Hn Hlt Hk sel. split; [apply where1_sorted|]. intros i. unfold sel. rewrite where1_in.
  unfold bin_numbers. rewrite !nth_error_map'. destruct (nth_error x_in i) as [x|]; cbn [option_map].
  - split.
    + intros H. exists x. split; [reflexivity|]. apply digitize_bin; [exact Hn|exact Hlt|exact Hk|].
      assert (H' : (Z.of_nat k =? Z.of_nat (searchsorted_right (linspace lo hi n) x) - 1)%Z = true) by congruence.
      apply Z.eqb_eq in H'. lia.
    + intros (x' & [= <-] & H). apply digitize_bin in H; [|exact Hn|exact Hlt|exact Hk]. f_equal. apply Z.eqb_eq. lia.
  - split; [discriminate|]. intros (x & H & _). discriminate.
Qed.

Lemma rebin_2d_ok stat n_min mz ncol x_in array x_new lo hi :
  2 <= List.length x_new -> outer_edges x_new lo hi -> (lo < hi)%Q -> List.length x_in = List.length array ->
  exists result empty, rebin_2d stat n_min mz ncol x_in array x_new = Ok (result, empty) /\
    List.length result = List.length x_new /\ StronglySorted lt empty /\
    (forall k, k < List.length x_new ->
       exists sel, StronglySorted lt sel /\
         (forall i, In i sel <-> exists x, nth_error x_in i = Some x /\ in_bin lo hi (List.length x_new) k x) /\
         (In k empty <-> List.length sel < n_min) /\
         (forall j, j < ncol -> exists v, pixel result k j = Some v /\
            (List.length sel < n_min -> v = None) /\
            (n_min <= List.length sel ->
               bin_value stat mz (present (map (fun i => cell array i j) sel)) v))) /\
    (n_min <= 1 -> forall k, In k empty -> k < List.length x_new).
Proof.
  intros H2 Hedges Hlt Hlen. destruct (binvec_ok x_new H2) as (lo' & hi' & He & E).
  destruct (outer_edges_unique _ _ _ _ _ Hedges He) as [El Eh].
  assert (Hlt' : (lo' < hi')%Q) by lra. assert (Hn : 0 < List.length x_new) by lia.
  unfold rebin_2d. rewrite E. cbn [bind]. rewrite Hlen, Nat.eqb_refl. cbn [negb].
  set (n := List.length x_new) in *. set (edges := linspace lo' hi' n).
  set (binn := bin_numbers edges x_in). do 2 eexists. split; [reflexivity|].
  split; [rewrite map_length, seq_length; reflexivity|]. split; [apply where1_sorted|]. split.
  - intros k Hk. destruct (bin_members lo' hi' n k x_in Hn Hlt' Hk) as [Hs Hin]. fold edges in Hs, Hin. fold binn in Hs, Hin.
    set (sel := where1 (map (Z.eqb (Z.of_nat k)) binn)) in *. exists sel. split; [exact Hs|].
    split; [intros i; rewrite Hin; split; intros (x & A & B); exists x; (split; [exact A|]);
            apply (in_bin_compat lo hi lo' hi' n k x El Eh); exact B|].
    assert (Hcount : List.length sel = List.length (filter (Z.eqb (Z.of_nat k)) binn)) by apply where_from_map.
    assert (Hnth : nth k (bincount binn n) 0 = List.length sel) by (rewrite Hcount; apply bincount_nth_lt; exact Hk).
    assert (Hne : nth_error (bincount binn n) k = Some (List.length sel)).
    { rewrite Hcount, bincount_nth. destruct (Nat.ltb_spec k (bin_total binn n)) as [_|Hc]; [reflexivity|].
      pose proof (fold_max_ge (map (fun b => S (Z.to_nat b)) (filter (fun b => (0 <=? b)%Z) binn)) n).
      unfold bin_total in Hc. lia. }
    split.
    + rewrite where1_in, nth_error_map', Hne. cbn [option_map]. destruct (Nat.ltb_spec (List.length sel) n_min); split; intros H0; try reflexivity; try discriminate; lia.
    + intros j Hj. unfold pixel. rewrite nth_error_map', nth_error_seq0 by exact Hk. cbn [option_map]. rewrite Hnth.
      destruct (Nat.ltb_spec (List.length sel) n_min) as [Hc|Hc].
      * rewrite nth_error_map', nth_error_seq0 by exact Hj. eexists. split; [reflexivity|]. split; [reflexivity|lia].
      * destruct (rebin_row_value stat mz ncol (select (map (Z.eqb (Z.of_nat k)) binn) array) j Hj) as (v & Hv & Hb).
        exists v. split; [exact Hv|]. split; [lia|]. intros _. rewrite select_where in Hb; [exact Hb|].
        unfold binn, bin_numbers. rewrite !map_length. exact Hlen.
  - intros Hmin k Hk. apply where1_in in Hk. rewrite nth_error_map', bincount_nth in Hk.
    destruct (Nat.ltb_spec k (bin_total binn n)) as [Hlt2|]; [|discriminate]. cbn [option_map] in Hk. injection Hk as Hk.
    apply Nat.ltb_lt in Hk. assert (Hz : List.length (filter (Z.eqb (Z.of_nat k)) binn) = 0) by lia.
    destruct (Nat.lt_ge_cases k n) as [|Hge]; [assumption|]. exfalso.
    (* the largest counted bin is not empty, and all bin numbers are at most n *)
    assert (Htop : bin_total binn n = S n \/ bin_total binn n = n).
    { unfold bin_total in *. set (l := map (fun b => S (Z.to_nat b)) (filter (fun b => (0 <=? b)%Z) binn)) in *.
      assert (Hle : fold_right Nat.max n l <= S n).
      { apply fold_max_le; [lia|]. intros y Hy. unfold l in Hy. apply in_map_iff in Hy as (b & <- & Hb).
        apply filter_In in Hb as [Hb _]. unfold binn, bin_numbers in Hb. apply in_map_iff in Hb as (x & <- & _).
        pose proof (ss_right_le edges x) as Hb. unfold edges in Hb. rewrite linspace_length in Hb. fold edges in Hb. lia. }
      pose proof (fold_max_ge l n). lia. }
    destruct Htop as [Htop|Htop]; [|lia]. assert (k = n) by lia. subst k.
    destruct (fold_max_cases (map (fun b => S (Z.to_nat b)) (filter (fun b => (0 <=? b)%Z) binn)) n) as [Hc|Hc];
      fold (bin_total binn n) in Hc; [lia|].
    apply in_map_iff in Hc as (b & Hb & Hin). apply filter_In in Hin as [Hin Hpos]. apply Z.leb_le in Hpos.
    assert (Hb' : b = Z.of_nat n) by lia. subst b.
    assert (Hin' : In (Z.of_nat n) (filter (Z.eqb (Z.of_nat n)) binn)) by (apply filter_In; split; [exact Hin|apply Z.eqb_refl]).
    destruct (filter (Z.eqb (Z.of_nat n)) binn); [destruct Hin'|discriminate].
Qed.

(** On an evenly spaced grid, bin [k] is half a step around point [k]. *)
Lemma even_bins x0 d n : 2 <= n -> (0 < d)%Q ->
  let x := map (fun i => x0 + nat_q i * d)%Q (seq 0 n) in
  forall lo hi, outer_edges x lo hi ->
  (lo < hi)%Q /\
  forall k t, in_bin lo hi n k t <-> (x0 + nat_q k * d - d / 2 <= t /\ t < x0 + nat_q k * d + d / 2)%Q.
Proof.
  intros Hn Hd x lo hi (a & b & c & e & Ha & Hb & Hc & He & Hlo & Hhi).
  assert (Hx : forall i, i < n -> nth_error x i = Some (x0 + nat_q i * d)%Q).
  { intros i Hi. unfold x. rewrite nth_error_map', nth_error_seq0 by exact Hi. reflexivity. }
  assert (Hl : List.length x = n) by (unfold x; rewrite map_length, seq_length; reflexivity).
  rewrite Hl in *. rewrite Hx in Ha, Hb, Hc, He by lia.
  injection Ha as <-. injection Hb as <-. injection Hc as <-. injection He as <-.
  assert (E1 : (nat_q (n - 1) == nat_q n - 1)%Q).
  { replace n with (S (n - 1)) at 2 by lia. rewrite nat_q_S. ring. }
  assert (E2 : (nat_q (n - 2) == nat_q n - 2)%Q).
  { replace (n - 1) with (S (n - 2)) in E1 by lia. rewrite nat_q_S in E1. lra. }
  assert (Hlo' : (lo == x0 - d / 2)%Q) by (rewrite Hlo; unfold nat_q; simpl; field).
  assert (Hhi' : (hi == lo + nat_q n * d)%Q) by (rewrite Hhi, Hlo', E1, E2; field).
  assert (Hnp : (0 < nat_q n)%Q) by (apply nat_q_pos; lia).
  split.
  - assert (H : (0 < nat_q n * d)%Q) by (apply Qmult_lt_0_compat; assumption). lra.
  - intros k t. unfold in_bin.
    assert (Hw : ((hi - lo) / nat_q n == d)%Q) by (rewrite Hhi'; field; lra).
    rewrite Hw, Hlo'. assert (Hk : ((nat_q k + 1) * d == nat_q k * d + d)%Q) by ring. rewrite Hk.
    set (p := (nat_q k * d)%Q). clearbody p. assert (Hh : (d == d / 2 * 2)%Q) by field. set (h := (d / 2)%Q) in *. clearbody h. clear - Hh. split; intros [A B]; split; lra.
Qed.

Lemma rebin_2d_keepdim_ok stat n_min mz ncol x_in array x_new lo hi :
  2 <= List.length x_new -> outer_edges x_new lo hi -> (lo < hi)%Q -> List.length x_in = List.length array ->
  exists result empty, rebin_2d_keepdim stat n_min mz ncol x_in array x_new = Ok (result, empty) /\
    List.length result = List.length x_in /\
    (forall i x j, nth_error x_in i = Some x -> j < ncol -> exists v, pixel result i j = Some v /\
       ((forall k, k < List.length x_new -> ~ in_bin lo hi (List.length x_new) k x) -> v = None) /\
       (forall k, k < List.length x_new -> in_bin lo hi (List.length x_new) k x ->
          exists sel, StronglySorted lt sel /\
            (forall i', In i' sel <-> exists x', nth_error x_in i' = Some x' /\ in_bin lo hi (List.length x_new) k x') /\
            (List.length sel < n_min -> v = None) /\
            (n_min <= List.length sel ->
               bin_value stat mz (present (map (fun i' => cell array i' j) sel)) v))).
Proof.
  intros H2 Hedges Hlt Hlen. destruct (binvec_ok x_new H2) as (lo' & hi' & He & E).
  destruct (outer_edges_unique _ _ _ _ _ Hedges He) as [El Eh].
  assert (Hlt' : (lo' < hi')%Q) by lra. assert (Hn : 0 < List.length x_new) by lia.
  unfold rebin_2d_keepdim. rewrite E. cbn [bind]. rewrite Hlen, Nat.eqb_refl. cbn [negb].
  set (n := List.length x_new) in *. set (edges := linspace lo' hi' n).
  set (binn := bin_numbers edges x_in). do 2 eexists. split; [reflexivity|].
  assert (Hbl : List.length binn = List.length array) by (unfold binn, bin_numbers; rewrite map_length; exact Hlen).
  split; [rewrite map_length; exact Hbl|]. intros i x j Hi Hj.
  assert (Hb : nth_error binn i = Some (Z.of_nat (searchsorted_right edges x) - 1)%Z).
  { unfold binn, bin_numbers. rewrite nth_error_map', Hi. reflexivity. }
  unfold pixel. rewrite nth_error_map', Hb. cbn [option_map]. set (b := (Z.of_nat (searchsorted_right edges x) - 1)%Z).
  destruct ((0 <=? b)%Z && (b <? Z.of_nat n)%Z) eqn:Eb.
  - apply andb_true_iff in Eb as [Hb0 Hbn]. apply Z.leb_le in Hb0. apply Z.ltb_lt in Hbn.
    set (k := Z.to_nat b). assert (Hk : k < n) by lia. assert (Hbk : b = Z.of_nat k) by lia.
    assert (Hxk : in_bin lo' hi' n k x) by (apply digitize_bin; [exact Hn|exact Hlt'|exact Hk|]; fold edges; lia).
    destruct (bin_members lo' hi' n k x_in Hn Hlt' Hk) as [Hs Hin]. fold edges in Hs, Hin. fold binn in Hs, Hin.
    rewrite <- Hbk in Hs, Hin. set (sel := where1 (map (Z.eqb b) binn)) in *.
    assert (Hcount : nth k (bincount binn n) 0 = List.length sel).
    { rewrite bincount_nth_lt by exact Hk. rewrite <- Hbk. symmetry. apply where_from_map. }
    rewrite Hcount. cbn [andb].
    assert (Hv : exists v, nth_error (if negb (Nat.ltb (List.length sel) n_min)
        then rebin_row stat mz ncol (select (map (Z.eqb b) binn) array)
        else map (fun _ : nat => @None Q) (seq 0 ncol)) j = Some v /\
      (List.length sel < n_min -> v = None) /\
      (n_min <= List.length sel -> bin_value stat mz (present (map (fun i' => cell array i' j) sel)) v)).
    { destruct (Nat.ltb_spec (List.length sel) n_min) as [Hc|Hc]; cbn [negb].
      - rewrite nth_error_map', nth_error_seq0 by exact Hj. eexists. split; [reflexivity|]. split; [reflexivity|lia].
      - destruct (rebin_row_value stat mz ncol (select (map (Z.eqb b) binn) array) j Hj) as (v & Hv & Hbv).
        exists v. split; [exact Hv|]. split; [lia|]. intros _. rewrite select_where in Hbv; [exact Hbv|].
        rewrite map_length. exact Hbl. }
    destruct Hv as (v & Hv & Hv1 & Hv2). exists v. split; [exact Hv|]. split.
    + intros Hno. exfalso. apply (Hno k Hk). apply (in_bin_compat lo hi lo' hi' n k x El Eh). exact Hxk.
    + intros k' Hk' Hx'. apply (in_bin_compat lo hi lo' hi' n k' x El Eh) in Hx'.
      assert (k' = k) by (eapply in_bin_unique; eauto). subst k'. exists sel. split; [exact Hs|].
      split; [|split; assumption]. intros i'. rewrite Hin. split; intros (x' & A & B); exists x'; (split; [exact A|]);
            apply (in_bin_compat lo hi lo' hi' n k x' El Eh); exact B.
  - cbn [andb]. rewrite nth_error_map', nth_error_seq0 by exact Hj. exists None. split; [reflexivity|]. split; [reflexivity|].
    intros k Hk Hx. apply (in_bin_compat lo hi lo' hi' n k x El Eh) in Hx.
    apply digitize_bin in Hx; [|exact Hn|exact Hlt'|exact Hk]. fold edges in Hx. exfalso.
    unfold b in Eb. rewrite Hx in Eb. apply andb_false_iff in Eb as [Eb|Eb].
    + apply Z.leb_gt in Eb. lia.
    + apply Z.ltb_ge in Eb. lia.
Qed.

(** ** Gaps *)
Lemma qmin_gt a b t : (t < qmin a b <-> t < a /\ t < b)%Q.
Proof.
  unfold qmin. destruct (Qle_bool a b) eqn:E; [apply qle_iff in E|apply qle_false in E]; split; intros; try split; lra.
Qed.

Lemma qabs_left x g : (g <= x)%Q -> (Qabs (x - g) == x - g)%Q.
Proof. intros H. apply Qabs_pos. lra. Qed.
Lemma qabs_right x g : (x <= g)%Q -> (Qabs (x - g) == g - x)%Q.
Proof. intros H. rewrite Qabs_neg by lra. ring. Qed.

Lemma gap_nearest_spec grid x thr : ascending grid -> grid <> [] ->
  (inf_gt (gap_nearest grid x) thr = true <-> forall g, In g grid -> (thr < Qabs (x - g))%Q).
Proof.
  intros Ha Hne. unfold gap_nearest. set (k := searchsorted_left grid x).
  assert (Hk : k <= List.length grid) by apply ss_left_le.
  assert (Hl : forall i g, i < k -> nth_error grid i = Some g -> (g < x)%Q) by (intros i g; apply ss_left_before).
  assert (Hr : forall i g, k <= i -> nth_error grid i = Some g -> (x <= g)%Q) by (intros i g; apply ss_left_after; exact Ha).
  assert (Hlen : 0 < List.length grid) by (destruct grid; [congruence|simpl; lia]).
  (* nearest elements on both sides dominate *)
  assert (HL : forall gl, 0 < k -> nth_error grid (k - 1) = Some gl ->
    forall i g, i < k -> nth_error grid i = Some g -> (Qabs (x - gl) <= Qabs (x - g))%Q).
  { intros gl Hk0 Hgl i g Hi Hg. pose proof (Hl (k-1) gl ltac:(lia) Hgl). pose proof (Hl i g Hi Hg).
    pose proof (ascending_nth grid Ha i (k-1) g gl ltac:(lia) Hg Hgl). rewrite !qabs_left by lra. lra. }
  assert (HR : forall gr, nth_error grid k = Some gr ->
    forall i g, k <= i -> nth_error grid i = Some g -> (Qabs (x - gr) <= Qabs (x - g))%Q).
  { intros gr Hgr i g Hi Hg. pose proof (Hr k gr ltac:(lia) Hgr). pose proof (Hr i g Hi Hg).
    pose proof (ascending_nth grid Ha k i gr g Hi Hgr Hg). rewrite !qabs_right by lra. lra. }
  destruct (Nat.ltb_spec 0 k) as [Hk0|Hk0], (Nat.ltb_spec k (List.length grid)) as [Hkl|Hkl].
  - destruct (nth_error_lt_Some grid (k - 1)) as [gl Egl]; [lia|]. destruct (nth_error_lt_Some grid k) as [gr Egr]; [lia|].
    replace (Nat.min k (List.length grid - 1)) with k by lia. rewrite Egl, Egr. cbn [option_map inf_min inf_gt].
    rewrite qgt_iff, qmin_gt. split.
    + intros [A B] g Hg. apply In_nth_error in Hg as [i Hi]. destruct (Nat.lt_ge_cases i k) as [Hik|Hik].
      * specialize (HL gl Hk0 Egl i g Hik Hi). lra.
      * specialize (HR gr Egr i g Hik Hi). lra.
    + intros H. split; apply H; eapply nth_error_In; eassumption.
  - destruct (nth_error_lt_Some grid (k - 1)) as [gl Egl]; [lia|]. rewrite Egl. cbn [option_map inf_min inf_gt].
    rewrite qgt_iff. split.
    + intros A g Hg. apply In_nth_error in Hg as [i Hi]. pose proof (nth_error_Some_lt _ _ _ Hi).
      specialize (HL gl Hk0 Egl i g ltac:(lia) Hi). lra.
    + intros H. apply H. eapply nth_error_In. exact Egl.
  - destruct (nth_error_lt_Some grid k) as [gr Egr]; [lia|].
    replace (Nat.min k (List.length grid - 1)) with k by lia. rewrite Egr. cbn [option_map inf_min inf_gt].
    rewrite qgt_iff. split.
    + intros A g Hg. apply In_nth_error in Hg as [i Hi]. specialize (HR gr Egr i g ltac:(lia) Hi). lra.
    + intros H. apply H. eapply nth_error_In. exact Egr.
  - lia.
Qed.

Lemma get_gap_ind_spec grid new_grid thr : ascending grid ->
  StronglySorted lt (get_gap_ind grid new_grid thr) /\
  forall i, In i (get_gap_ind grid new_grid thr) <->
    exists x, nth_error new_grid i = Some x /\ forall g, In g grid -> (thr < Qabs (x - g))%Q.
Proof.
  intros Ha. unfold get_gap_ind. destruct grid as [|g0 r].
  - split; [apply seq_sorted|]. intros i. rewrite in_seq. split.
    + intros [_ H]. destruct (nth_error_lt_Some new_grid i H) as [x E]. exists x. split; [exact E|]. intros g [].
    + intros (x & E & _). apply nth_error_Some_lt in E. lia.
  - split; [apply where1_sorted|]. intros i. rewrite where1_in, nth_error_map'.
    assert (Hne : g0 :: r <> []) by discriminate. set (grid := g0 :: r) in *. clearbody grid.
    destruct (nth_error new_grid i) as [x|]; cbn [option_map].
    + split.
      * intros H. exists x. split; [reflexivity|]. apply gap_nearest_spec; [exact Ha|exact Hne|]. congruence.
      * intros (x' & [= <-] & H). f_equal. apply gap_nearest_spec; assumption.
    + split; [discriminate|]. intros (x & H & _). discriminate.
Qed.

(** ** Nearest neighbours *)
Lemma list_min_spec l : forall d, (list_min d l <= d)%Q /\ (forall x, In x l -> (list_min d l <= x)%Q) /\
  (list_min d l = d \/ In (list_min d l) l).
Proof.
  induction l as [|a l IH]; intros d; simpl; [repeat split; [lra|tauto|auto]|].
  destruct (IH (qmin d a)) as (A & B & C).
  assert (Hm : (qmin d a <= d /\ qmin d a <= a)%Q).
  { unfold qmin. destruct (Qle_bool d a) eqn:E; [apply qle_iff in E|apply qle_false in E]; lra. }
  repeat split.
  - lra.
  - intros x [<-|Hx]; [lra|auto].
  - destruct C as [C|C]; [|auto]. rewrite C. unfold qmin. destruct (Qle_bool d a); auto.
Qed.
Lemma list_max_spec l : forall d, (d <= list_max d l)%Q /\ (forall x, In x l -> (x <= list_max d l)%Q) /\
  (list_max d l = d \/ In (list_max d l) l).
Proof.
  induction l as [|a l IH]; intros d; simpl; [repeat split; [lra|tauto|auto]|].
  destruct (IH (qmax d a)) as (A & B & C).
  assert (Hm : (d <= qmax d a /\ a <= qmax d a)%Q).
  { unfold qmax. destruct (Qle_bool d a) eqn:E; [apply qle_iff in E|apply qle_false in E]; lra. }
  repeat split.
  - lra.
  - intros x [<-|Hx]; [lra|auto].
  - destruct C as [C|C]; [|auto]. rewrite C. unfold qmax. destruct (Qle_bool d a); auto.
Qed.

Lemma nth_Some {A} (l : list A) i d x : nth_error l i = Some x -> nth i l d = x.
Proof. apply nth_error_nth. Qed.

(** Two candidates around the insertion point dominate all others. *)
Lemma nearest_two l x k : ascending l -> l <> [] -> k = searchsorted_left l x ->
  forall a b i, a = Nat.min (k - 1) (List.length l - 1) -> b = Nat.min k (List.length l - 1) ->
  (i = a \/ i = b) ->
  (forall ga gb gi, nth_error l a = Some ga -> nth_error l b = Some gb -> nth_error l i = Some gi ->
     (Qabs (x - gi) <= Qabs (x - ga) /\ Qabs (x - gi) <= Qabs (x - gb))%Q) ->
  is_nearest l x i.
Proof.
  intros Ha Hne -> a b i Ea Eb Hi H. set (k := searchsorted_left l x) in *.
  assert (Hk : k <= List.length l) by apply ss_left_le.
  assert (Hl : forall i g, i < k -> nth_error l i = Some g -> (g < x)%Q) by (intros ? ?; apply ss_left_before).
  assert (Hr : forall i g, k <= i -> nth_error l i = Some g -> (x <= g)%Q) by (intros ? ?; apply ss_left_after; exact Ha).
  assert (Hlen : 0 < List.length l) by (destruct l; [congruence|simpl; lia]).
  destruct (nth_error_lt_Some l a) as [ga Ega]; [lia|]. destruct (nth_error_lt_Some l b) as [gb Egb]; [lia|].
  destruct (nth_error_lt_Some l i) as [gi Egi]; [destruct Hi; lia|].
  exists gi. split; [exact Egi|]. intros h Hh. apply In_nth_error in Hh as [j Hj].
  destruct (H ga gb gi Ega Egb Egi) as [H1 H2].
  destruct (Nat.lt_ge_cases j k) as [Hjk|Hjk].
  - (* left side: a = k - 1 *)
    assert (Hak : a = k - 1) by lia. pose proof (Hl a ga ltac:(lia) Ega). pose proof (Hl j h Hjk Hj).
    pose proof (ascending_nth l Ha j a h ga ltac:(lia) Hj Ega).
    pose proof (qabs_left x ga ltac:(lra)). pose proof (qabs_left x h ltac:(lra)). lra.
  - pose proof (nth_error_Some_lt _ _ _ Hj). assert (Hbk : b = k) by lia.
    pose proof (Hr b gb ltac:(lia) Egb). pose proof (Hr j h Hjk Hj).
    pose proof (ascending_nth l Ha b j gb h ltac:(lia) Egb Hj).
    pose proof (qabs_right x gb ltac:(lra)). pose proof (qabs_right x h ltac:(lra)). lra.
Qed.

Lemma closest_index_nearest time t : ascending time -> time <> [] -> is_nearest time t (closest_index time t).
Proof.
  intros Ha Hne. assert (Hlen : 0 < List.length time) by (destruct time; [congruence|simpl; lia]).
  unfold closest_index. set (k := searchsorted_left time t).
  set (a := Nat.min (k - 1) (List.length time - 1)). set (b := Nat.min k (List.length time - 1)).
  destruct (nth_error_lt_Some time a) as [ga Ega]; [unfold a; lia|]. destruct (nth_error_lt_Some time b) as [gb Egb]; [unfold b; lia|].
  rewrite (nth_Some _ _ 0%Q _ Ega), (nth_Some _ _ 0%Q _ Egb).
  destruct (qlt (Qabs (t - ga)) (Qabs (t - gb))) eqn:E.
  - apply qlt_iff in E. eapply (nearest_two time t k Ha Hne eq_refl a b a); [reflexivity|reflexivity|left; reflexivity|].
    intros ga' gb' gi H1 H2 H3. rewrite Ega in H1, H3. rewrite Egb in H2.
    assert (ga' = ga) by congruence. assert (gi = ga) by congruence. assert (gb' = gb) by congruence. subst.
    split; lra.
  - apply qlt_false in E. eapply (nearest_two time t k Ha Hne eq_refl a b b); [reflexivity|reflexivity|right; reflexivity|].
    intros ga' gb' gi H1 H2 H3. rewrite Ega in H1. rewrite Egb in H2, H3.
    assert (ga' = ga) by congruence. assert (gi = gb) by congruence. assert (gb' = gb) by congruence. subst.
    split; lra.
Qed.

Lemma nearest_gate_nearest y yn : ascending y -> y <> [] -> is_nearest y yn (nearest_gate y yn).
Proof.
  intros Ha Hne. assert (Hlen : 0 < List.length y) by (destruct y; [congruence|simpl; lia]).
  unfold nearest_gate. set (k := searchsorted_left y yn). assert (Hk : k <= List.length y) by apply ss_left_le.
  set (idx := Nat.min k (List.length y - 1)). set (left := idx - 1).
  destruct (nth_error_lt_Some y idx) as [gb Egb]; [unfold idx; lia|].
  destruct (nth_error_lt_Some y left) as [ga Ega]; [unfold left, idx; lia|].
  rewrite (nth_Some _ _ 0%Q _ Ega), (nth_Some _ _ 0%Q _ Egb).
  assert (Hsym : (Qabs (gb - yn) == Qabs (yn - gb))%Q) by (rewrite <- Qabs_opp; apply Qabs_wd; ring).
  destruct (Nat.ltb_spec idx (List.length y)) as [_|Hc]; [|unfold idx in Hc; lia]. cbn [andb].
  destruct (Nat.lt_ge_cases k (List.length y)) as [Hkl|Hkl].
  - (* insertion point inside *)
    assert (Hidx : idx = k) by (unfold idx; lia).
    assert (Hmin : Nat.min (k - 1) (List.length y - 1) = left) by (unfold left; lia).
    destruct (Nat.eqb_spec idx 0) as [H0|H0]; cbn [orb].
    + apply (nearest_two y yn k Ha Hne eq_refl left idx idx); [congruence|reflexivity|right; reflexivity|].
      intros ga' gb' gi H1 H2 H3. assert (left = idx) by (unfold left; lia).
      assert (ga' = gi) by congruence. assert (gb' = gi) by congruence. subst. split; lra.
    + destruct (qlt (Qabs (gb - yn)) (Qabs (yn - ga))) eqn:E.
      * apply qlt_iff in E. apply (nearest_two y yn k Ha Hne eq_refl left idx idx); [congruence|reflexivity|right; reflexivity|].
        intros ga' gb' gi H1 H2 H3. assert (ga' = ga) by congruence. assert (gb' = gb) by congruence. assert (gi = gb) by congruence. subst. split; lra.
      * apply qlt_false in E. apply (nearest_two y yn k Ha Hne eq_refl left idx left); [congruence|reflexivity|left; reflexivity|].
        intros ga' gb' gi H1 H2 H3. assert (ga' = ga) by congruence. assert (gb' = gb) by congruence. assert (gi = ga) by congruence. subst. split; lra.
  - (* beyond the last gate: idx is the last gate, left the one before *)
    assert (Hkeq : k = List.length y) by lia.
    assert (Hall : forall i g, nth_error y i = Some g -> (g < yn)%Q).
    { intros i g Hg. apply (ss_left_before y yn i g); [|exact Hg]. fold k. apply nth_error_Some_lt in Hg. lia. }
    pose proof (Hall _ _ Egb) as Hb. pose proof (Hall _ _ Ega) as Hla.
    pose proof (ascending_nth y Ha left idx ga gb ltac:(unfold left; lia) Ega Egb) as Hab.
    assert (Hlast : is_nearest y yn idx).
    { apply (nearest_two y yn k Ha Hne eq_refl idx idx idx); [unfold idx; lia|reflexivity|left; reflexivity|].
      intros ga' gb' gi H1 H2 H3. assert (ga' = gi) by congruence. assert (gb' = gi) by congruence. subst. split; lra. }
    destruct (Nat.eqb_spec idx 0) as [H0|H0]; cbn [orb]; [exact Hlast|].
    destruct (qlt (Qabs (gb - yn)) (Qabs (yn - ga))) eqn:E; [exact Hlast|]. apply qlt_false in E.
    (* equal distance: the two last gates have the same height *)
    destruct Hlast as (g & Hg & Hmin). exists ga. split; [exact Ega|]. intros h Hh.
    assert (g = gb) by congruence. subst g. specialize (Hmin h Hh). lra.
Qed.

Lemma Forall2_len {A B} (P : A -> B -> Prop) l1 l2 : Forall2 P l1 l2 -> List.length l1 = List.length l2.
Proof. induction 1; simpl; congruence. Qed.

Lemma interpolate_2D_ok {A} y (z : image (masked A)) y_new : ascending y -> y <> [] ->
  Forall (fun row => List.length row = List.length y) z ->
  exists out, interpolate_2D_along_y y z y_new = Ok out /\ List.length out = List.length z /\
    forall i j yn, i < List.length z -> nth_error y_new j = Some yn ->
      exists g v w, is_nearest y yn g /\ pixel z i g = Some v /\ pixel out i j = Some w /\
        (((forall h, In h y -> yn < h) \/ (forall h, In h y -> h < yn))%Q -> w = None) /\
        (~ ((forall h, In h y -> yn < h) \/ (forall h, In h y -> h < yn))%Q -> w = v).
Proof.
  intros Ha Hne Hz. destruct y as [|y0 r]; [congruence|]. unfold interpolate_2D_along_y.
  destruct (list_min_spec r y0) as (Hmin1 & Hmin2 & Hmin3). destruct (list_max_spec r y0) as (Hmax1 & Hmax2 & Hmax3).
  set (lo := list_min y0 r) in *. set (hi := list_max y0 r) in *.
  assert (Hlo : In lo (y0 :: r)) by (destruct Hmin3 as [->|H]; simpl; auto).
  assert (Hhi : In hi (y0 :: r)) by (destruct Hmax3 as [->|H]; simpl; auto).
  assert (Hlo' : forall h, In h (y0 :: r) -> (lo <= h)%Q) by (intros h [<-|H]; auto).
  assert (Hhi' : forall h, In h (y0 :: r) -> (h <= hi)%Q) by (intros h [<-|H]; auto).
  clearbody lo hi. set (y := y0 :: r) in *. clearbody y. clear y0 r Hmin1 Hmin2 Hmin3 Hmax1 Hmax2 Hmax3.
  assert (Hg : forall yn, nearest_gate y yn < List.length y).
  { intros yn. destruct (nearest_gate_nearest y yn Ha Hne) as (g & Hg & _). eapply nth_error_Some_lt; exact Hg. }
  set (f := fun row : list (masked A) => bind (gather row (map (nearest_gate y) y_new)) (fun vals : list (masked A) =>
        Ok (map2 (fun v (yn : Q) => if qlt yn lo || qgt yn hi then None else v) vals y_new))).
  destruct (sequence_forall2 f (fun (row out : list (masked A)) => exists vals : list (masked A), rows_of (map (nearest_gate y) y_new) row vals /\
     out = map2 (fun v (yn : Q) => if qlt yn lo || qgt yn hi then None else v) vals y_new) z) as (out & E & Hf).
  { apply Forall_forall. intros row Hrow. rewrite Forall_forall in Hz. specialize (Hz row Hrow).
    assert (Hbd : Forall (fun k => k < List.length row) (map (nearest_gate y) y_new)).
    { apply Forall_forall. intros k Hk. apply in_map_iff in Hk as (yn & <- & _). apply (Nat.lt_le_trans _ (List.length y)); [apply Hg|]. apply Nat.eq_le_incl. symmetry. exact Hz. }
    destruct (gather_rows_of row (map (nearest_gate y) y_new) Hbd) as (vals & Eg & Hr).
    unfold f. rewrite Eg. cbn [bind]. eexists. split; [reflexivity|]. eauto. }
  exists out. split; [exact E|]. destruct (forall2_nth _ _ _ Hf) as [Hlen Hnth]. split; [exact Hlen|].
  intros i j yn Hi Hj. destruct (nth_error_lt_Some z i Hi) as [row Hrow].
  destruct (Hnth i row Hrow) as (orow & Horow & vals & [Hl Hv] & ->).
  destruct (Hv j (nearest_gate y yn)) as (v & Hv1 & Hv2); [rewrite nth_error_map', Hj; reflexivity|].
  exists (nearest_gate y yn), v. eexists. split; [apply nearest_gate_nearest; assumption|].
  split; [unfold pixel; rewrite Hrow; exact Hv1|].
  split; [unfold pixel; setoid_rewrite Horow; rewrite nth_error_map2; setoid_rewrite Hv2; rewrite Hj; reflexivity|].
  assert (Hiff : qlt yn lo || qgt yn hi = true <-> ((forall h, In h y -> yn < h) \/ (forall h, In h y -> h < yn))%Q).
  { rewrite orb_true_iff, qlt_iff, qgt_iff. split; intros [H|H].
    - left. intros h Hh. specialize (Hlo' h Hh). lra.
    - right. intros h Hh. specialize (Hhi' h Hh). lra.
    - left. auto.
    - right. auto. }
  destruct (qlt yn lo || qgt yn hi); split; intros H; try reflexivity.
  - exfalso. apply H, Hiff. reflexivity.
  - apply Hiff in H. discriminate.
Qed.

(** ** Linear interpolation *)
Definition by_time (p q : Q * Q) : Prop := (fst p < fst q)%Q.

Lemma interp_node t0 y0 r t : StronglySorted by_time ((t0, y0) :: r) -> (t == t0)%Q -> (interp_from t0 y0 r t == y0)%Q.
Proof.
  intros Hs Ht. destruct r as [|[t1 y1] r]; simpl; [reflexivity|]. apply StronglySorted_inv in Hs as [_ Hf].
  inversion Hf as [|? ? H1 _]; subst. unfold by_time in H1; simpl in H1.
  destruct (qlt t t1) eqn:E; [|apply qlt_false in E; lra].
  assert (E0 : (t - t0 == 0)%Q) by lra. rewrite E0. ring.
Qed.

Lemma interp_from_range m M samples : forall t0 y0 t,
  StronglySorted by_time ((t0, y0) :: samples) -> (t0 <= t)%Q ->
  (forall p, In p ((t0, y0) :: samples) -> m <= snd p /\ snd p <= M)%Q ->
  (m <= interp_from t0 y0 samples t /\ interp_from t0 y0 samples t <= M)%Q.
Proof.
  induction samples as [|[t1 y1] r IH]; intros t0 y0 t Hs Ht Hb; simpl.
  - exact (Hb (t0, y0) (or_introl eq_refl)).
  - destruct (Hb (t0, y0) (or_introl eq_refl)) as [A0 B0]. destruct (Hb (t1, y1) (or_intror (or_introl eq_refl))) as [A1 B1].
    simpl in *. apply StronglySorted_inv in Hs as [Hs Hf]. inversion Hf as [|? ? H1 _]; subst. unfold by_time in H1; simpl in H1.
    destruct (qlt t t1) eqn:E.
    + apply qlt_iff in E. set (c := ((t - t0) / (t1 - t0))%Q).
      assert (Hc : ((y1 - y0) / (t1 - t0) * (t - t0) == (y1 - y0) * c)%Q) by (unfold c; field; lra).
      assert (Hct : (c * (t1 - t0) == t - t0)%Q) by (unfold c; field; lra).
      assert (Hc0 : (0 <= c)%Q) by (unfold c; apply Qle_shift_div_l; lra).
      assert (Hc1 : (c <= 1)%Q) by (unfold c; apply Qle_shift_div_r; lra).
      rewrite Hc. clearbody c. clear - A0 B0 A1 B1 Hc0 Hc1.
      split.
      * assert (0 <= (y0 - m) * (1 - c) + (y1 - m) * c)%Q; [|lra].
        assert (0 <= (y0 - m) * (1 - c))%Q by (apply Qmult_le_0_compat; lra).
        assert (0 <= (y1 - m) * c)%Q by (apply Qmult_le_0_compat; lra). lra.
      * assert (0 <= (M - y0) * (1 - c) + (M - y1) * c)%Q; [|lra].
        assert (0 <= (M - y0) * (1 - c))%Q by (apply Qmult_le_0_compat; lra).
        assert (0 <= (M - y1) * c)%Q by (apply Qmult_le_0_compat; lra). lra.
    + apply qlt_false in E. apply IH; [exact Hs|exact E|]. intros p Hp. apply Hb. right. exact Hp.
Qed.

Lemma by_time_inj (l : list (Q * Q)) p q : StronglySorted by_time l -> In p l -> In q l -> (fst p == fst q)%Q -> p = q.
Proof.
  induction 1 as [|a l Hl IH Hf]; intros Hp Hq E; [destruct Hp|]. rewrite Forall_forall in Hf. unfold by_time in Hf.
  destruct Hp as [->|Hp], Hq as [->|Hq]; [reflexivity| | |auto].
  - specialize (Hf q Hq). lra.
  - specialize (Hf p Hp). lra.
Qed.

Lemma interp_from_linear samples : forall t0 y0 t ta ya tb yb,
  StronglySorted by_time ((t0, y0) :: samples) -> (t0 <= t)%Q ->
  In (ta, ya) ((t0, y0) :: samples) -> In (tb, yb) ((t0, y0) :: samples) -> (ta < tb)%Q ->
  (forall p, In p ((t0, y0) :: samples) -> ~ (ta < fst p /\ fst p < tb)%Q) ->
  (ta <= t /\ t <= tb)%Q ->
  (interp_from t0 y0 samples t == ya + (yb - ya) * ((t - ta) / (tb - ta)))%Q.
Proof.
  induction samples as [|[t1 y1] r IH]; intros t0 y0 t ta ya tb yb Hs Ht Ia Ib Hab Hno Hin.
  - simpl in Ia, Ib. destruct Ia as [Ia|[]], Ib as [Ib|[]].
    assert (ta = t0) by congruence. assert (tb = t0) by congruence. subst. lra.
  - pose proof Hs as Hs0. apply StronglySorted_inv in Hs as [Hs Hf]. pose proof Hf as Hf0.
    inversion Hf as [|? ? H1 _]; subst. unfold by_time in H1; simpl in H1.
    rewrite Forall_forall in Hf0. unfold by_time in Hf0. simpl fst in Hf0 at 1.
    assert (Hge : forall p, In p ((t1, y1) :: r) -> (t1 <= fst p)%Q).
    { intros p [<-|Hp]; simpl; [lra|]. apply StronglySorted_inv in Hs as [_ Hg]. rewrite Forall_forall in Hg.
      specialize (Hg p Hp). unfold by_time in Hg. simpl in Hg. lra. }
    (* if a is the first sample, b is the next *)
    assert (Hnext : (ta, ya) = (t0, y0) -> (tb, yb) = (t1, y1)).
    { intros Ea. assert (ta = t0) by congruence. subst ta. destruct Ib as [Ib|Ib].
      - assert (tb = t0) by congruence. subst. lra.
      - pose proof (Hge _ Ib) as Hg. simpl in Hg.
        apply (by_time_inj ((t0, y0) :: (t1, y1) :: r)); [exact Hs0|right; exact Ib|right; left; reflexivity|].
        simpl. destruct (Qlt_le_dec t1 tb) as [Hc|Hc]; [|lra]. exfalso.
        apply (Hno (t1, y1)); [right; left; reflexivity|]. simpl. split; lra. }
    cbn [interp_from]. destruct (qlt t t1) eqn:E.
    + apply qlt_iff in E. destruct Ia as [Ia|Ia].
      * symmetry in Ia. specialize (Hnext Ia). injection Ia as -> ->. injection Hnext as -> ->. field. lra.
      * pose proof (Hge _ Ia) as Hg. simpl in Hg. lra.
    + apply qlt_false in E. destruct Ia as [Ia|Ia].
      * symmetry in Ia. specialize (Hnext Ia). injection Ia as -> ->. injection Hnext as -> ->.
        assert (Et : (t == t1)%Q) by lra. rewrite (interp_node t1 y1 r t Hs Et). rewrite Et. field. lra.
      * apply IH; [exact Hs|exact E|exact Ia| |exact Hab| |exact Hin].
        -- destruct Ib as [Ib|Ib]; [|exact Ib]. pose proof (Hge _ Ia) as Hg. simpl in Hg. assert (tb = t0) by congruence. subst. lra.
        -- intros p Hp. apply Hno. right. exact Hp.
Qed.

Lemma interp_range m M samples t : samples <> [] -> StronglySorted by_time samples ->
  (forall p, In p samples -> m <= snd p /\ snd p <= M)%Q -> (m <= interp samples t /\ interp samples t <= M)%Q.
Proof.
  intros Hne Hs Hb. destruct samples as [|[t0 y0] r]; [congruence|]. unfold interp. destruct (qlt t t0) eqn:E.
  - exact (Hb (t0, y0) (or_introl eq_refl)).
  - apply qlt_false in E. apply interp_from_range; assumption.
Qed.
Lemma interp_linear samples t ta ya tb yb : StronglySorted by_time samples ->
  In (ta, ya) samples -> In (tb, yb) samples -> (ta < tb)%Q ->
  (forall p, In p samples -> ~ (ta < fst p /\ fst p < tb)%Q) -> (ta <= t /\ t <= tb)%Q ->
  (interp samples t == ya + (yb - ya) * ((t - ta) / (tb - ta)))%Q.
Proof.
  intros Hs Ia Ib Hab Hno Hin. destruct samples as [|[t0 y0] r]; [destruct Ia|]. unfold interp.
  destruct (qlt t t0) eqn:E.
  - apply qlt_iff in E. destruct Ia as [Ia|Ia]; [assert (ta = t0) by congruence; subst; lra|].
    apply StronglySorted_inv in Hs as [_ Hf]. rewrite Forall_forall in Hf. specialize (Hf _ Ia). unfold by_time in Hf. simpl in Hf. lra.
  - apply qlt_false in E. apply interp_from_linear; assumption.
Qed.
Lemma interp_from_at samples : forall t0 y0 t ts ys, StronglySorted by_time ((t0, y0) :: samples) ->
  In (ts, ys) ((t0, y0) :: samples) -> (t == ts)%Q -> (interp_from t0 y0 samples t == ys)%Q.
Proof.
  induction samples as [|[t1 y1] r IH]; intros t0 y0 t ts ys Hs Hin Ht.
  - destruct Hin as [Hin|[]]. simpl. assert (y0 = ys) by congruence. subst. reflexivity.
  - destruct Hin as [Hin|Hin].
    + injection Hin as -> ->. apply interp_node; assumption.
    + apply StronglySorted_inv in Hs as [Hs Hf]. cbn [interp_from]. destruct (qlt t t1) eqn:E.
      * apply qlt_iff in E. destruct Hin as [Hin|Hin]; [assert (ts = t1) by congruence; subst; lra|].
        apply StronglySorted_inv in Hs as [_ Hg]. rewrite Forall_forall in Hg. specialize (Hg _ Hin). unfold by_time in Hg. simpl in Hg. lra.
      * eapply IH; eassumption.
Qed.
Lemma interp_at samples t ts ys : StronglySorted by_time samples -> In (ts, ys) samples -> (t == ts)%Q -> (interp samples t == ys)%Q.
Proof.
  intros Hs Hin Ht. destruct samples as [|[t0 y0] r]; [destruct Hin|]. unfold interp. destruct (qlt t t0) eqn:E.
  - apply qlt_iff in E. destruct Hin as [Hin|Hin]; [assert (ts = t0) by congruence; subst; lra|].
    apply StronglySorted_inv in Hs as [_ Hf]. rewrite Forall_forall in Hf. specialize (Hf _ Hin). unfold by_time in Hf. simpl in Hf. lra.
  - eapply interp_from_at; eassumption.
Qed.

(** The unmasked samples in their original order. *)
Definition good_samples (time : list Q) (y : list (masked Q)) : list (Q * masked Q) :=
  filter (fun p => negb (is_masked (snd p))) (combine time y).

Lemma good_in time y t m : In (t, m) (good_samples time y) -> exists i v, m = Some v /\ sample time y i t v.
Proof.
  intros H. apply filter_In in H as [H Hm]. destruct m as [v|]; [|discriminate].
  apply In_nth_error in H as [i Hi]. rewrite nth_error_combine in Hi. exists i, v. split; [reflexivity|]. unfold sample.
  destruct (nth_error time i) as [a|], (nth_error y i) as [b|]; try discriminate. injection Hi as -> ->. auto.
Qed.
Lemma good_of_sample time y i t v : sample time y i t v -> In (t, Some v) (good_samples time y).
Proof.
  intros [H1 H2]. apply filter_In. split; [|reflexivity]. apply (nth_error_In _ i). rewrite nth_error_combine, H1, H2. reflexivity.
Qed.
Lemma good_values (l : list (Q * masked Q)) : (forall p, In p l -> snd p <> None) ->
  forall i t v, nth_error l i = Some (t, Some v) <-> nth_error (map fst l) i = Some t /\ nth_error (unmasked (map snd l)) i = Some v.
Proof.
  induction l as [|[t0 m0] l IH]; intros H i t v; simpl.
  - destruct i; simpl; split; intros; try discriminate; destruct H0; discriminate.
  - destruct m0 as [v0|]; [|exfalso; apply (H (t0, None)); [left; reflexivity|reflexivity]].
    destruct i as [|i]; simpl.
    + split; [intros [= -> ->]; auto|]. intros [[= ->] [= ->]]. reflexivity.
    + apply IH. intros p Hp. apply H. right. exact Hp.
Qed.
Lemma unmasked_length_good (l : list (Q * masked Q)) : (forall p, In p l -> snd p <> None) ->
  List.length (unmasked (map snd l)) = List.length l.
Proof.
  induction l as [|[t0 m0] l IH]; intros H; simpl; [reflexivity|].
  destruct m0 as [v0|]; [|exfalso; apply (H (t0, None)); [left; reflexivity|reflexivity]]. simpl. f_equal.
  apply IH. intros p Hp. apply H. right. exact Hp.
Qed.

Lemma first_sample_good time y t v : first_sample time y t v ->
  exists k, nth_error (good_samples time y) k = Some (t, Some v) /\
    forall k' p, k' < k -> nth_error (good_samples time y) k' = Some p -> ~ (fst p == t)%Q.
Proof.
  intros (i & [Ht Hv] & Hf).
  assert (Hc : nth_error (combine time y) i = Some (t, Some v)) by (rewrite nth_error_combine, Ht, Hv; reflexivity).
  apply nth_error_split in Hc as (l1 & l2 & El & Hl1). unfold good_samples. rewrite El, filter_app. simpl.
  exists (List.length (filter (fun p => negb (is_masked (snd p))) l1)). split.
  - rewrite nth_error_app2 by apply le_n. rewrite Nat.sub_diag. reflexivity.
  - intros k' p Hk' Hp. rewrite nth_error_app1 in Hp by exact Hk'. apply nth_error_In in Hp.
    apply filter_In in Hp as [Hp Hm]. destruct p as [t' [v'|]]; [|discriminate]. simpl.
    apply In_nth_error in Hp as [i' Hi']. pose proof (nth_error_Some_lt _ _ _ Hi') as Hlt.
    apply (Hf i' t' v'); [lia|]. unfold sample.
    assert (Hc : nth_error (combine time y) i' = Some (t', Some v')) by (rewrite El, nth_error_app1 by lia; exact Hi').
    rewrite nth_error_combine in Hc. destruct (nth_error time i') as [a|], (nth_error y i') as [b|]; try discriminate. injection Hc as -> ->. auto.
Qed.

Lemma combine_gather {A B} (l1 : list A) (l2 : list B) idx o1 o2 : rows_of idx l1 o1 -> rows_of idx l2 o2 ->
  forall n p, nth_error (combine o1 o2) n = Some p <->
    exists k, nth_error idx n = Some k /\ nth_error l1 k = Some (fst p) /\ nth_error l2 k = Some (snd p).
Proof.
  intros [L1 H1] [L2 H2] n p. rewrite nth_error_combine. split.
  - destruct (nth_error o1 n) as [a|] eqn:E1; [|discriminate]. destruct (nth_error o2 n) as [b|] eqn:E2; [|discriminate].
    intros [= <-]. simpl. destruct (nth_error_lt_Some idx n) as [k Hk]; [rewrite <- L1; eapply nth_error_Some_lt; exact E1|].
    exists k. destruct (H1 n k Hk) as (x & A1 & A2). destruct (H2 n k Hk) as (z & B1 & B2). split; [exact Hk|]. split; congruence.
  - intros (k & Hk & A1 & B1). destruct (H1 n k Hk) as (x & A1' & A2). destruct (H2 n k Hk) as (z & B1' & B2).
    rewrite A2, B2. destruct p as [a b]; simpl in *. congruence.
Qed.

Lemma strong_nth {A} (R : A -> A -> Prop) l :
  (forall i j a b, i < j -> nth_error l i = Some a -> nth_error l j = Some b -> R a b) -> StronglySorted R l.
Proof.
  induction l as [|a l IH]; intros H; constructor.
  - apply IH. intros i j x y Hij Hx Hy. apply (H (S i) (S j)); [lia|exact Hx|exact Hy].
  - apply Forall_forall. intros b Hb. apply In_nth_error in Hb as [j Hj]. apply (H 0 (S j)); [lia|reflexivity|exact Hj].
Qed.
Lemma strong_nth_inv {A} (R : A -> A -> Prop) l : StronglySorted R l ->
  forall i j a b, i < j -> nth_error l i = Some a -> nth_error l j = Some b -> R a b.
Proof.
  induction 1 as [|x l Hl IH Hf]; intros i j a b Hij Ha Hb; [destruct i; discriminate|].
  destruct i as [|i], j as [|j]; simpl in *; [lia| |lia|apply (IH i j); [lia|assumption|assumption]].
  injection Ha as <-. rewrite Forall_forall in Hf. apply Hf. eapply nth_error_In; exact Hb.
Qed.

(** What the sorted, duplicate-free sample list contains. *)
Lemma unique_samples time y : good_samples time y <> [] ->
  let g := good_samples time y in
  exists ut uy, gather (map fst g) (unique_index (map fst g)) = Ok ut /\
    gather (unmasked (map snd g)) (unique_index (map fst g)) = Ok uy /\
    combine ut uy <> [] /\ StronglySorted by_time (combine ut uy) /\ map fst (combine ut uy) = ut /\
    (forall t v, In (t, v) (combine ut uy) -> exists i, sample time y i t v) /\
    (forall t v, first_sample time y t v -> In (t, v) (combine ut uy)) /\
    (forall i t v, sample time y i t v -> exists t', In t' ut /\ (t' == t)%Q).
Proof.
  intros Hne g.
  assert (Hg : forall p, In p g -> snd p <> None).
  { intros [t m] Hp. destruct (good_in _ _ _ _ Hp) as (i & v & -> & _). discriminate. }
  pose proof (unique_bound (map fst g)) as Hb. rewrite map_length in Hb.
  destruct (gather_rows_of (map fst g) (unique_index (map fst g))) as (ut & Eu & Hu); [rewrite map_length; exact Hb|].
  destruct (gather_rows_of (unmasked (map snd g)) (unique_index (map fst g))) as (uy & Ey & Hy);
    [rewrite unmasked_length_good by exact Hg; exact Hb|].
  exists ut, uy. split; [exact Eu|]. split; [exact Ey|].
  pose proof (combine_gather _ _ _ _ _ Hu Hy) as Hc.
  destruct (unique_spec (map fst g)) as [Hin Hsort].
  assert (Hlen : List.length ut = List.length uy) by (destruct Hu, Hy; lia).
  assert (Hfirst : forall t v, first_sample time y t v -> In (t, v) (combine ut uy)).
  { intros t v H. apply first_sample_good in H as (k & Hk & Hf). fold g in Hk, Hf.
    apply (good_values g Hg) in Hk as [Hk1 Hk2].
    assert (Hocc : In k (unique_index (map fst g))).
    { apply Hin. exists t. split; [exact Hk1|]. intros j t' Hj Hj' Hq. rewrite nth_error_map' in Hj'.
      destruct (nth_error g j) as [p|] eqn:Ej; [|discriminate]. simpl in Hj'. apply (Hf j p Hj Ej).
      assert (t' = fst p) by congruence. subst. symmetry. exact Hq. }
    apply In_nth_error in Hocc as [n Hn]. apply (nth_error_In _ n). apply Hc. exists k. auto. }
  assert (Hsamp : forall i t v, sample time y i t v -> exists t', In t' ut /\ (t' == t)%Q).
  { intros i t v H. apply good_of_sample in H. fold g in H.
    assert (Hm : In t (map fst g)) by (apply in_map_iff; exists (t, Some v); auto).
    destruct (first_occurrence_exists _ _ Hm) as (k & x & Hk & Hx & Hq). apply Hin in Hk.
    apply In_nth_error in Hk as [n Hn]. destruct Hu as [_ Hu]. destruct (Hu n k Hn) as (x' & A & B).
    exists x. split; [|exact Hq]. apply (nth_error_In _ n). congruence. }
  split.
  { assert (Hx : exists p, In p g) by (unfold g in *; destruct (good_samples time y) as [|p l]; [congruence|exists p; left; reflexivity]).
    destruct Hx as ([t m] & Hp). destruct (good_in _ _ _ _ Hp) as (i & v & -> & Hs).
    destruct (Hsamp i t v Hs) as (t' & Ht' & _). intros Hc0. destruct ut; [destruct Ht'|]. destruct uy; [discriminate|]. discriminate. }
  split.
  { apply strong_nth. intros i j a b Hij Ha Hb2. apply Hc in Ha as (ka & A1 & A2 & A3). apply Hc in Hb2 as (kb & B1 & B2 & B3).
    unfold by_time. exact (strong_nth_inv _ _ Hsort i j ka kb Hij A1 B1 (fst a) (fst b) A2 B2). }
  split.
  { clear - Hlen. revert uy Hlen. induction ut as [|a ut IH]; intros [|b uy] H; simpl in *; try discriminate; [reflexivity|].
    f_equal. apply IH. lia. }
  split; [|split; assumption].
  intros t v H. apply In_nth_error in H as [n Hn]. apply Hc in Hn as (k & _ & A & B). simpl in A, B.
  assert (Hk : nth_error g k = Some (t, Some v)) by (apply good_values; auto).
  apply nth_error_In in Hk. destruct (good_in _ _ _ _ Hk) as (i & v' & Ev & Hs). injection Ev as <-. eauto.
Qed.

Lemma nth_error_enumerate {A} (l : list A) i : nth_error (enumerate l) i = option_map (fun x => (i, x)) (nth_error l i).
Proof. unfold enumerate. rewrite nth_error_enumerate_from. reflexivity. Qed.

Lemma existsb_eqb i l : existsb (Nat.eqb i) l = true <-> In i l.
Proof.
  rewrite existsb_exists. split.
  - intros (x & Hx & E). apply Nat.eqb_eq in E. subst. exact Hx.
  - intros H. exists i. split; [exact H|apply Nat.eqb_refl].
Qed.

Lemma interpolate_1d_ok time y time_new max_time :
  List.length time = List.length y -> time <> [] -> (forall t, In t time -> 0 <= t /\ t <= 24)%Q ->
  exists out, interpolate_1d time y time_new max_time = Ok out /\ List.length out = List.length time_new /\
    forall j t, nth_error time_new j = Some t -> exists w, nth_error out j = Some w /\
      (w = None <-> forall i ts v, sample time y i ts v -> (max_time / 60 < Qabs (t - ts))%Q) /\
      (forall x, w = Some x ->
         (exists i1 t1 v1 i2 t2 v2, sample time y i1 t1 v1 /\ sample time y i2 t2 v2 /\ (v1 <= x /\ x <= v2)%Q) /\
         (forall v, first_sample time y t v -> (x == v)%Q) /\
         (forall ta va tb vb, first_sample time y ta va -> first_sample time y tb vb -> (ta < tb)%Q ->
            (forall i ts v, sample time y i ts v -> ~ (ta < ts /\ ts < tb)%Q) -> (ta <= t /\ t <= tb)%Q ->
            (x == va + (vb - va) * ((t - ta) / (tb - ta)))%Q)).
Proof.
  intros Hlen Hne Hday. unfold interpolate_1d. rewrite Hlen, Nat.eqb_refl. cbn [negb].
  destruct time as [|t0 r]; [congruence|].
  destruct (list_min_spec r t0) as (_ & _ & Hmin). destruct (list_max_spec r t0) as (_ & _ & Hmax).
  assert (E : qgt (list_max t0 r) 24 || qlt (list_min t0 r) 0 = false).
  { apply orb_false_iff. rewrite qgt_false, qlt_false. split.
    - apply Hday. destruct Hmax as [->|H]; [left; reflexivity|right; exact H].
    - apply Hday. destruct Hmin as [->|H]; [left; reflexivity|right; exact H]. }
  rewrite E. set (time := t0 :: r) in *. clearbody time. clear t0 r Hmin Hmax E.
  fold (good_samples time y). set (g := good_samples time y).
  destruct g as [|p0 g0] eqn:Eg.
  - eexists. split; [reflexivity|]. split; [apply map_length|]. intros j t Hj. exists None.
    split; [rewrite nth_error_map', Hj; reflexivity|]. split; [|discriminate]. split; [|reflexivity].
    intros _ i ts v Hs. apply good_of_sample in Hs. fold g in Hs. rewrite Eg in Hs. destruct Hs.
  - rewrite <- Eg. assert (Hgne : good_samples time y <> []) by (fold g; rewrite Eg; discriminate).
    destruct (unique_samples time y Hgne) as (ut & uy & Eu & Ey & Hcne & Hsort & Hfst & Hsub & Hfirst & Hcover).
    fold g in Eu, Ey. rewrite Eu. cbn [bind]. rewrite Ey. cbn [bind].
    set (bad := get_gap_ind ut time_new (max_time / 60)).
    assert (Ha : ascending ut).
    { rewrite <- Hfst. unfold ascending. apply (StronglySorted_map fst by_time); [|exact Hsort]. intros a b H. unfold by_time in H. lra. }
    destruct (get_gap_ind_spec ut time_new (max_time / 60) Ha) as [_ Hbad]. fold bad in Hbad.
    eexists. split; [reflexivity|]. split; [rewrite map_length; unfold enumerate; apply enumerate_from_length|].
    intros j t Hj. eexists. split; [rewrite nth_error_map', nth_error_enumerate, Hj; cbn [option_map fst snd]; reflexivity|].
    assert (Hbj : In j bad <-> forall i ts v, sample time y i ts v -> (max_time / 60 < Qabs (t - ts))%Q).
    { rewrite Hbad. split.
      - intros (t' & Ht' & H) i ts v Hs. assert (t' = t) by congruence. subst t'.
        destruct (Hcover i ts v Hs) as (ts' & Hin & Hq). specialize (H ts' Hin). rewrite Hq in H. exact H.
      - intros H. exists t. split; [exact Hj|]. intros ts Hts. rewrite <- Hfst in Hts. apply in_map_iff in Hts as ([ts' v] & <- & Hin).
        destruct (Hsub ts' v Hin) as (i & Hs). exact (H i ts' v Hs). }
    destruct (existsb (Nat.eqb j) bad) eqn:Eb.
    + apply existsb_eqb in Eb. split; [|discriminate]. split; [|reflexivity]. intros _. apply Hbj. exact Eb.
    + split.
      * split; [discriminate|]. intros H. apply Hbj in H. apply existsb_eqb in H. congruence.
      * intros x Ex. assert (x = interp (combine ut uy) t) by congruence. subst x. clear Ex.
        set (s := combine ut uy) in *. split; [|split].
        -- (* smallest and largest values of the list *)
           destruct s as [|[ts0 v0] s0] eqn:Es; [congruence|]. rewrite <- Es in *.
           destruct (list_min_spec (map snd s) v0) as (_ & Hm1 & Hm2). destruct (list_max_spec (map snd s) v0) as (_ & HM1 & HM2).
           assert (Hv0 : In v0 (map snd s)) by (rewrite Es; left; reflexivity).
           set (m := list_min v0 (map snd s)) in *. set (M := list_max v0 (map snd s)) in *.
           assert (Hm : In m (map snd s)) by (destruct Hm2 as [->|H]; assumption).
           assert (HM : In M (map snd s)) by (destruct HM2 as [->|H]; assumption).
           apply in_map_iff in Hm as ([tm m'] & Em & Hm). apply in_map_iff in HM as ([tM M'] & EM & HM). simpl in Em, EM. subst m' M'.
           destruct (Hsub _ _ Hm) as (i1 & S1). destruct (Hsub _ _ HM) as (i2 & S2).
           exists i1, tm, m, i2, tM, M. split; [exact S1|]. split; [exact S2|].
           apply interp_range; [rewrite Es; discriminate|exact Hsort|].
           intros p Hp. split; [apply Hm1|apply HM1]; apply in_map; exact Hp.
        -- intros v Hv. apply (interp_at s t t v); [exact Hsort|apply Hfirst; exact Hv|reflexivity].
        -- intros ta va tb vb Fa Fb Hab Hno Hin. apply interp_linear; [exact Hsort|apply Hfirst; exact Fa|apply Hfirst; exact Fb|exact Hab| |exact Hin].
           intros [tp vp] Hp. simpl. destruct (Hsub _ _ Hp) as (i & Hs). exact (Hno i tp vp Hs).
Qed.

Lemma interpolate_1d_bad_time time y time_new max_time :
  List.length time = List.length y -> (exists t, In t time /\ (t < 0 \/ 24 < t)%Q) ->
  interpolate_1d time y time_new max_time = Raise ValueError.
Proof.
  intros Hlen (t & Hin & Ht). unfold interpolate_1d. rewrite Hlen, Nat.eqb_refl. cbn [negb].
  destruct time as [|t0 r]; [destruct Hin|].
  destruct (list_min_spec r t0) as (Hm0 & Hm & _). destruct (list_max_spec r t0) as (HM0 & HM & _).
  assert (E : qgt (list_max t0 r) 24 || qlt (list_min t0 r) 0 = true).
  { apply orb_true_iff. rewrite qgt_iff, qlt_iff. destruct Hin as [<-|Hin]; [|specialize (Hm t Hin); specialize (HM t Hin)]; destruct Ht; [right|left|right|left]; lra. }
  rewrite E. reflexivity.
Qed.

(** ** Observation windows *)
Lemma nth_error_midpoints l : forall i, nth_error (midpoints l) i =
  match nth_error l i, nth_error l (S i) with Some a, Some b => Some ((a + b) / 2)%Q | _, _ => None end.
Proof.
  induction l as [|a l IH]; intros i; [destruct i; reflexivity|]. destruct l as [|b r].
  - destruct i as [|[|i]]; reflexivity.
  - destruct i as [|i]; [reflexivity|]. change (midpoints (a :: b :: r)) with (((a + b) / 2)%Q :: midpoints (b :: r)).
    simpl nth_error at 1. rewrite IH. reflexivity.
Qed.
Lemma midpoints_length l : List.length (midpoints l) = List.length l - 1.
Proof.
  induction l as [|a [|b r] IH]; [reflexivity|reflexivity|]. 
  change (midpoints (a :: b :: r)) with (((a + b) / 2)%Q :: midpoints (b :: r)). simpl in *. lia.
Qed.
Lemma half_between a b : (a < b -> a < (a + b) / 2 /\ (a + b) / 2 < b)%Q.
Proof.
  intros H. assert (E : (a + b == (a + b) / 2 * 2)%Q) by field. set (m := ((a + b) / 2)%Q) in *. clearbody m. lra.
Qed.

Lemma rebin_edges_nth arr edges : rebin_edges arr = Ok edges ->
  2 <= List.length arr /\ List.length edges = S (List.length arr) /\
  forall i e, nth_error edges i = Some e ->
    (i = 0 /\ exists a b, nth_error arr 0 = Some a /\ nth_error arr 1 = Some b /\ e = (a - (b - a))%Q) \/
    (0 < i < List.length arr /\ exists a b, nth_error arr (i - 1) = Some a /\ nth_error arr i = Some b /\ e = ((a + b) / 2)%Q) \/
    (i = List.length arr /\ exists a b, nth_error arr (i - 2) = Some a /\ nth_error arr (i - 1) = Some b /\ e = (b + (b - a))%Q).
Proof.
  unfold rebin_edges. destruct (nth_error arr 0) as [a0|] eqn:E0; [|discriminate]. destruct (nth_error arr 1) as [a1|] eqn:E1; [|discriminate].
  destruct (nth_error arr (List.length arr - 1)) as [al|] eqn:El; [|discriminate].
  destruct (nth_error arr (List.length arr - 2)) as [ap|] eqn:Ep; [|discriminate].
  intros H. assert (He : edges = (a0 - (a1 - a0))%Q :: midpoints arr ++ [(al + (al - ap))%Q]) by congruence. subst edges. clear H.
  pose proof (nth_error_Some_lt _ _ _ E1) as H2. split; [lia|].
  pose proof (midpoints_length arr) as Hm.
  split; [cbn [List.length]; rewrite app_length, Hm; cbn [List.length]; lia|].
  intros i e Hi. destruct i as [|i].
  - left. split; [reflexivity|]. exists a0, a1. cbn [nth_error] in Hi. split; [reflexivity|]. split; [reflexivity|]. congruence.
  - right. cbn [nth_error] in Hi. destruct (Nat.lt_ge_cases i (List.length arr - 1)) as [Hlt|Hge].
    + left. split; [lia|]. rewrite nth_error_app1 in Hi by lia. rewrite nth_error_midpoints in Hi.
      replace (S i - 1) with i by lia. destruct (nth_error arr i) as [a|]; [|discriminate]. destruct (nth_error arr (S i)) as [b|]; [|discriminate].
      exists a, b. split; [reflexivity|]. split; [reflexivity|]. congruence.
    + right. rewrite nth_error_app2 in Hi by lia. rewrite Hm in Hi.
      destruct (i - (List.length arr - 1)) as [|k] eqn:Ek; [|destruct k; discriminate].
      assert (Hil : S i = List.length arr) by lia. split; [exact Hil|]. exists ap, al. rewrite Hil.
      split; [exact Ep|]. split; [exact El|]. cbn [nth_error] in Hi. congruence.
Qed.

Lemma rebin_edges_increasing arr edges : rebin_edges arr = Ok edges -> strictly_increasing arr ->
  strictly_increasing edges /\
  forall i a lo hi, nth_error arr i = Some a -> nth_error edges i = Some lo -> nth_error edges (S i) = Some hi -> (lo < a /\ a < hi)%Q.
Proof.
  intros He Hs. destruct (rebin_edges_nth arr edges He) as (H2 & Hlen & Hnth). rewrite strictly_increasing_nth in Hs.
  assert (Hin : forall i a lo hi, nth_error arr i = Some a -> nth_error edges i = Some lo -> nth_error edges (S i) = Some hi -> (lo < a /\ a < hi)%Q).
  { intros i a lo hi Ha Hlo Hhi. pose proof (nth_error_Some_lt _ _ _ Ha) as Hi. split.
    - destruct (Hnth i lo Hlo) as [(-> & x & y & Hx & Hy & ->)|[(Hr & x & y & Hx & Hy & ->)|(-> & _)]]; [| |lia].
      + assert (x = a) by congruence. subst x. pose proof (Hs 0 1 a y ltac:(lia) Ha Hy). lra.
      + assert (y = a) by congruence. subst y. apply half_between. exact (Hs (i - 1) i x a ltac:(lia) Hx Ha).
    - destruct (Hnth (S i) hi Hhi) as [(Hc & _)|[(Hr & x & y & Hx & Hy & ->)|(Hr & x & y & Hx & Hy & ->)]]; [discriminate| |];
        rewrite Nat.sub_succ, Nat.sub_0_r in *.
      + assert (x = a) by congruence. subst x. apply half_between. exact (Hs i (S i) a y ltac:(lia) Ha Hy).
      + assert (y = a) by congruence. subst y. replace (S i - 2) with (i - 1) in Hx by lia.
        pose proof (Hs (i - 1) i x a ltac:(lia) Hx Ha). lra. }
  split; [|exact Hin].
  apply Sorted_StronglySorted; [intros x y z Hxy Hyz; lra|].
  assert (Hadj : forall i a b, nth_error edges i = Some a -> nth_error edges (S i) = Some b -> (a < b)%Q).
  { intros i a b Ha Hb. pose proof (nth_error_Some_lt _ _ _ Hb) as Hi. destruct (nth_error_lt_Some arr i) as [x Hx]; [lia|].
    destruct (Hin i x a b Hx Ha Hb). lra. }
  clear - Hadj. induction edges as [|a l IH]; constructor.
  - apply IH. intros i x y Hx Hy. apply (Hadj (S i)); assumption.
  - destruct l as [|b l]; constructor. apply (Hadj 0); reflexivity.
Qed.

Lemma window_spec edges data i d x : nth_error data d = Some x ->
  (nth_error (window edges data i) d = Some true <->
   exists lo hi, nth_error edges i = Some lo /\ nth_error edges (S i) = Some hi /\ (lo <= x /\ x < hi)%Q).
Proof.
  intros Hd. unfold window. destruct (nth_error edges i) as [lo|], (nth_error edges (S i)) as [hi|].
  - unfold get_1d_indices. rewrite nth_error_map', Hd. cbn [option_map]. split.
    + intros H. assert (E : Qle_bool lo x && qlt x hi = true) by congruence. apply andb_true_iff in E as [A B].
      apply qle_iff in A. apply qlt_iff in B. exists lo, hi. auto.
    + intros (lo' & hi' & H1 & H2 & A & B). assert (lo' = lo) by congruence. assert (hi' = hi) by congruence. subst.
      f_equal. apply andb_true_iff. split; [apply qle_iff; exact A|apply qlt_iff; exact B].
  - split; [destruct d; discriminate|]. intros (lo' & hi' & H1 & H2 & _). discriminate.
  - split; [destruct d; discriminate|]. intros (lo' & hi' & H1 & H2 & _). discriminate.
  - split; [destruct d; discriminate|]. intros (lo' & hi' & H1 & H2 & _). discriminate.
Qed.

Lemma windows_partition edges data d x : strictly_increasing edges -> nth_error data d = Some x ->
  (forall i i', nth_error (window edges data i) d = Some true -> nth_error (window edges data i') d = Some true -> i = i') /\
  (forall first last, nth_error edges 0 = Some first -> nth_error edges (List.length edges - 1) = Some last ->
     (first <= x /\ x < last)%Q ->
     exists i, S i < List.length edges /\ nth_error (window edges data i) d = Some true).
Proof.
  intros Hs Hd. split.
  - intros i i' H H'. apply (window_spec edges data i d x Hd) in H as (lo & hi & A & B & C & D).
    apply (window_spec edges data i' d x Hd) in H' as (lo' & hi' & A' & B' & C' & D').
    pose proof (ascending_nth edges (strictly_ascending edges Hs)) as Hm.
    destruct (lt_eq_lt_dec i i') as [[Hc|Hc]|Hc]; [|exact Hc|]; exfalso.
    + pose proof (Hm (S i) i' hi lo' ltac:(lia) B A'). lra.
    + pose proof (Hm (S i') i hi' lo ltac:(lia) B' A). lra.
  - intros first last Hf Hl [A B]. set (k := searchsorted_right edges x).
    pose proof (strictly_ascending edges Hs) as Ha. pose proof (ss_right_le edges x) as Hk. fold k in Hk.
    assert (Hk0 : 0 < k).
    { destruct (Nat.eq_0_gt_0_cases k) as [H0|]; [|assumption]. exfalso.
      pose proof (ss_right_after edges x Ha 0 first ltac:(fold k; lia) Hf). lra. }
    assert (Hkl : k < List.length edges).
    { destruct (Nat.lt_ge_cases k (List.length edges)); [assumption|]. exfalso.
      pose proof (nth_error_Some_lt _ _ _ Hl). 
      pose proof (ss_right_before edges x (List.length edges - 1) last ltac:(fold k; lia) Hl). lra. }
    exists (k - 1). split; [lia|]. apply (window_spec edges data (k - 1) d x Hd).
    destruct (nth_error_lt_Some edges (k - 1)) as [lo Hlo]; [lia|]. destruct (nth_error_lt_Some edges k) as [hi Hhi]; [lia|].
    exists lo, hi. split; [exact Hlo|]. split; [replace (S (k - 1)) with k by lia; exact Hhi|]. split.
    + apply (ss_right_before edges x (k - 1)); [fold k; lia|exact Hlo].
    + apply (ss_right_after edges x Ha k); [fold k; lia|exact Hhi].
Qed.

Lemma binvec_increasing x : 2 <= List.length x -> strictly_increasing x ->
  exists edges, binvec x = Ok edges /\ strictly_increasing edges /\ List.length edges = S (List.length x).
Proof.
  intros H2 Hs. destruct (binvec_ok x H2) as (lo & hi & (x0 & x1 & xp & xl & E0 & E1 & Ep & El & Hlo & Hhi) & E).
  exists (linspace lo hi (List.length x)). split; [exact E|]. split; [|apply linspace_length].
  rewrite strictly_increasing_nth in Hs.
  pose proof (Hs 0 1 x0 x1 ltac:(lia) E0 E1) as H01. pose proof (Hs (List.length x - 2) (List.length x - 1) xp xl ltac:(lia) Ep El) as Hpl.
  assert (H0l : (x0 < xl)%Q) by exact (Hs 0 (List.length x - 1) x0 xl ltac:(lia) E0 El).
  assert (D1 : (x1 - x0 == (x1 - x0) / 2 * 2)%Q) by field. assert (D2 : (xl - xp == (xl - xp) / 2 * 2)%Q) by field.
  set (d1 := ((x1 - x0) / 2)%Q) in *. set (d2 := ((xl - xp) / 2)%Q) in *.
  assert (Hlt : (lo < hi)%Q) by lra.
  assert (Hw : (0 < (hi - lo) / nat_q (List.length x))%Q).
  { apply Qlt_shift_div_l; [apply nat_q_pos; lia|]. lra. }
  rewrite strictly_increasing_nth. intros i j a b Hij Ha Hb.
  pose proof (nth_error_Some_lt _ _ _ Hb) as Hj. rewrite linspace_length in Hj.
  rewrite linspace_nth in Ha, Hb by lia. set (w := ((hi - lo) / nat_q (List.length x))%Q) in *.
  assert (a = (lo + nat_q i * w)%Q) by congruence. assert (b = (lo + nat_q j * w)%Q) by congruence. subst a b.
  assert (Hm : (nat_q i * w < nat_q j * w)%Q).
  { apply Qmult_lt_compat_r; [exact Hw|]. unfold nat_q. rewrite <- Zlt_Qlt. lia. }
  lra.
Qed.

(** ** The regular day grid *)
Lemma time_grid_day step n : (1 <= step)%Z -> (Z.of_nat n * step = 86400)%Z ->
  exists grid, time_grid step = Ok grid /\ List.length grid = n /\
    (forall i, i < n -> exists x, nth_error grid i = Some x /\ (x == (nat_q i + 1 / 2) * inject_Z step / 3600)%Q).
Proof.
  intros Hs Hn. destruct (time_grid_ok step Hs) as (grid & E & Hg). exists grid. split; [exact E|].
  assert (Hi : forall i, i < n <-> (Z.of_nat i * step < 86400)%Z) by (intros i; nia).
  split.
  - destruct (lt_eq_lt_dec (List.length grid) n) as [[Hc|Hc]|Hc]; [|exact Hc|]; exfalso.
    + assert (Hn2 : nth_error grid (List.length grid) = None) by (apply nth_error_None; lia).
      apply Hi in Hc. rewrite (proj2 (Hg _ _) (conj Hc eq_refl)) in Hn2. discriminate.
    + destruct (nth_error_lt_Some grid n Hc) as [x Hx]. apply Hg in Hx as [Hx _]. apply Hi in Hx. lia.
  - intros i Hlt. apply Hi in Hlt. eexists. split; [apply Hg; split; [exact Hlt|reflexivity]|].
    unfold nat_q. field.
Qed.
Lemma day_bins step n grid : (1 <= step)%Z -> (Z.of_nat n * step = 86400)%Z -> 2 <= n -> time_grid step = Ok grid ->
  exists edges, binvec grid = Ok edges /\ List.length edges = S n /\
    forall i, i <= n -> exists e, nth_error edges i = Some e /\ (e == nat_q i * inject_Z step / 3600)%Q.
Proof.
  intros Hs Hn H2 Eg. destruct (time_grid_day step n Hs Hn) as (grid' & E & Hl & Hg).
  assert (grid' = grid) by congruence. subst grid'.
  destruct (binvec_ok grid ltac:(lia)) as (lo & hi & (x0 & x1 & xp & xl & E0 & E1 & Ep & El & Hlo & Hhi) & Eb).
  rewrite Hl in *. exists (linspace lo hi n). split; [exact Eb|]. split; [apply linspace_length|].
  intros i Hi. eexists. split; [apply linspace_nth; exact Hi|].
  destruct (Hg 0 ltac:(lia)) as (y0 & F0 & Y0). destruct (Hg 1 ltac:(lia)) as (y1 & F1 & Y1).
  destruct (Hg (n - 2) ltac:(lia)) as (yp & Fp & Yp). destruct (Hg (n - 1) ltac:(lia)) as (yl & Fl & Yl).
  assert (y0 = x0) by congruence. assert (y1 = x1) by congruence. assert (yp = xp) by congruence. assert (yl = xl) by congruence. subst y0 y1 yp yl.
  assert (N1 : (nat_q (n - 1) == nat_q n - 1)%Q).
  { replace n with (S (n - 1)) at 2 by lia. rewrite nat_q_S. ring. }
  assert (N2 : (nat_q (n - 2) == nat_q n - 2)%Q).
  { replace (n - 1) with (S (n - 2)) in N1 by lia. rewrite nat_q_S in N1. lra. }
  assert (Hlo' : (lo == 0)%Q) by (rewrite Hlo, Y0, Y1; unfold nat_q; simpl; field).
  assert (Hhi' : (hi == nat_q n * inject_Z step / 3600)%Q) by (rewrite Hhi, Yl, Yp, N1, N2; field).
  rewrite Hlo', Hhi'. field. pose proof (nat_q_pos n ltac:(lia)). lra.
Qed.

(** ** Averages over windows *)
Definition valid_in_row (i : nat) (y_ind : list bool) (row : list (masked Q)) : list ((nat * nat) * Q) :=
  flat_map (fun p : nat * (bool * masked Q) => match snd (snd p) with Some v => if fst (snd p) then [((i, fst p), v)] else [] | None => [] end)
    (enumerate (combine y_ind row)).
Fixpoint valid_from (i : nat) (x_ind y_ind : list bool) (obs : image (masked Q)) : list ((nat * nat) * Q) :=
  match x_ind, obs with
  | b :: x, row :: r => (if b then valid_in_row i y_ind row else []) ++ valid_from (S i) x y_ind r
  | _, _ => []
  end.

Lemma valid_in_row_in i y_ind row k j v : In ((k, j), v) (valid_in_row i y_ind row) <->
  k = i /\ nth_error y_ind j = Some true /\ nth_error row j = Some (Some v).
Proof.
  unfold valid_in_row. rewrite in_flat_map. split.
  - intros ((j' & (b & m)) & Hin & H). simpl in H. destruct m as [w|]; [|destruct H]. destruct b; [|destruct H].
    destruct H as [H|[]]. injection H as -> -> ->. apply In_nth_error in Hin as [n Hn].
    rewrite nth_error_enumerate, nth_error_combine in Hn.
    destruct (nth_error y_ind n) as [b|] eqn:E1; [|discriminate]. destruct (nth_error row n) as [m|] eqn:E2; [|discriminate].
    simpl in Hn. injection Hn as -> -> ->. auto.
  - intros (-> & H1 & H2). exists (j, (true, Some v)). split; [|left; reflexivity].
    apply (nth_error_In _ j). rewrite nth_error_enumerate, nth_error_combine, H1, H2. reflexivity.
Qed.
Lemma valid_from_in x_ind y_ind obs : forall i0 k j v, In ((k, j), v) (valid_from i0 x_ind y_ind obs) <->
  i0 <= k /\ nth_error x_ind (k - i0) = Some true /\ nth_error y_ind j = Some true /\ pixel obs (k - i0) j = Some (Some v).
Proof.
  revert obs. induction x_ind as [|b x IH]; intros obs i0 k j v.
  - simpl. split; [tauto|]. intros (_ & H & _). destruct (k - i0); discriminate.
  - destruct obs as [|row r].
    + simpl. split; [tauto|]. intros (_ & _ & _ & H). unfold pixel in H. destruct (k - i0); discriminate.
    + cbn [valid_from]. rewrite in_app_iff, IH. destruct (Nat.eq_dec k i0) as [->|Hne].
      * rewrite Nat.sub_diag. cbn [nth_error pixel]. unfold pixel. cbn [nth_error]. split.
        -- intros [H|[H _]]; [|lia]. destruct b; [|destruct H]. apply valid_in_row_in in H as (_ & H1 & H2). auto.
        -- intros (_ & Hb & H1 & H2). left. injection Hb as ->. apply valid_in_row_in. auto.
      * split.
        -- intros [H|(H0 & H1 & H2 & H3)].
           ++ destruct b; [|destruct H]. apply valid_in_row_in in H as (-> & _). congruence.
           ++ replace (k - i0) with (S (k - S i0)) by lia. split; [lia|]. unfold pixel in *. cbn [nth_error]. auto.
        -- intros (H0 & H1 & H2 & H3). right. replace (k - i0) with (S (k - S i0)) in H1, H3 by lia.
           split; [lia|]. unfold pixel in *. cbn [nth_error] in *. auto.
Qed.

Lemma NoDup_app {A} (l1 l2 : list A) : NoDup l1 -> NoDup l2 -> (forall x, In x l1 -> ~ In x l2) -> NoDup (l1 ++ l2).
Proof.
  induction 1 as [|a l1 Ha Hl IH]; intros H2 H; simpl; [exact H2|]. constructor.
  - rewrite in_app_iff. intros [Hc|Hc]; [contradiction|]. apply (H a); [left; reflexivity|exact Hc].
  - apply IH; [exact H2|]. intros x Hx. apply H. right. exact Hx.
Qed.
Lemma valid_in_row_nodup i y_ind row : NoDup (map fst (valid_in_row i y_ind row)).
Proof.
  unfold valid_in_row, enumerate. generalize 0. revert row. induction y_ind as [|b y IH]; intros [|m row] n; simpl; try constructor.
  rewrite map_app. apply NoDup_app; [| apply IH|].
  - destruct m as [v|]; [destruct b|]; simpl; repeat constructor. intros [].
  - intros p Hp Hq. assert (E : snd p = n).
    { destruct m as [v|]; [destruct b|]; simpl in Hp; [destruct Hp as [<-|[]]; reflexivity|destruct Hp|destruct Hp]. }
    apply in_map_iff in Hq as ((p' & v) & E' & Hq). simpl in E'. subst p'.
    apply in_flat_map in Hq as ((j' & (b' & m')) & Hin & Hq). simpl in Hq.
    destruct m' as [w|]; [|destruct Hq]. destruct b'; [|destruct Hq]. destruct Hq as [Hq|[]]. injection Hq as <- _. simpl in E. subst j'.
    apply In_nth_error in Hin as [q Hq]. rewrite nth_error_enumerate_from in Hq.
    destruct (nth_error (combine y row) q); [|discriminate]. simpl in Hq. injection Hq as Hq _. lia.
Qed.
Lemma valid_from_nodup x_ind y_ind obs : forall i0, NoDup (map fst (valid_from i0 x_ind y_ind obs)).
Proof.
  revert obs. induction x_ind as [|b x IH]; intros [|row r] i0; simpl; try constructor.
  rewrite map_app. apply NoDup_app; [destruct b; [apply valid_in_row_nodup|constructor]|apply IH|].
  intros [k j] Hp Hq. apply in_map_iff in Hp as ((p & v) & E & Hp). simpl in E. subst p.
  apply in_map_iff in Hq as ((p & w) & E & Hq). simpl in E. subst p.
  destruct b; [|destruct Hp]. apply valid_in_row_in in Hp as (-> & _). apply valid_from_in in Hq as (H & _). lia.
Qed.

Lemma unmasked_app {A} (l1 l2 : list (masked A)) : unmasked (l1 ++ l2) = unmasked l1 ++ unmasked l2.
Proof. induction l1 as [|[v|] l1 IH]; simpl; [reflexivity|rewrite IH; reflexivity|exact IH]. Qed.
Lemma valid_in_row_values i y_ind row : map snd (valid_in_row i y_ind row) = unmasked (select y_ind row).
Proof.
  unfold valid_in_row, select, enumerate. generalize 0. revert row.
  induction y_ind as [|b y IH]; intros [|m row] n; simpl; try reflexivity.
  rewrite map_app, IH. destruct m as [v|], b; simpl; reflexivity.
Qed.
Lemma valid_from_values x_ind y_ind obs : forall i0, map snd (valid_from i0 x_ind y_ind obs) = unmasked (select_window x_ind y_ind obs).
Proof.
  revert obs. unfold select_window, select at 2. induction x_ind as [|b x IH]; intros [|row r] i0; simpl; try reflexivity.
  rewrite map_app, IH. destruct b; simpl; [|reflexivity]. rewrite unmasked_app, valid_in_row_values. reflexivity.
Qed.
Lemma total_sum l : total l = fold_right Qplus 0%Q (map snd l).
Proof. induction l as [|[p v] l IH]; simpl; congruence. Qed.

Lemma window_observations_exist x_ind y_ind obs :
  window_observations (fun i => nth_error x_ind i = Some true) (fun j => nth_error y_ind j = Some true) obs
    (valid_from 0 x_ind y_ind obs).
Proof.
  split; [apply valid_from_nodup|]. intros i j v. rewrite valid_from_in, Nat.sub_0_r. split.
  - intros (_ & A & B & C). auto.
  - intros (C & A & B). split; [lia|auto].
Qed.

Lemma regrid_product_ok x_ind y_ind obs :
  exists l, window_observations (fun i => nth_error x_ind i = Some true) (fun j => nth_error y_ind j = Some true) obs l /\
    (l = [] -> regrid_product x_ind y_ind obs = None) /\
    (l <> [] -> exists m, regrid_product x_ind y_ind obs = Some m /\ (m * nat_q (List.length l) == total l)%Q).
Proof.
  exists (valid_from 0 x_ind y_ind obs). split; [apply window_observations_exist|].
  unfold regrid_product, ma_stat. pose proof (valid_from_values x_ind y_ind obs 0) as E.
  set (l := valid_from 0 x_ind y_ind obs) in *. rewrite <- E. split.
  - intros ->. reflexivity.
  - intros Hne. destruct l as [|p r]; [congruence|]. cbn [map]. eexists. split; [reflexivity|].
    unfold mean. rewrite total_sum. cbn [map].
    replace (List.length (p :: r)) with (List.length (snd p :: map snd r)) by (simpl; rewrite map_length; reflexivity).
    change (inject_Z (Z.of_nat (List.length (snd p :: map snd r)))) with (nat_q (List.length (snd p :: map snd r))).
    field. pose proof (nat_q_pos (List.length (snd p :: map snd r)) ltac:(simpl; lia)). lra.
Qed.
Lemma regrid_cf_ok x_ind y_ind obs : (exists i, nth_error x_ind i = Some true) -> (exists j, nth_error y_ind j = Some true) ->
  regrid_cf x_ind y_ind obs = regrid_product x_ind y_ind obs.
Proof.
  intros [i Hi] [j Hj]. unfold regrid_cf.
  assert (E : forall l k, nth_error l k = Some true -> existsb (fun b : bool => b) l = true).
  { intros l k H. apply existsb_exists. exists true. split; [eapply nth_error_In; exact H|reflexivity]. }
  rewrite (E _ _ Hi), (E _ _ Hj). reflexivity.
Qed.

Lemma time_grid_day_full step n : (1 <= step)%Z -> (Z.of_nat n * step = 86400)%Z ->
  exists grid, time_grid step = Ok grid /\ List.length grid = n /\ strictly_increasing grid /\
    Forall (fun x => 0 < x /\ x < 24)%Q grid /\
    (forall i, i < n -> exists x, nth_error grid i = Some x /\ (x == (nat_q i + 1 / 2) * inject_Z step / 3600)%Q).
Proof.
  intros Hs Hn. destruct (time_grid_day step n Hs Hn) as (grid & E & Hl & Hg). exists grid.
  split; [exact E|]. split; [exact Hl|].
  assert (Hsp : (0 < inject_Z step)%Q) by (change 0%Q with (inject_Z 0); rewrite <- Zlt_Qlt; lia).
  set (w := (inject_Z step / 3600)%Q).
  assert (Hw : (inject_Z step == w * 3600)%Q) by (unfold w; field).
  assert (Hwp : (0 < w)%Q) by lra.
  assert (Hg' : forall i x, nth_error grid i = Some x -> i < n /\ (x == nat_q i * w + w / 2)%Q).
  { intros i x Hx. pose proof (nth_error_Some_lt _ _ _ Hx) as Hi. rewrite Hl in Hi. split; [exact Hi|].
    destruct (Hg i Hi) as (x' & Hx' & Hq). assert (x' = x) by congruence. subst x'. rewrite Hq. unfold w. field. }
  assert (Hh : (w == w / 2 * 2)%Q) by field. set (h := (w / 2)%Q) in *.
  assert (Htot : (nat_q n * w == 24)%Q).
  { assert (Hz : (nat_q n * inject_Z step == 86400)%Q).
    { unfold nat_q. rewrite <- inject_Z_mult, Hn. reflexivity. }
    unfold w. transitivity (nat_q n * inject_Z step / 3600)%Q; [field|]. rewrite Hz. reflexivity. }
  split; [|split; [|exact Hg]].
  - apply strictly_increasing_nth. intros i j a b Hij Ha Hb. apply Hg' in Ha as [_ Ha]. apply Hg' in Hb as [_ Hb].
    assert (Hm : (nat_q i * w < nat_q j * w)%Q).
    { apply Qmult_lt_compat_r; [exact Hwp|]. unfold nat_q. rewrite <- Zlt_Qlt. lia. } lra.
  - apply Forall_forall. intros x Hx. apply In_nth_error in Hx as [i Hi]. apply Hg' in Hi as [Hi Hq].
    assert (H0 : (0 <= nat_q i * w)%Q) by (apply Qmult_le_0_compat; [apply nat_q_nonneg|lra]).
    assert (H1 : ((nat_q i + 1) * w <= nat_q n * w)%Q).
    { apply Qmult_le_compat_r; [|lra]. rewrite <- nat_q_S. apply nat_q_le. lia. }
    assert (H2 : ((nat_q i + 1) * w == nat_q i * w + w)%Q) by ring. lra.
Qed.

Lemma rebin_edges_ok arr : 2 <= List.length arr -> strictly_increasing arr ->
  exists edges, rebin_edges arr = Ok edges /\ List.length edges = S (List.length arr) /\ strictly_increasing edges /\
  forall i a lo hi, nth_error arr i = Some a -> nth_error edges i = Some lo -> nth_error edges (S i) = Some hi ->
    (lo < a /\ a < hi)%Q.
Proof.
  intros H2 Hs. assert (exists edges, rebin_edges arr = Ok edges) as [edges E].
  { unfold rebin_edges. destruct (nth_error_lt_Some arr 0) as [a0 E0]; [lia|]. destruct (nth_error_lt_Some arr 1) as [a1 E1]; [lia|].
    destruct (nth_error_lt_Some arr (List.length arr - 1)) as [al El]; [lia|].
    destruct (nth_error_lt_Some arr (List.length arr - 2)) as [ap Ep]; [lia|]. rewrite E0, E1, El, Ep. eauto. }
  exists edges. split; [exact E|]. destruct (rebin_edges_nth arr edges E) as (_ & Hl & _). split; [exact Hl|].
  apply rebin_edges_increasing; assumption.
Qed.

Lemma add_location_ok {A} time (data : list A) time_new :
  ascending time -> time <> [] -> List.length data = List.length time ->
  exists out, add_location time data time_new = Ok out /\ List.length out = List.length time_new /\
    forall j t, nth_error time_new j = Some t -> exists i x,
      is_nearest time t i /\ nth_error data i = Some x /\ nth_error out j = Some x.
Proof.
  intros Ha Hne Hl.
  assert (Hb : Forall (fun i => i < List.length data) (map (closest_index time) time_new)).
  { apply Forall_forall. intros i Hi. apply in_map_iff in Hi as (t & <- & _). rewrite Hl.
    destruct (closest_index_nearest time t Ha Hne) as (g & Hg & _). eapply nth_error_Some_lt; exact Hg. }
  destruct (gather_rows_of data (map (closest_index time) time_new) Hb) as (out & E & [Hlen Hr]).
  exists out. assert (Hadd : add_location time data time_new = gather data (map (closest_index time) time_new)).
  { unfold add_location. destruct time; [congruence|reflexivity]. }
  split; [rewrite Hadd; exact E|]. split; [rewrite Hlen; apply map_length|].
  intros j t Hj. destruct (Hr j (closest_index time t)) as (x & H1 & H2); [rewrite nth_error_map', Hj; reflexivity|].
  exists (closest_index time t), x. split; [apply closest_index_nearest; assumption|auto].
Qed.
