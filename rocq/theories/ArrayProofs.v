From Verif Require Import Base ArrayModel ArraySpec.
From Coq Require Import Lqa Qabs.
Open Scope nat_scope.

(** ** Generic lemmas on the primitives *)
Lemma enumerate_from_length {A} (l : list A) : forall i, length (enumerate_from i l) = length l.
Proof. induction l; intros i; simpl; auto. Qed.

Lemma nth_error_enumerate_from {A} (l : list A) : forall s i,
  nth_error (enumerate_from s l) i = option_map (fun x => (s + i, x)) (nth_error l i).
Proof.
  induction l as [|a l IH]; intros s [|i]; simpl; auto.
  - rewrite Nat.add_0_r. reflexivity.
  - rewrite IH. destruct (nth_error l i); simpl; [do 2 f_equal; lia|reflexivity].
Qed.

Lemma map2_length {A B C} (f : A -> B -> C) l1 : forall l2,
  length (map2 f l1 l2) = Nat.min (length l1) (length l2).
Proof. induction l1; intros [|y l2]; simpl; auto. Qed.

Lemma nth_error_map2 {A B C} (f : A -> B -> C) l1 : forall l2 i,
  nth_error (map2 f l1 l2) i =
  match nth_error l1 i, nth_error l2 i with Some x, Some y => Some (f x y) | _, _ => None end.
Proof.
  induction l1 as [|x l1 IH]; intros [|y l2] [|i]; simpl; auto.
  destruct (nth_error l1 i); reflexivity.
Qed.

Lemma nth_error_combine {A B} (l1 : list A) : forall (l2 : list B) i,
  nth_error (combine l1 l2) i =
  match nth_error l1 i, nth_error l2 i with Some x, Some y => Some (x, y) | _, _ => None end.
Proof.
  induction l1 as [|x l1 IH]; intros [|y l2] [|i]; simpl; auto.
  destruct (nth_error l1 i); reflexivity.
Qed.

Lemma gather_ok {A} (l : list A) idx :
  Forall (fun i => i < length l) idx ->
  exists out, gather l idx = Ok out /\ length out = length idx /\
    forall i, nth_error out i = match nth_error idx i with Some k => nth_error l k | None => None end.
Proof.
  induction 1 as [|k idx Hk Hf IH]; simpl.
  - exists []. split; [reflexivity|]. split; [reflexivity|]. intros [|i]; reflexivity.
  - destruct (nth_error_lt_Some l k Hk) as [x Hx]. rewrite Hx.
    destruct IH as (out & E & Hl & Hn). rewrite E. simpl. exists (x :: out).
    split; [reflexivity|]. split; [simpl; lia|].
    intros [|i]; simpl; [symmetry; exact Hx|apply Hn].
Qed.

Lemma gather_inv {A} (l : list A) idx out :
  gather l idx = Ok out -> Forall (fun i => i < length l) idx.
Proof.
  revert out. induction idx as [|k idx IH]; intros out; simpl; [constructor|].
  destruct (nth_error l k) eqn:E; [|discriminate].
  destruct (gather l idx) as [o|] eqn:G; [|discriminate]. intros _.
  constructor; [eapply nth_error_Some_lt; exact E|]. eapply IH; reflexivity.
Qed.

(** ** Forward fill *)
Section FFill.
  Context {A : Type} (eqb : A -> A -> bool) (value : A).
  Hypothesis eqb_spec : forall a b, eqb a b = true <-> a = b.

  Lemma max_acc_from_length l : forall m, length (max_acc_from m l) = length l.
  Proof. induction l; intros m; simpl; auto. Qed.

  Lemma max_accumulate_0 l : max_accumulate l = max_acc_from 0 l.
  Proof. destruct l; reflexivity. Qed.

  Lemma max_acc_char l : forall s m i, m <= s -> i < length l ->
    exists k, nth_error (max_acc_from m
        (map (fun p => if eqb (snd p) value then 0 else fst p) (enumerate_from s l))) i = Some k /\
      ((exists j, last_valid value l i j /\ k = s + j) \/
       ((forall q, q <= i -> nth_error l q = Some value) /\ k = m)).
  Proof.
    induction l as [|a l IH]; intros s m i Hm Hi; [simpl in Hi; lia|].
    simpl. destruct (eqb a value) eqn:E.
    - apply eqb_spec in E. subst a. rewrite Nat.max_0_r. destruct i as [|i].
      + simpl. exists m. split; [reflexivity|]. right. split; [|reflexivity].
        intros q Hq. replace q with 0 by lia. reflexivity.
      + simpl. destruct (IH (S s) m i ltac:(lia) ltac:(simpl in Hi; lia)) as (k & Hk & Hc).
        exists k. split; [exact Hk|]. destruct Hc as [(j & (Hj1 & Hj2 & Hj3) & ->)|[Hall ->]].
        * left. exists (S j). split; [|lia]. split; [lia|]. split; [exact Hj2|].
          intros q Hq1 Hq2. destruct q; [lia|]. simpl. apply Hj3; lia.
        * right. split; [|reflexivity]. intros [|q] Hq; [reflexivity|]. simpl. apply Hall. lia.
    - assert (Ha : a <> value). { intros ->. apply not_true_iff_false in E. apply E. apply eqb_spec. reflexivity. }
      rewrite Nat.max_r by lia. destruct i as [|i].
      + simpl. exists s. split; [reflexivity|]. left. exists 0. split; [|lia].
        split; [lia|]. split; [exists a; split; [reflexivity|exact Ha]|]. intros; lia.
      + simpl. destruct (IH (S s) s i ltac:(lia) ltac:(simpl in Hi; lia)) as (k & Hk & Hc).
        exists k. split; [exact Hk|]. left. destruct Hc as [(j & (Hj1 & Hj2 & Hj3) & ->)|[Hall ->]].
        * exists (S j). split; [|lia]. split; [lia|]. split; [exact Hj2|].
          intros q Hq1 Hq2. destruct q; [lia|]. simpl. apply Hj3; lia.
        * exists 0. split; [|lia]. split; [lia|]. split; [exists a; split; [reflexivity|exact Ha]|].
          intros [|q] Hq1 Hq2; [lia|]. simpl. apply Hall. lia.
  Qed.

  Lemma ffill_idx_length l : length (ffill_idx eqb value l) = length l.
  Proof.
    unfold ffill_idx, enumerate. rewrite max_accumulate_0, max_acc_from_length, map_length.
    apply enumerate_from_length.
  Qed.

  Lemma ffill_idx_char l i : i < length l ->
    exists k, nth_error (ffill_idx eqb value l) i = Some k /\
      (last_valid value l i k \/ ((forall q, q <= i -> nth_error l q = Some value) /\ k = 0)).
  Proof.
    intros Hi. unfold ffill_idx, enumerate. rewrite max_accumulate_0.
    destruct (max_acc_char l 0 0 i (le_n _) Hi) as (k & Hk & [(j & Hj & ->)|Hc]).
    - exists j. split; [exact Hk|]. left. exact Hj.
    - exists k. split; [exact Hk|]. right. exact Hc.
  Qed.

  Lemma ffill_ok l : exists out, ffill eqb value l = Ok out /\ ffill_spec value l out.
  Proof.
    assert (Hb : Forall (fun i => i < length l) (ffill_idx eqb value l)).
    { apply Forall_forall. intros k Hk. apply In_nth_error in Hk as [i Hi].
      pose proof (nth_error_Some_lt _ _ _ Hi) as Hlt. rewrite ffill_idx_length in Hlt.
      destruct (ffill_idx_char l i Hlt) as (k' & Hk' & [(Hl1 & _ & _)|[_ ->]]);
        rewrite Hi in Hk'; injection Hk' as ->; lia. }
    destruct (gather_ok l _ Hb) as (out & E & Hlen & Hn).
    exists out. split; [exact E|]. split; [rewrite Hlen; apply ffill_idx_length|].
    intros i x. rewrite Hn. split.
    - intros H. destruct (nth_error (ffill_idx eqb value l) i) as [k|] eqn:Ek; [|discriminate].
      pose proof (nth_error_Some_lt _ _ _ Ek) as Hlt. rewrite ffill_idx_length in Hlt.
      destruct (ffill_idx_char l i Hlt) as (k' & Hk' & Hc).
      rewrite Ek in Hk'. injection Hk' as <-. destruct Hc as [Hc|[Hall ->]].
      + left. exists k. auto.
      + right. rewrite (Hall 0) in H by lia. injection H as <-. auto.
    - intros H.
      assert (Hlt : i < length l) by (destruct H as [(j & _ & _ & H)|(_ & H & _)]; exact H).
      destruct (ffill_idx_char l i Hlt) as (k & Hk & Hc). rewrite Hk.
      destruct H as [(j & Hj & Hx & _)|(-> & _ & Hall)], Hc as [Hc|[Hall' ->]].
      + assert (j = k); [|subst; exact Hx].
        destruct Hj as (Hj1 & (xj & Hxj & Hnj) & Hj3), Hc as (Hk1 & (xk & Hxk & Hnk) & Hk3).
        destruct (Nat.lt_trichotomy j k) as [Hlt'|[->|Hlt']]; [|reflexivity|].
        * rewrite (Hj3 k Hlt' Hk1) in Hxk. congruence.
        * rewrite (Hk3 j Hlt' Hj1) in Hxj. congruence.
      + destruct Hj as (Hj1 & (xj & Hxj & Hnj) & _). rewrite Hall' in Hxj by lia. congruence.
      + destruct Hc as (Hk1 & (xk & Hxk & Hnk) & _). rewrite Hall in Hxk by lia. congruence.
      + apply Hall. lia.
  Qed.

  Lemma ffill_total l : exists out, ffill eqb value l = Ok out.
  Proof. destruct (ffill_ok l) as (out & E & _). eauto. Qed.

  Lemma ffill_list_spec l : ffill_spec value l (ffill_list eqb value l).
  Proof. unfold ffill_list. destruct (ffill_ok l) as (out & E & H). rewrite E. exact H. Qed.
End FFill.

Lemma beqb_spec a b : Bool.eqb a b = true <-> a = b.
Proof. apply Bool.eqb_true_iff. Qed.

Lemma ffill_bool_length l : length (ffill_bool l) = length l.
Proof. apply (ffill_list_spec Bool.eqb false beqb_spec l). Qed.

(** Boolean forward fill: true exactly at or above a true entry. *)
Lemma ffill_bool_true l i :
  nth_error (ffill_bool l) i = Some true <->
  i < length l /\ exists j, j <= i /\ nth_error l j = Some true.
Proof.
  destruct (ffill_list_spec Bool.eqb false beqb_spec l) as [_ H]. unfold ffill_bool.
  rewrite H. split.
  - intros [(j & (Hj1 & _) & Hx & Hi)|(Hd & _)]; [|discriminate].
    split; [exact Hi|]. eauto.
  - intros (Hi & j0 & Hj0 & Hx0). left.
    (* the last true position up to i *)
    assert (Hex : exists j, j <= i /\ nth_error l j = Some true /\
      forall k, j < k -> k <= i -> nth_error l k = Some false).
    { clear H. induction i as [|i IH].
      - exists 0. replace j0 with 0 in Hx0 by lia. split; [lia|]. split; [exact Hx0|]. intros; lia.
      - destruct (nth_error_lt_Some l (S i) Hi) as [[] Hs].
        + exists (S i). split; [lia|]. split; [exact Hs|]. intros; lia.
        + assert (j0 <> S i) by (intros ->; congruence).
          destruct (IH ltac:(lia) ltac:(lia)) as (j & Hj1 & Hj2 & Hj3).
          exists j. split; [lia|]. split; [exact Hj2|]. intros k Hk1 Hk2.
          destruct (Nat.eq_dec k (S i)) as [->|]; [exact Hs|]. apply Hj3; lia. }
    destruct Hex as (j & Hj1 & Hj2 & Hj3). exists j. split; [|auto].
    split; [exact Hj1|]. split; [|exact Hj3]. exists true. split; [exact Hj2|discriminate].
Qed.

(** ** cumsumr *)
Lemma cumsum_from_length l : forall s, length (cumsum_from s l) = length l.
Proof. induction l; intros s; simpl; auto. Qed.
Lemma qmax_acc_from_length l : forall m, length (qmax_acc_from m l) = length l.
Proof. induction l; intros s; simpl; auto. Qed.

(** Running sum reset at zeros, the recursive reference. *)
Fixpoint reset_sum (acc : Q) (l : list Q) : list Q :=
  match l with
  | [] => []
  | x :: r => let acc' := if Qeq_bool x 0 then 0%Q else (acc + x)%Q in acc' :: reset_sum acc' r
  end.

Definition qeql := Forall2 Qeq.

Lemma qmax_r a b : (a <= b)%Q -> (qmax a b == b)%Q.
Proof.
  intros H. unfold qmax. destruct (Qle_bool a b) eqn:E; [reflexivity|].
  apply Qle_bool_iff in H. congruence.
Qed.
Lemma qmax_l a b : (b <= a)%Q -> (qmax a b == a)%Q.
Proof.
  intros H. unfold qmax. destruct (Qle_bool a b) eqn:E; [|reflexivity].
  apply Qle_bool_iff in E. lra.
Qed.

Lemma cumsumr_aux l : forall s m acc, (0 <= m)%Q -> (m <= s)%Q -> (s - m == acc)%Q ->
  Forall (fun x => 0 <= x)%Q l ->
  let cums := cumsum_from s l in
  let reset := map2 (fun c x => (c * (if Qeq_bool x 0 then 1 else 0))%Q) cums l in
  qeql (map2 (fun c m => (c - m)%Q) cums (qmax_acc_from m reset)) (reset_sum acc l).
Proof.
  induction l as [|x l IH]; intros s m acc Hm Hms Hacc Hf; simpl; [constructor|].
  inversion Hf as [|? ? Hx Hf']; subst.
  destruct (Qeq_bool x 0) eqn:E.
  - apply Qeq_bool_iff in E.
    assert (Hq : (qmax m ((s + x) * 1) == s + x)%Q).
    { rewrite qmax_r; [ring|]. lra. }
    constructor; [rewrite Hq; ring|].
    apply IH; [rewrite Hq; lra|rewrite Hq; lra|rewrite Hq; ring|exact Hf'].
  - assert (Hq : (qmax m ((s + x) * 0) == m)%Q).
    { rewrite qmax_l; [reflexivity|]. lra. }
    constructor; [rewrite Hq; lra|].
    apply IH; [rewrite Hq; lra|rewrite Hq; lra|rewrite Hq; lra|exact Hf'].
Qed.

Lemma cumsumr_reset_sum l : Forall (fun x => 0 <= x)%Q l -> qeql (cumsumr l) (reset_sum 0 l).
Proof.
  intros Hf. destruct l as [|x l]; [constructor|].
  pose proof (cumsumr_aux (x :: l) 0 0 0 ltac:(lra) ltac:(lra) ltac:(reflexivity) Hf) as H.
  cbv zeta in H. unfold cumsumr, cumsum.
  inversion Hf as [|? ? Hx Hf']; subst.
  simpl in *.
  set (r0 := ((0 + x) * (if Qeq_bool x 0 then 1 else 0))%Q) in *.
  (* qmax 0 r0 is r0 up to Qeq *)
  assert (Hr0 : (0 <= r0)%Q).
  { subst r0. destruct (Qeq_bool x 0); lra. }
  assert (Hq : qmax 0 r0 = r0).
  { unfold qmax. apply Qle_bool_iff in Hr0. rewrite Hr0. reflexivity. }
  rewrite Hq in H. exact H.
Qed.

Lemma reset_sum_length l : forall acc, length (reset_sum acc l) = length l.
Proof. induction l; intros acc; simpl; auto. Qed.

Lemma qeql_length l1 l2 : qeql l1 l2 -> length l1 = length l2.
Proof. induction 1; simpl; auto. Qed.

Lemma qeql_nth l1 l2 i x : qeql l1 l2 -> nth_error l1 i = Some x ->
  exists y, nth_error l2 i = Some y /\ (x == y)%Q.
Proof.
  intros H. revert i. induction H as [|a b l1 l2 Hab Hl IH]; intros [|i]; simpl; try discriminate.
  - intros [= <-]. eauto.
  - apply IH.
Qed.

Lemma reset_sum_spec l : forall acc i y s, nth_error (reset_sum acc l) i = Some y -> since_zero l i s ->
  (y == qsum (slice s (S i) l) + (if Nat.eqb s 0 then acc else 0))%Q.
Proof.
  induction l as [|x l IH]; intros acc [|i] y s H Hs; simpl in H; try discriminate.
  - injection H as <-. destruct Hs as (Hs1 & Hs2 & Hs3).
    destruct s as [|[|s]]; [| |lia].
    + unfold slice. simpl. destruct (Qeq_bool x 0) eqn:E.
      * apply Qeq_bool_iff in E. exfalso. apply (Hs2 0 x); auto.
      * ring.
    + unfold slice. simpl. destruct Hs3 as [|(z & Hz & Hz0)]; [lia|]. simpl in Hz. injection Hz as <-.
      apply Qeq_bool_iff in Hz0. rewrite Hz0. ring.
  - destruct Hs as (Hs1 & Hs2 & Hs3). destruct s as [|s].
    + destruct (Qeq_bool x 0) eqn:E.
      * apply Qeq_bool_iff in E. exfalso. apply (Hs2 0 x); auto; lia.
      * rewrite (IH (acc + x)%Q i y 0 H).
        -- unfold slice. simpl. ring.
        -- split; [lia|]. split; [|left; reflexivity]. intros k z Hk1 Hk2 Hz. apply (Hs2 (S k) z); auto; lia.
    + destruct s as [|s].
      * destruct Hs3 as [|(z & Hz & Hz0)]; [lia|]. simpl in Hz. injection Hz as <-.
        apply Qeq_bool_iff in Hz0. rewrite Hz0 in H.
        rewrite (IH 0%Q i y 0 H).
        -- unfold slice. simpl. ring.
        -- split; [lia|]. split; [|left; reflexivity]. intros k z Hk1 Hk2 Hz. apply (Hs2 (S k) z); auto; lia.
      * rewrite (IH _ i y (S s) H).
        -- unfold slice. simpl. ring.
        -- split; [lia|]. split.
           ++ intros k z Hk1 Hk2 Hz. apply (Hs2 (S k) z); auto; lia.
           ++ destruct Hs3 as [|(z & Hz & Hz0)]; [lia|]. right. exists z.
              replace (S (S s) - 1) with (S s) in Hz by lia. simpl in Hz.
              replace (S s - 1) with s by lia. auto.
Qed.

Lemma cumsumr_correct l : Forall (fun x => 0 <= x)%Q l -> cumsumr_spec l (cumsumr l).
Proof.
  intros Hf. pose proof (cumsumr_reset_sum l Hf) as H. split.
  - rewrite (qeql_length _ _ H). apply reset_sum_length.
  - intros i y s Hy Hs. destruct (qeql_nth _ _ _ _ H Hy) as (z & Hz & Hyz). rewrite Hyz.
    rewrite (reset_sum_spec l 0 i z s Hz Hs). destruct (Nat.eqb s 0); ring.
Qed.

(** Every position has such an [s], so the specification determines the output. *)
Lemma since_zero_exists l i : i < length l -> exists s, since_zero l i s.
Proof.
  induction i as [|i IH]; intros Hi.
  - destruct (nth_error_lt_Some l 0 Hi) as [x Hx]. destruct (Qeq_dec x 0) as [E|E].
    + exists 1. split; [lia|]. split; [intros; lia|]. right. exists x. auto.
    + exists 0. split; [lia|]. split; [|left; reflexivity]. intros k z Hk1 Hk2 Hz.
      replace k with 0 in Hz by lia. congruence.
  - destruct (nth_error_lt_Some l (S i) Hi) as [x Hx]. destruct (Qeq_dec x 0) as [E|E].
    + exists (S (S i)). split; [lia|]. split; [intros; lia|]. right. exists x.
      replace (S (S i) - 1) with (S i) by lia. auto.
    + destruct (IH ltac:(lia)) as (s & Hs1 & Hs2 & Hs3). exists s. split; [lia|]. split; [|exact Hs3].
      intros k z Hk1 Hk2 Hz. destruct (Nat.eq_dec k (S i)) as [->|]; [congruence|]. apply (Hs2 k z); auto; lia.
Qed.

(** ** Cloud bases and tops *)
Fixpoint bases_from (prev : bool) (row : list bool) : list bool :=
  match row with [] => [] | b :: r => (b && negb prev) :: bases_from b r end.
Definition hd_true (row : list bool) : bool := match row with true :: _ => true | _ => false end.
Fixpoint tops_from (row : list bool) : list bool :=
  match row with [] => [] | b :: r => (b && negb (hd_true r)) :: tops_from r end.

Lemma diff_is_one_bases row : forall prev, diff_is_one (Z.b2z prev) row = bases_from prev row.
Proof.
  induction row as [|b r IH]; intros prev; simpl; [reflexivity|]. rewrite IH.
  f_equal. destruct b, prev; reflexivity.
Qed.
Lemma find_cloud_bases_row_eq row : find_cloud_bases_row row = bases_from false row.
Proof. apply (diff_is_one_bases row false). Qed.

Lemma last_cons {A} (l : list A) : forall a d, last (a :: l) d = last l a.
Proof.
  induction l as [|b l IH]; intros a d; [reflexivity|].
  change (last (b :: l) d = last (b :: l) a). rewrite !IH. reflexivity.
Qed.

Lemma bases_from_app l1 l2 : forall prev,
  bases_from prev (l1 ++ l2) = bases_from prev l1 ++ bases_from (last l1 prev) l2.
Proof.
  induction l1 as [|a l1 IH]; intros prev; [reflexivity|].
  rewrite last_cons. simpl. rewrite IH. reflexivity.
Qed.

Lemma last_rev_hd (r : list bool) : last (rev r) false = hd_true r.
Proof.
  destruct r as [|b r]; [reflexivity|]. simpl. rewrite last_last. destruct b; reflexivity.
Qed.

Lemma find_cloud_tops_row_eq row : find_cloud_tops_row row = tops_from row.
Proof.
  unfold find_cloud_tops_row. rewrite find_cloud_bases_row_eq.
  induction row as [|b r IH]; [reflexivity|]. simpl.
  rewrite bases_from_app, rev_app_distr. simpl. rewrite last_rev_hd, IH. reflexivity.
Qed.

(** Runs with an optional open run. *)
Fixpoint runs_from (j : nat) (open : option nat) (row : list bool) : list (nat * nat) :=
  match row with
  | [] => match open with Some b => [(b, j - 1)] | None => [] end
  | true :: r => runs_from (S j) (Some (match open with Some b => b | None => j end)) r
  | false :: r => match open with Some b => [(b, j - 1)] | None => [] end ++ runs_from (S j) None r
  end.

Lemma runs_fst row : forall j,
  map fst (runs_from j None row) = where_from j (bases_from false row) /\
  forall b, map fst (runs_from j (Some b) row) = b :: where_from j (bases_from true row).
Proof.
  induction row as [|x r IH]; intros j; simpl; [auto|].
  destruct (IH (S j)) as [H1 H2]. destruct x; simpl.
  - split; [rewrite H2; reflexivity|]. intros b. rewrite H2. reflexivity.
  - split; [exact H1|]. intros b. rewrite H1. reflexivity.
Qed.

Lemma runs_snd row : forall j,
  map snd (runs_from j None row) = where_from j (tops_from row) /\
  forall b, map snd (runs_from j (Some b) row) =
    (if hd_true row then [] else [j - 1]) ++ where_from j (tops_from row).
Proof.
  induction row as [|x r IH]; intros j; simpl; [auto|].
  destruct (IH (S j)) as [H1 H2]. destruct x; simpl.
  - split.
    + rewrite H2. destruct (hd_true r); simpl; [reflexivity|]. rewrite Nat.sub_0_r. reflexivity.
    + intros b. rewrite H2. destruct (hd_true r); simpl; [reflexivity|]. rewrite Nat.sub_0_r. reflexivity.
  - split; [exact H1|]. intros b. rewrite H1. reflexivity.
Qed.

Definition runs (row : list bool) := runs_from 0 None row.

Lemma where1_bases row : where1 (find_cloud_bases_row row) = map fst (runs row).
Proof. unfold where1. rewrite find_cloud_bases_row_eq. symmetry. apply runs_fst. Qed.
Lemma where1_tops row : where1 (find_cloud_tops_row row) = map snd (runs row).
Proof. unfold where1. rewrite find_cloud_tops_row_eq. symmetry. apply runs_snd. Qed.

(** Characterisation of the runs relative to the whole profile: prefix [pre] of
    length [j] already scanned. *)
Lemma runs_from_spec row : forall pre open,
  (match open with
   | None => pre = [] \/ exists p', pre = p' ++ [false]
   | Some b => b < length pre /\ (forall k, b <= k -> k < length pre -> nth_error pre k = Some true)
               /\ (b = 0 \/ nth_error pre (b - 1) = Some false)
   end) ->
  forall b t, In (b, t) (runs_from (length pre) open row) ->
  max_run (pre ++ row) b t /\ (match open with None => length pre <= b | Some b0 => b0 <= b end).
Proof.
  induction row as [|x r IH]; intros pre open Hinv b t Hin.
  - simpl in Hin. rewrite app_nil_r. destruct open as [b0|]; [|contradiction].
    destruct Hin as [[= <- <-]|[]]. destruct Hinv as (H1 & H2 & H3).
    split; [|lia]. split; [lia|]. split; [intros k Hk1 Hk2; apply H2; lia|].
    split; [exact H3|]. right. lia.
  - assert (Hlen : S (length pre) = length (pre ++ [x])) by (rewrite app_length; simpl; lia).
    assert (Happ : pre ++ x :: r = (pre ++ [x]) ++ r) by (rewrite <- app_assoc; reflexivity).
    assert (Hx : nth_error (pre ++ [x]) (length pre) = Some x).
    { rewrite nth_error_app2 by lia. rewrite Nat.sub_diag. reflexivity. }
    destruct x; simpl in Hin.
    + rewrite Hlen in Hin. rewrite Happ.
      apply IH in Hin.
      * destruct Hin as [Hr Hb]. split; [exact Hr|]. destruct open; lia.
      * destruct open as [b0|].
        -- destruct Hinv as (H1 & H2 & H3). split; [lia|]. split.
           ++ intros k Hk1 Hk2. destruct (Nat.eq_dec k (length pre)) as [->|]; [exact Hx|].
              rewrite nth_error_app1 by lia. apply H2; lia.
           ++ destruct H3 as [|H3]; [left; assumption|]. right. rewrite nth_error_app1 by lia. exact H3.
        -- split; [lia|]. split.
           ++ intros k Hk1 Hk2. replace k with (length pre) by lia. exact Hx.
           ++ destruct Hinv as [->|[p' ->]]; [left; reflexivity|]. right.
              rewrite app_length. simpl. replace (length p' + 1 - 1) with (length p') by lia.
              rewrite nth_error_app1 by (rewrite app_length; simpl; lia).
              rewrite nth_error_app2 by lia. rewrite Nat.sub_diag. reflexivity.
    + apply in_app_or in Hin as [Hin|Hin].
      * destruct open as [b0|]; [|contradiction]. destruct Hin as [[= <- <-]|[]].
        destruct Hinv as (H1 & H2 & H3). split; [|lia]. rewrite Happ.
        split; [lia|]. split.
        -- intros k Hk1 Hk2. rewrite nth_error_app1 by (rewrite app_length; simpl; lia).
           rewrite nth_error_app1 by lia. apply H2; lia.
        -- split.
           ++ destruct H3 as [|H3]; [left; assumption|]. right.
              rewrite nth_error_app1 by (rewrite app_length; simpl; lia).
              rewrite nth_error_app1 by lia. exact H3.
           ++ left. replace (S (length pre - 1)) with (length pre) by lia.
              rewrite nth_error_app1 by (rewrite app_length; simpl; lia). exact Hx.
      * rewrite Hlen in Hin. rewrite Happ. apply IH in Hin.
        -- destruct Hin as [Hr Hb]. split; [exact Hr|]. destruct open; [destruct Hinv|]; lia.
        -- right. exists pre. reflexivity.
Qed.

Lemma runs_max_run row b t : In (b, t) (runs row) -> max_run row b t.
Proof. intros H. apply (runs_from_spec row [] None) in H; [apply H|left; reflexivity]. Qed.

Lemma nth_error_cons_shift {A} (l : list A) j k : j < k -> nth_error l (k - j) = nth_error (skipn 1 l) (k - S j).
Proof. intros H. destruct l; replace (k - j) with (S (k - S j)) by lia; [destruct (k - S j)|]; reflexivity. Qed.

(** Every set pixel belongs to some run. *)
Lemma runs_cover_aux row : forall j open k,
  match open with Some b => b < j | None => True end ->
  (j <= k /\ nth_error row (k - j) = Some true) \/
  (match open with Some b => b <= k /\ k < j | None => False end) ->
  exists b t, In (b, t) (runs_from j open row) /\ b <= k /\ k <= t.
Proof.
  induction row as [|x r IH]; intros j open k Ho H.
  - destruct H as [[_ H]|H]; [destruct (k - j); discriminate|].
    destruct open as [b|]; [|contradiction]. exists b, (j - 1). simpl. split; [auto|lia].
  - destruct x; simpl.
    + apply IH; [destruct open; lia|]. destruct H as [[Hk Hn]|H].
      * destruct (Nat.eq_dec j k) as [->|].
        -- right. destruct open; lia.
        -- left. split; [lia|]. rewrite nth_error_cons_shift in Hn by lia. exact Hn.
      * right. destruct open; [lia|contradiction].
    + destruct H as [[Hk Hn]|H].
      * destruct (Nat.eq_dec j k) as [->|]; [rewrite Nat.sub_diag in Hn; discriminate|].
        destruct (IH (S j) None k I) as (b & t & Hin & Hb).
        -- left. split; [lia|]. rewrite nth_error_cons_shift in Hn by lia. exact Hn.
        -- exists b, t. split; [apply in_or_app; right; exact Hin|exact Hb].
      * destruct open as [b|]; [|contradiction]. exists b, (j - 1). split; [|lia].
        apply in_or_app. left. left. reflexivity.
Qed.

Lemma runs_cover row k : nth_error row k = Some true ->
  exists b t, In (b, t) (runs row) /\ b <= k /\ k <= t.
Proof. intros H. apply runs_cover_aux; [exact I|]. left. rewrite Nat.sub_0_r. split; [lia|exact H]. Qed.

(** Runs come in increasing order with a gap: top < next base. *)
Lemma runs_from_ordered row : forall j open,
  match open with Some b => b < j | None => True end ->
  Forall (fun p => match open with Some b => b <= fst p | None => j <= fst p end) (runs_from j open row) /\
  Forall (fun p => fst p <= snd p) (runs_from j open row) /\
  StronglySorted (fun p q => S (snd p) < fst q) (runs_from j open row).
Proof.
  induction row as [|x r IH]; intros j open Ho; simpl.
  - destruct open as [b|]; simpl; repeat constructor; simpl; lia.
  - destruct x.
    + destruct (IH (S j) (Some (match open with Some b => b | None => j end))) as (H1 & H2 & H3);
        [destruct open; lia|].
      split; [|split; assumption]. eapply Forall_impl; [|exact H1]. simpl. intros p Hp. destruct open; lia.
    + destruct (IH (S j) None I) as (H1 & H2 & H3). destruct open as [b|]; simpl.
      * split; [|split].
        -- constructor; [simpl; lia|]. eapply Forall_impl; [|exact H1]. simpl; intros; lia.
        -- constructor; [simpl; lia|exact H2].
        -- constructor; [exact H3|]. eapply Forall_impl; [|exact H1]. simpl; intros; lia.
      * split; [|split; assumption]. eapply Forall_impl; [|exact H1]. simpl; intros; lia.
Qed.

Lemma runs_ordered row : StronglySorted (fun p q => S (snd p) < fst q) (runs row).
Proof. apply (runs_from_ordered row 0 None I). Qed.

(** Image level: the zipped layers. *)
Fixpoint layers_from (i : nat) (m : image bool) : list ((nat * nat) * (nat * nat)) :=
  match m with
  | [] => []
  | r :: rest => map (fun p => ((i, fst p), (i, snd p))) (runs r) ++ layers_from (S i) rest
  end.

Lemma where2_layers m : forall i,
  where2_from i (find_cloud_bases m) = map fst (layers_from i m) /\
  where2_from i (find_cloud_tops m) = map snd (layers_from i m).
Proof.
  induction m as [|r rest IH]; intros i; simpl; [auto|].
  destruct (IH (S i)) as [H1 H2]. unfold find_cloud_bases, find_cloud_tops in *. rewrite H1, H2, !map_app.
  rewrite where1_bases, where1_tops, !map_map. auto.
Qed.

Lemma combine_fst_snd {A B} (l : list (A * B)) : combine (map fst l) (map snd l) = l.
Proof. induction l as [|[a b] l IH]; simpl; [reflexivity|]. rewrite IH. reflexivity. Qed.

Lemma zip_layers_eq m : zip_layers m = Ok (layers_from 0 m).
Proof.
  unfold zip_layers, where2. destruct (where2_layers m 0) as [-> ->].
  rewrite !map_length, Nat.eqb_refl. f_equal. apply combine_fst_snd.
Qed.

Lemma in_layers m : forall i0 bi b ti t, In ((bi, b), (ti, t)) (layers_from i0 m) <->
  bi = ti /\ i0 <= bi /\ exists row, nth_error m (bi - i0) = Some row /\ In (b, t) (runs row).
Proof.
  induction m as [|r rest IH]; intros i0 bi b ti t; simpl.
  - split; [contradiction|]. intros (_ & _ & row & H & _). destruct (bi - i0); discriminate.
  - rewrite in_app_iff, IH, in_map_iff. split.
    + intros [([b' t'] & Heq & Hin)|(-> & Hle & row & Hr & Hin)].
      * simpl in Heq. injection Heq as <- <- <- <-. split; [reflexivity|]. split; [lia|].
        exists r. rewrite Nat.sub_diag. auto.
      * split; [reflexivity|]. split; [lia|]. exists row. split; [|exact Hin].
        replace (ti - i0) with (S (ti - S i0)) by lia. exact Hr.
    + intros (-> & Hle & row & Hr & Hin). destruct (Nat.eq_dec i0 ti) as [->|].
      * left. rewrite Nat.sub_diag in Hr. injection Hr as <-. exists (b, t). auto.
      * right. split; [reflexivity|]. split; [lia|]. exists row. split; [|exact Hin].
        replace (ti - i0) with (S (ti - S i0)) in Hr by lia. exact Hr.
Qed.

(** Lexicographic order of the layers. *)
Definition layer_before (p q : (nat * nat) * (nat * nat)) : Prop :=
  fst (fst p) < fst (fst q) \/ (fst (fst p) = fst (fst q) /\ S (snd (snd p)) < snd (fst q)).
Lemma StronglySorted_map {A B} (f : A -> B) (P : A -> A -> Prop) (R : B -> B -> Prop) l :
  (forall x y, P x y -> R (f x) (f y)) -> StronglySorted P l -> StronglySorted R (map f l).
Proof.
  intros H. induction 1 as [|a l Hs IH Hf]; simpl; constructor; [exact IH|].
  apply Forall_forall. intros y Hy. apply in_map_iff in Hy as (x & <- & Hx). apply H.
  rewrite Forall_forall in Hf. auto.
Qed.
Lemma StronglySorted_app {A} (R : A -> A -> Prop) l1 l2 :
  StronglySorted R l1 -> StronglySorted R l2 -> (forall x y, In x l1 -> In y l2 -> R x y) ->
  StronglySorted R (l1 ++ l2).
Proof.
  induction 1 as [|a l Hs IH Hf]; simpl; intros H2 H; [exact H2|]. constructor.
  - apply IH; [exact H2|]. intros; apply H; auto.
  - apply Forall_app. split; [exact Hf|]. apply Forall_forall. intros y Hy. apply H; auto.
Qed.
Lemma layers_sorted m : forall i, StronglySorted layer_before (layers_from i m).
Proof.
  induction m as [|r rest IH]; intros i; simpl; [constructor|].
  apply StronglySorted_app; [|apply IH|].
  - eapply StronglySorted_map; [|apply runs_ordered]. intros p q H. right. simpl. auto.
  - intros x [[yi yb] [yti yt]] Hx Hy. apply in_map_iff in Hx as (p & <- & _).
    apply in_layers in Hy as (_ & Hle & _). left. simpl. lia.
Qed.

(** ** Lowest base and highest top *)
Lemma first_true_spec l :
  match first_true l with
  | Some i => nth_error l i = Some true /\ forall k, k < i -> nth_error l k = Some false
  | None => forall k, k < length l -> nth_error l k = Some false
  end.
Proof.
  induction l as [|b l IH]; simpl; [intros; lia|]. destruct b.
  - split; [reflexivity|intros; lia].
  - destruct (first_true l) as [i|]; simpl.
    + destruct IH as [H1 H2]. split; [exact H1|]. intros [|k] Hk; [reflexivity|]. apply H2; lia.
    + intros [|k] Hk; [reflexivity|]. apply IH; lia.
Qed.

Lemma find_lowest_height_row_spec l : l <> [] ->
  exists r, find_lowest_height_row l = Ok r /\
  match r with
  | Some h => exists i, nth_error l i = Some h /\ ~ (h == 0)%Q /\
                forall k x, k < i -> nth_error l k = Some x -> (x == 0)%Q
  | None => forall k x, nth_error l k = Some x -> (x == 0)%Q
  end.
Proof.
  intros Hne. unfold find_lowest_height_row, argmax_bool.
  set (f := fun h => negb (Qeq_bool h 0)). destruct l as [|a l]; [congruence|].
  cbn [map]. pose proof (first_true_spec (map f (a :: l))) as H. cbn [map] in H.
  assert (Hz : forall x, f x = false -> (x == 0)%Q).
  { intros x. subst f. cbv beta. rewrite negb_false_iff. apply Qeq_bool_iff. }
  destruct (first_true (f a :: map f l)) as [i|].
  - destruct H as [H1 H2]. cbn [bind].
    change (f a :: map f l) with (map f (a :: l)) in H1, H2.
    rewrite nth_error_map' in H1. destruct (nth_error (a :: l) i) as [h|] eqn:E; [|discriminate].
    simpl in H1. injection H1 as H1. unfold f in H1. apply negb_true_iff in H1. rewrite H1.
    eexists. split; [reflexivity|]. exists i. split; [exact E|]. split.
    + intros Hc. apply Qeq_bool_iff in Hc. congruence.
    + intros k x Hk Hx. apply Hz. specialize (H2 k Hk). rewrite nth_error_map', Hx in H2.
      simpl in H2. congruence.
  - cbn [bind nth_error].
    change (f a :: map f l) with (map f (a :: l)) in H.
    assert (Hall : forall k x, nth_error (a :: l) k = Some x -> (x == 0)%Q).
    { intros k x Hx. apply Hz. pose proof (nth_error_Some_lt _ _ _ Hx) as Hlt.
      specialize (H k ltac:(rewrite map_length; exact Hlt)). rewrite nth_error_map', Hx in H.
      simpl in H. congruence. }
    assert (Ha : Qeq_bool a 0 = true) by (apply Qeq_bool_iff; apply (Hall 0); reflexivity).
    rewrite Ha. eexists. split; [reflexivity|]. exact Hall.
Qed.

Lemma nth_error_rev {A} (l : list A) i : i < length l ->
  nth_error (rev l) i = nth_error l (length l - 1 - i).
Proof.
  revert i. induction l as [|a l IH]; intros i Hi; simpl in *; [lia|].
  destruct (Nat.lt_ge_cases i (length l)) as [Hlt|Hge].
  - rewrite nth_error_app1 by (rewrite rev_length; exact Hlt). rewrite IH by exact Hlt.
    replace (length l - 0 - i) with (S (length l - 1 - i)) by lia. reflexivity.
  - rewrite nth_error_app2 by (rewrite rev_length; exact Hge). rewrite rev_length.
    replace (i - length l) with 0 by lia. replace (length l - 0 - i) with 0 by lia. reflexivity.
Qed.

Section Heights.
  Variables (mask : list bool) (height : list Q).
  Hypothesis Hlen : length mask = length height.
  Hypothesis Hpos : Forall (fun h => 0 < h)%Q height.

  Lemma cloud_heights_zero k x : nth_error (cloud_heights_row mask height) k = Some x ->
    ((x == 0)%Q <-> nth_error mask k = Some false).
  Proof.
    unfold cloud_heights_row. rewrite nth_error_map2.
    destruct (nth_error mask k) as [b|]; [|discriminate].
    destruct (nth_error height k) as [h|] eqn:Eh; [|discriminate]. intros [= <-].
    assert (0 < h)%Q by (rewrite Forall_forall in Hpos; apply Hpos; eapply nth_error_In; exact Eh).
    destruct b; split; intros H0; try congruence; try lra; try (exfalso; lra).
  Qed.
  Lemma cloud_heights_len : length (cloud_heights_row mask height) = length mask.
  Proof. unfold cloud_heights_row. rewrite map2_length. lia. Qed.

  Definition lowest_spec (r : masked Q) : Prop :=
    match r with
    | Some h => exists i hi, nth_error mask i = Some true /\ nth_error height i = Some hi /\ (h == hi)%Q
        /\ forall k, k < i -> nth_error mask k = Some false
    | None => forall k, k < length mask -> nth_error mask k = Some false
    end.
  Definition highest_spec (r : masked Q) : Prop :=
    match r with
    | Some h => exists i hi, nth_error mask i = Some true /\ nth_error height i = Some hi /\ (h == hi)%Q
        /\ forall k, i < k -> k < length mask -> nth_error mask k = Some false
    | None => forall k, k < length mask -> nth_error mask k = Some false
    end.

  Lemma mask_of_nonzero k x : nth_error (cloud_heights_row mask height) k = Some x ->
    ~ (x == 0)%Q -> nth_error mask k = Some true /\ exists hi, nth_error height k = Some hi /\ (x == hi)%Q.
  Proof.
    intros Hx Hn. assert (Hm : nth_error mask k <> Some false).
    { intros Hm. apply Hn. apply (cloud_heights_zero k x Hx). exact Hm. }
    unfold cloud_heights_row in Hx. rewrite nth_error_map2 in Hx.
    destruct (nth_error mask k) as [[]|]; try congruence.
    destruct (nth_error height k) as [h|]; [|discriminate]. injection Hx as <-.
    split; [reflexivity|]. exists h. split; [reflexivity|]. ring.
  Qed.

  Lemma find_lowest_correct : mask <> [] ->
    exists r, find_lowest_cloud_base mask height = Ok r /\ lowest_spec r.
  Proof.
    intros Hne. unfold find_lowest_cloud_base.
    destruct (find_lowest_height_row_spec (cloud_heights_row mask height)) as (r & E & H).
    { intros Hc. apply (f_equal (@length Q)) in Hc. rewrite cloud_heights_len in Hc. destruct mask; [congruence|discriminate]. }
    exists r. split; [exact E|]. destruct r as [h|]; simpl.
    - destruct H as (i & Hi & Hn & Hk). destruct (mask_of_nonzero i h Hi Hn) as (Hm & hi & Hh & Hq).
      exists i, hi. split; [exact Hm|]. split; [exact Hh|]. split; [exact Hq|].
      intros k Hlt. pose proof (nth_error_Some_lt _ _ _ Hi) as Hil.
      destruct (nth_error_lt_Some (cloud_heights_row mask height) k ltac:(lia)) as [x Hx].
      apply (cloud_heights_zero k x Hx). eapply Hk; eauto.
    - intros k Hk. destruct (nth_error_lt_Some (cloud_heights_row mask height) k) as [x Hx];
        [rewrite cloud_heights_len; exact Hk|]. apply (cloud_heights_zero k x Hx). eapply H; eauto.
  Qed.

  Lemma find_highest_correct : mask <> [] ->
    exists r, find_highest_cloud_top mask height = Ok r /\ highest_spec r.
  Proof.
    intros Hne. unfold find_highest_cloud_top.
    set (ch := cloud_heights_row mask height).
    assert (Hl : length ch = length mask) by apply cloud_heights_len.
    destruct (find_lowest_height_row_spec (rev ch)) as (r & E & H).
    { intros Hc. apply (f_equal (@length Q)) in Hc. rewrite rev_length, Hl in Hc. destruct mask; [congruence|discriminate]. }
    exists r. split; [exact E|]. destruct r as [h|]; simpl.
    - destruct H as (i & Hi & Hn & Hk).
      pose proof (nth_error_Some_lt _ _ _ Hi) as Hil. rewrite rev_length in Hil.
      rewrite nth_error_rev in Hi by exact Hil.
      destruct (mask_of_nonzero _ h Hi Hn) as (Hm & hi & Hh & Hq).
      exists (length ch - 1 - i), hi. split; [exact Hm|]. split; [exact Hh|]. split; [exact Hq|].
      intros k Hlt Hkl. destruct (nth_error_lt_Some ch k ltac:(lia)) as [x Hx].
      apply (cloud_heights_zero k x Hx). apply (Hk (length ch - 1 - k) x); [lia|].
      rewrite nth_error_rev by lia. replace (length ch - 1 - (length ch - 1 - k)) with k by lia. exact Hx.
    - intros k Hk. destruct (nth_error_lt_Some ch k ltac:(lia)) as [x Hx].
      apply (cloud_heights_zero k x Hx). apply (H (length ch - 1 - k) x).
      rewrite nth_error_rev by lia. replace (length ch - 1 - (length ch - 1 - k)) with k by lia. exact Hx.
  Qed.
End Heights.

Definition increasing (l : list Q) : Prop :=
  forall i j x y, i < j -> nth_error l i = Some x -> nth_error l j = Some y -> (x < y)%Q.

Lemma lowest_le_highest mask height b t :
  increasing height -> lowest_spec mask height (Some b) -> highest_spec mask height (Some t) -> (b <= t)%Q.
Proof.
  intros Hinc (i & hi & Hm & Hh & Hq & Hk) (j & hj & Hm' & Hh' & Hq' & Hk').
  rewrite Hq, Hq'. destruct (Nat.lt_trichotomy i j) as [Hlt|[->|Hlt]].
  - specialize (Hinc i j hi hj Hlt Hh Hh'). lra.
  - rewrite Hh in Hh'. injection Hh' as <-. lra.
  - rewrite Hk in Hm' by exact Hlt. discriminate.
Qed.

Lemma sequence_forall2 {A B} (f : A -> result B) (P : A -> B -> Prop) l :
  Forall (fun x => exists y, f x = Ok y /\ P x y) l ->
  exists out, sequence (map f l) = Ok out /\ Forall2 P l out.
Proof.
  induction 1 as [|x l (y & E & HP) Hl IH]; simpl.
  - exists []. auto.
  - destruct IH as (out & Eo & Ho). rewrite E, Eo. simpl. exists (y :: out). auto.
Qed.

Lemma base_and_top_correct cloud_mask height :
  height <> [] -> Forall (fun h => 0 < h)%Q height -> increasing height ->
  Forall (fun r => length r = length height) cloud_mask ->
  exists bases tops, base_and_top cloud_mask height = Ok (bases, tops) /\
    Forall2 (fun row b => lowest_spec row height b) cloud_mask bases /\
    Forall2 (fun row t => highest_spec row height t) cloud_mask tops.
Proof.
  intros Hne Hpos Hinc Hlen. unfold base_and_top.
  destruct (existsb (existsb (fun b : bool => b)) cloud_mask) eqn:Ex; simpl.
  - assert (Hrows : forall r, In r cloud_mask -> length r = length height /\ r <> []).
    { intros r Hr. rewrite Forall_forall in Hlen. specialize (Hlen r Hr). split; [exact Hlen|].
      intros ->. destruct height; [congruence|discriminate]. }
    destruct (sequence_forall2 (fun r => find_lowest_cloud_base r height)
                (fun row b => lowest_spec row height b) cloud_mask) as (bases & Eb & Hb).
    { apply Forall_forall. intros r Hr. destruct (Hrows r Hr). apply find_lowest_correct; auto. }
    destruct (sequence_forall2 (fun r => find_highest_cloud_top r height)
                (fun row b => highest_spec row height b) cloud_mask) as (tops & Et & Ht).
    { apply Forall_forall. intros r Hr. destruct (Hrows r Hr). apply find_highest_correct; auto. }
    rewrite Eb. simpl. rewrite Et. simpl.
    assert (Hall : forallb (fun bt => match fst bt, snd bt with
                          | Some b, Some t => Qle_bool 0 (t - b) | _, _ => true end)
                   (combine bases tops) = true).
    { clear Eb Et Ex Hlen Hrows. revert tops Ht. induction Hb as [|row b rows bs Hrb Hbs IH]; intros tops Ht.
      - reflexivity.
      - inversion Ht as [|? t ? ts Hrt Hts]; subst. simpl. rewrite IH by exact Hts. rewrite andb_true_r.
        destruct b as [b|], t as [t|]; try reflexivity. apply Qle_bool_iff.
        pose proof (lowest_le_highest row height b t Hinc Hrb Hrt). lra. }
    rewrite Hall. exists bases, tops. auto.
  - do 2 eexists. split; [reflexivity|].
    assert (Hno : forall r, In r cloud_mask -> forall k, k < length r -> nth_error r k = Some false).
    { intros r Hr k Hk. destruct (nth_error_lt_Some r k Hk) as [[] Hx]; [|exact Hx]. exfalso.
      apply not_true_iff_false in Ex. apply Ex. apply existsb_exists. exists r. split; [exact Hr|].
      apply existsb_exists. exists true. split; [eapply nth_error_In; exact Hx|reflexivity]. }
    clear Ex Hlen. split.
    + induction cloud_mask as [|r rest IH]; simpl; constructor.
      * simpl. apply Hno. left. reflexivity.
      * apply IH. intros; apply Hno; auto. right; assumption.
    + induction cloud_mask as [|r rest IH]; simpl; constructor.
      * simpl. apply Hno. left. reflexivity.
      * apply IH. intros; apply Hno; auto. right; assumption.
Qed.

Lemma forall2_nth {A B} (P : A -> B -> Prop) l1 l2 : Forall2 P l1 l2 ->
  length l2 = length l1 /\
  forall i x, nth_error l1 i = Some x -> exists y, nth_error l2 i = Some y /\ P x y.
Proof.
  induction 1 as [|x y l1 l2 H Hs [IHl IH]]; simpl.
  - split; [reflexivity|]. intros [|i] z; discriminate.
  - split; [lia|]. intros [|i] z; simpl; [intros [= <-]; eauto|apply IH].
Qed.

Lemma ffill2_ok (A : Type) (eqb : A -> A -> bool) (value : A) :
  (forall a b, eqb a b = true <-> a = b) ->
  forall (m : image A), exists out, ffill2 eqb value m = Ok out /\ length out = length m /\
    forall i r r', nth_error m i = Some r -> nth_error out i = Some r' -> ffill_spec value r r'.
Proof.
  intros Heq m. unfold ffill2.
  destruct (sequence_forall2 (ffill eqb value) (ffill_spec value) m) as (out & E & H).
  { apply Forall_forall. intros r _. apply ffill_ok. exact Heq. }
  exists out. split; [exact E|]. destruct (forall2_nth _ _ _ H) as [Hl Hn]. split; [exact Hl|].
  intros i r r' Hr Hr'. destruct (Hn i r Hr) as (y & Hy & Hs). congruence.
Qed.

Lemma cumsumr_zero l i x y : Forall (fun x => 0 <= x)%Q l ->
  nth_error l i = Some x -> (x == 0)%Q -> nth_error (cumsumr l) i = Some y -> (y == 0)%Q.
Proof.
  intros Hl Hx Hz Hy. destruct (cumsumr_correct l Hl) as [_ H].
  rewrite (H i y (S i) Hy).
  - unfold slice. rewrite Nat.sub_diag. reflexivity.
  - split; [lia|]. split; [intros; lia|]. right. exists x. simpl. rewrite Nat.sub_0_r. auto.
Qed.

(** The pixels of a maximal run are found by the scan. *)
Lemma max_run_in_runs row b t : max_run row b t -> In (b, t) (runs row).
Proof.
  intros (Hle & Hin & Hb & Ht).
  destruct (runs_cover row b (Hin b ltac:(lia) Hle)) as (b' & t' & Hr & Hb' & Hb'').
  pose proof (runs_max_run row b' t' Hr) as (Hle' & Hin' & Hbb & Htt).
  assert (b' = b).
  { destruct Hb as [->|Hb]; [lia|]. destruct (Nat.eq_dec b' b) as [|Hne]; [assumption|].
    rewrite (Hin' (b - 1)) in Hb by lia. discriminate. }
  subst b'. assert (t' = t); [|subst; exact Hr].
  destruct (Nat.lt_trichotomy t' t) as [Hlt|[->|Hlt]]; [|reflexivity|].
  - destruct Htt as [Htt|Htt].
    + rewrite (Hin (S t')) in Htt by lia. discriminate.
    + pose proof (nth_error_Some_lt _ _ _ (Hin t Hle (le_n _))). lia.
  - destruct Ht as [Ht|Ht].
    + rewrite (Hin' (S t)) in Ht by lia. discriminate.
    + pose proof (nth_error_Some_lt _ _ _ (Hin' t' ltac:(lia) (le_n _))). lia.
Qed.

Lemma layers_exact (m : image bool) :
  exists layers, zip_layers m = Ok layers /\
    (forall bi b ti t, In ((bi, b), (ti, t)) layers <->
       bi = ti /\ exists row, nth_error m bi = Some row /\ max_run row b t) /\
    (forall i k, pixel m i k = Some true ->
       exists b t, In ((i, b), (i, t)) layers /\ b <= k <= t) /\
    StronglySorted (fun p q => let '((i, _), (_, t)) := p in let '((i', b'), _) := q in
       i < i' \/ (i = i' /\ S t < b')) layers.
Proof.
  exists (layers_from 0 m). split; [apply zip_layers_eq|]. split; [|split].
  - intros bi b ti t. rewrite in_layers, Nat.sub_0_r. split.
    + intros (-> & _ & row & Hr & Hrun). split; [reflexivity|]. exists row. split; [exact Hr|].
      apply runs_max_run. exact Hrun.
    + intros (-> & row & Hr & Hrun). split; [reflexivity|]. split; [lia|]. exists row. split; [exact Hr|].
      apply max_run_in_runs. exact Hrun.
  - intros i k Hk. unfold pixel in Hk. destruct (nth_error m i) as [row|] eqn:E; [|discriminate].
    destruct (runs_cover row k Hk) as (b & t & Hr & Hb). exists b, t. split; [|lia].
    apply in_layers. rewrite Nat.sub_0_r. split; [reflexivity|]. split; [lia|]. eauto.
  - pose proof (layers_sorted m 0) as H.
    induction H as [|p l Hs IH Hf]; constructor; [exact IH|].
    eapply Forall_impl; [|exact Hf]. intros [[i' b'] [ti' t']]. destruct p as [[i b] [ti t]].
    unfold layer_before. simpl. tauto.
Qed.

Lemma base_and_top_profile cloud_mask height :
  height <> [] -> Forall (fun h => 0 < h)%Q height -> increasing height ->
  Forall (fun r => length r = length height) cloud_mask ->
  exists bases tops, base_and_top cloud_mask height = Ok (bases, tops) /\
    length bases = length cloud_mask /\ length tops = length cloud_mask /\
    forall i row, nth_error cloud_mask i = Some row ->
      exists b t, nth_error bases i = Some b /\ nth_error tops i = Some t /\
        ((b = None /\ t = None /\ ~ In true row) \/
         exists kb kt hb ht b' t', b = Some b' /\ t = Some t' /\ kb <= kt /\
           nth_error row kb = Some true /\ nth_error row kt = Some true /\
           (forall k, nth_error row k = Some true -> kb <= k <= kt) /\
           nth_error height kb = Some hb /\ nth_error height kt = Some ht /\
           (b' == hb)%Q /\ (t' == ht)%Q /\ (b' <= t')%Q).
Proof.
  intros Hne Hpos Hinc Hlen. destruct (base_and_top_correct cloud_mask height Hne Hpos Hinc Hlen) as (bases & tops & E & Hb & Ht).
  destruct (forall2_nth _ _ _ Hb) as [Lb Nb]. destruct (forall2_nth _ _ _ Ht) as [Lt Nt].
  exists bases, tops. split; [exact E|]. split; [exact Lb|]. split; [exact Lt|].
  intros i row Hi. destruct (Nb i row Hi) as (b & Eb & Sb). destruct (Nt i row Hi) as (t & Et & St).
  exists b, t. split; [exact Eb|]. split; [exact Et|].
  assert (Hno : (forall k, k < length row -> nth_error row k = Some false) -> ~ In true row).
  { intros H Hc. apply In_nth_error in Hc as [k Hk]. pose proof (nth_error_Some_lt _ _ _ Hk).
    rewrite H in Hk by assumption. discriminate. }
  destruct b as [b'|], t as [t'|].
  - right. pose proof (lowest_le_highest row height b' t' Hinc Sb St) as Hle.
    destruct Sb as (kb & hb & Mb & Hhb & Qb & Kb). destruct St as (kt & ht & Mt & Hht & Qt & Kt).
    exists kb, kt, hb, ht, b', t'.
    assert (Hall : forall k, nth_error row k = Some true -> kb <= k <= kt).
    { intros k Hk. split.
      - destruct (Nat.lt_ge_cases k kb) as [Hl|]; [|assumption]. rewrite Kb in Hk by exact Hl. discriminate.
      - destruct (Nat.lt_ge_cases kt k) as [Hl|]; [|assumption].
        pose proof (nth_error_Some_lt _ _ _ Hk). rewrite Kt in Hk by assumption. discriminate. }
    repeat (split; [first [reflexivity|assumption|apply Hall; assumption]|]). exact Hle.
  - exfalso. destruct Sb as (kb & hb & Mb & _). pose proof (nth_error_Some_lt _ _ _ Mb).
    rewrite St in Mb by assumption. discriminate.
  - exfalso. destruct St as (kb & hb & Mb & _). pose proof (nth_error_Some_lt _ _ _ Mb).
    rewrite Sb in Mb by assumption. discriminate.
  - left. split; [reflexivity|]. split; [reflexivity|]. apply Hno. exact Sb.
Qed.
