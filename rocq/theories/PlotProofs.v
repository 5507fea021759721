(** Proofs about the numbers behind the figures. *)
From Coq Require Import List Bool Arith ZArith QArith Qround Qabs Sorted String Ascii Lia Lqa.
From Verif Require Import Base TimeModel GridModel ArrayModel DropletModel.
From Verif Require Import TimeSpec ArraySpec DropletSpec TimeProofs GridProofs ArrayProofs DropletProofs.
From Verif Require Import PlotModel PlotSpec.
Import ListNotations.
Open Scope string_scope. Open Scope nat_scope. Open Scope list_scope.
Local Notation length := List.length (only parsing).

(** ** The table *)

Lemma allowed_gap_spec ft time : ft <> "model" ->
  get_max_gap_in_minutes ft time = Ok (allowed_minutes ft).
Proof.
  intros H. unfold get_max_gap_in_minutes. apply String.eqb_neq in H. rewrite H.
  unfold allowed_minutes, max_allowed_gap. cbn [gap_lookup].
  repeat match goal with |- context [String.eqb ft ?x] =>
    lazymatch goal with
    | E : String.eqb ft x = _ |- _ => rewrite E
    | _ => let E := fresh "E" in destruct (String.eqb_spec ft x) as [E|E];
           [subst ft; reflexivity|apply String.eqb_neq in E]
    end end.
  reflexivity.
Qed.

(** ** Insertion of gaps *)

Section insertion.
Variable row : profile.
Let blank := [row; row].

Lemma where1_cons b l : where1 (b :: l) = (if b then [0] else []) ++ map S (where1 l).
Proof.
  unfold where1. cbn [where_from]. f_equal. generalize 0. induction l as [|x l IH]; intros j; [reflexivity|].
  cbn [where_from]. rewrite map_app, IH. destruct x; reflexivity.
Qed.

Lemma insert_at_S {A} i (xs : list A) x l : insert_at (S i) xs (x :: l) = x :: insert_at i xs l.
Proof. reflexivity. Qed.

Definition ins (time : list Q) (w : list nat) (st : arrays) : arrays :=
  fold_right (fun i s => insert_gap time blank s i) st w.

Lemma insert_gap_shift x time x' tn d dn i :
  insert_gap (x :: time) blank (x' :: tn, d :: dn) (S i)
  = (x' :: fst (insert_gap time blank (tn, dn) i), d :: snd (insert_gap time blank (tn, dn) i)).
Proof.
  unfold insert_gap. rewrite !insert_at_S. cbn [fst snd].
  replace (S (S i) - 1) with (S i) by lia. replace (S i - 1) with i by lia. reflexivity.
Qed.

Lemma ins_shift x time w : forall x' tn d dn,
  ins (x :: time) (map S w) (x' :: tn, d :: dn)
  = (x' :: fst (ins time w (tn, dn)), d :: snd (ins time w (tn, dn))).
Proof.
  induction w as [|i w IH]; intros; [reflexivity|]. cbn [map ins fold_right].
  fold (ins (x :: time) (map S w) (x' :: tn, d :: dn)). rewrite IH, insert_gap_shift.
  fold (ins time w (tn, dn)). destruct (ins time w (tn, dn)). reflexivity.
Qed.

Lemma ins_spec g : forall time data, time <> [] -> length time = length data ->
  exists out, ins time (where1 (map (fun d => qlt g d) (diffs time))) (time, data)
              = (map fst out, map snd out) /\ with_gaps g row (combine time data) out.
Proof.
  induction time as [|x time IH]; intros data Hne Hlen; [congruence|].
  destruct data as [|d data]; [discriminate|]. injection Hlen as Hlen.
  destruct time as [|y time].
  { destruct data; [|discriminate]. exists [(x, d)]. split; [reflexivity|constructor]. }
  destruct data as [|e data]; [discriminate|].
  destruct (IH (e :: data) ltac:(discriminate) Hlen) as (out & Ho & Hw).
  change (diffs (x :: y :: time)) with ((y - x)%Q :: diffs (y :: time)). cbn [map].
  rewrite where1_cons. unfold ins. rewrite fold_right_app. fold (ins (x :: y :: time)).
  match goal with |- context [fold_right ?f ?s (map S ?w)] =>
    change (fold_right f s (map S w)) with (ins (x :: y :: time) (map S w) s) end.
  rewrite ins_shift, Ho. cbn [fst snd]. destruct (qlt g (y - x)%Q) eqn:E.
  - apply qlt_iff in E. exists ((x, d) :: ((x + tick)%Q, row) :: ((y - tick)%Q, row) :: out).
    split; [reflexivity|]. apply WgGap; [exact E|exact Hw].
  - apply qlt_false in E. exists ((x, d) :: out). split; [reflexivity|]. apply WgClose; [exact E|exact Hw].
Qed.
End insertion.

Lemma insert_at_end {A} (xs l : list A) : insert_at (length l) xs l = l ++ xs.
Proof. unfold insert_at. rewrite firstn_all, skipn_all, app_nil_r. reflexivity. Qed.
Lemma insert_at_mid {A} (xs l r : list A) : insert_at (length l) xs (l ++ r) = l ++ xs ++ r.
Proof.
  unfold insert_at. rewrite firstn_app, Nat.sub_diag, firstn_all, skipn_app, Nat.sub_diag, skipn_all.
  cbn [firstn skipn]. rewrite app_nil_r. reflexivity.
Qed.

Lemma last_hd_error {A} (l : list A) d : l <> [] -> hd_error (rev l) = Some (last l d).
Proof.
  induction l as [|x l IH] using rev_ind; [congruence|]. intros _.
  rewrite rev_app_distr, last_last. reflexivity.
Qed.

Lemma fst_combine {A B} (l : list A) (l' : list B) : length l = length l' -> map fst (combine l l') = l.
Proof.
  revert l'. induction l as [|x l IH]; intros [|y l'] H; try discriminate; [reflexivity|].
  cbn. f_equal. apply IH. injection H as H. exact H.
Qed.
Lemma snd_combine {A B} (l : list A) (l' : list B) : length l = length l' -> map snd (combine l l') = l'.
Proof.
  revert l'. induction l as [|x l IH]; intros [|y l'] H; try discriminate; [reflexivity|].
  cbn. f_equal. apply IH. injection H as H. exact H.
Qed.

Lemma insert_gaps_spec g day_end time data : time <> [] -> length time = length data ->
  exists out, insert_gaps g 0 day_end time data = (map fst out, map snd out) /\
    marked g day_end (repeat None (length (hd [] data))) (combine time data) out.
Proof.
  intros Hne Hlen. set (row := repeat None (length (hd [] data)) : profile).
  destruct (ins_spec row g time data Hne Hlen) as (inner & Ho & Hw).
  unfold insert_gaps. fold row. change (repeat row 2) with [row; row].
  rewrite <- fold_left_rev_right, rev_involutive.
  match goal with |- context [fold_right ?f ?s ?w] => change (fold_right f s w) with (ins row time w s) end.
  rewrite Ho. cbn [fst snd].
  set (lead := if qlt g (hd 0%Q time - 0) then [(tick, row); ((hd 0 time - tick)%Q, row)] else []).
  set (trail := if qlt g (day_end - last time 0%Q) then [((last time 0 + tick)%Q, row); ((day_end - tick)%Q, row)] else []).
  exists (lead ++ inner ++ trail). split.
  - assert (Htail : forall mid, (if qlt g (day_end - last time 0%Q)
        then let ind_gap := length (map snd mid) in
          (insert_at ind_gap [(last time 0 + time_delta)%Q] (insert_at ind_gap [(day_end - time_delta)%Q] (map fst mid)),
           insert_at ind_gap [row; row] (map snd mid))
        else (map fst mid, map snd mid)) = (map fst (mid ++ trail), map snd (mid ++ trail))).
    { intros mid. unfold trail. cbv zeta. destruct (qlt g (day_end - last time 0%Q)).
      - rewrite (insert_at_end _ (map snd mid)).
        replace (length (map snd mid)) with (length (map fst mid)) by (rewrite !map_length; reflexivity).
        rewrite insert_at_end, insert_at_mid, !map_app. reflexivity.
      - rewrite app_nil_r. reflexivity. }
    rewrite app_assoc, <- Htail. unfold lead. destruct (qlt g (hd 0%Q time - 0)); reflexivity.
  - exists (hd 0%Q time), (last time 0%Q), lead, inner, trail.
    rewrite fst_combine by exact Hlen.
    split; [destruct time; [congruence|reflexivity]|].
    split; [apply last_hd_error; exact Hne|]. split; [exact Hw|]. split; [reflexivity|]. split.
    + unfold lead. destruct (qlt g (hd 0%Q time - 0)) eqn:E.
      * apply qlt_iff in E. right. split; [lra|reflexivity].
      * apply qlt_false in E. left. split; [lra|reflexivity].
    + unfold trail. destruct (qlt g (day_end - last time 0%Q)) eqn:E.
      * apply qlt_iff in E. right. split; [exact E|reflexivity].
      * apply qlt_false in E. left. split; [exact E|reflexivity].
Qed.

Lemma mark_gaps_errors ft day_end time data :
  (time = [] -> mark_gaps ft 0 day_end time data = Raise IndexError) /\
  (forall t0 r, time = t0 :: r -> (t0 < 0 \/ day_end < last time 0)%Q ->
    mark_gaps ft 0 day_end time data = Raise ValueError).
Proof.
  split; [intros ->; reflexivity|]. intros t0 r -> H. unfold mark_gaps.
  destruct (qlt t0 0 || qlt day_end (last (t0 :: r) 0%Q)) eqn:E; [reflexivity|].
  apply orb_false_iff in E as [E1 E2]. apply qlt_false in E1. apply qlt_false in E2.
  destruct H; lra.
Qed.

Lemma mark_gaps_in_range ft day_end time data : time <> [] ->
  (0 <= hd 0 time)%Q -> (last time 0 <= day_end)%Q ->
  mark_gaps ft 0 day_end time data =
  bind (get_max_gap_in_minutes ft time) (fun minutes =>
      bind (if String.eqb ft "model" then screen_completely_masked_profiles time data
            else Ok (Some (time, data))) (fun screened =>
      Ok (option_map (fun '(t, d) => insert_gaps (hours minutes) 0 day_end t d) screened))).
Proof.
  intros Hne H0 H1. unfold mark_gaps. destruct time as [|t0 r]; [congruence|].
  cbn [hd] in H0. apply qlt_false in H0, H1. rewrite H0, H1. reflexivity.
Qed.

Lemma mark_gaps_spec ft day_end time data : ft <> "model" -> time <> [] -> length time = length data ->
  (0 <= hd 0 time)%Q -> (last time 0 <= day_end)%Q ->
  exists out, mark_gaps ft 0 day_end time data = Ok (Some (map fst out, map snd out)) /\
    marked (hours (allowed_minutes ft)) day_end (repeat None (length (hd [] data))) (combine time data) out.
Proof.
  intros Hm Hne Hlen H0 H1. rewrite mark_gaps_in_range by assumption.
  rewrite allowed_gap_spec by exact Hm. apply String.eqb_neq in Hm. rewrite Hm. cbn [bind option_map].
  destruct (insert_gaps_spec (hours (allowed_minutes ft)) day_end time data Hne Hlen) as (out & Ho & Hs).
  exists out. rewrite Ho. auto.
Qed.

(** ** Consequences of [marked] *)

Section marked.
Context {A : Type} (g : Q) (blank : A).
Hypothesis Hg : (2 * tick < g)%Q.

Lemma with_gaps_head p l out : with_gaps g blank (p :: l) out -> exists out', out = p :: out'.
Proof. intros H. inversion H; subst; eauto. Qed.

Lemma with_gaps_ascending l out : with_gaps g blank l out -> ascending (map fst l) ->
  ascending (map fst out) /\ (forall m, Forall (fun t => m <= t)%Q (map fst l) -> Forall (fun t => m <= t)%Q (map fst out)) /\
  (forall m, Forall (fun t => t <= m)%Q (map fst l) -> Forall (fun t => t <= m)%Q (map fst out)).
Proof.
  induction 1 as [p|p q l out Hc Hw IH|p q l out Hc Hw IH]; intros Ha.
  - split; [exact Ha|]. split; auto.
  - cbn [map] in Ha. apply StronglySorted_inv in Ha as [Ha Hf].
    destruct (IH Ha) as (I1 & I2 & I3).
    destruct (with_gaps_head _ _ _ Hw) as [out' ->].
    cbn [map] in *. apply Forall_inv in Hf as Hpq.
    assert (Hq : Forall (fun t => fst q <= t)%Q (fst q :: map fst out')).
    { apply I2. constructor; [lra|]. apply StronglySorted_inv in Ha as [_ Ha].
      eapply Forall_impl; [|exact Ha]. cbn beta. intros; lra. }
    split; [|split].
    + constructor; [exact I1|]. eapply Forall_impl; [|exact Hq]. cbn beta. intros; lra.
    + intros m Hm. inversion Hm; subst. constructor; [assumption|]. apply I2. assumption.
    + intros m Hm. inversion Hm; subst. constructor; [assumption|]. apply I3. assumption.
  - cbn [map] in Ha. apply StronglySorted_inv in Ha as [Ha Hf].
    destruct (IH Ha) as (I1 & I2 & I3).
    destruct (with_gaps_head _ _ _ Hw) as [out' ->].
    cbn [map fst snd] in *. apply Forall_inv in Hf as Hpq.
    assert (Hq : Forall (fun t => fst q <= t)%Q (fst q :: map fst out')).
    { apply I2. constructor; [lra|]. apply StronglySorted_inv in Ha as [_ Ha].
      eapply Forall_impl; [|exact Ha]. cbn beta. intros; lra. }
    assert (Ht : (0 < tick)%Q) by reflexivity.
    split; [|split].
    + constructor; [constructor; [constructor; [exact I1|]|]|].
      * eapply Forall_impl; [|exact Hq]. cbn beta. intros; lra.
      * constructor; [lra|]. eapply Forall_impl; [|exact Hq]. cbn beta. intros; lra.
      * constructor; [lra|]. constructor; [lra|]. eapply Forall_impl; [|exact Hq]. cbn beta. intros; lra.
    + intros m Hm. inversion Hm as [|? ? Hm1 Hm2]; subst. constructor; [assumption|].
      constructor; [lra|]. constructor; [lra|]. apply I2. assumption.
    + intros m Hm. inversion Hm as [|? ? Hm1 Hm2]; subst. apply Forall_inv in Hm2 as Hm3.
      constructor; [assumption|].
      constructor; [lra|]. constructor; [lra|]. apply I3. assumption.
Qed.

Lemma ascending_app l1 l2 : ascending l1 -> ascending l2 ->
  (forall a b, In a l1 -> In b l2 -> (a < b)%Q) -> ascending (l1 ++ l2).
Proof.
  induction l1 as [|x l1 IH]; intros H1 H2 H; [exact H2|].
  apply StronglySorted_inv in H1 as [H1 Hf]. cbn [app]. constructor.
  - apply IH; [exact H1|exact H2|]. intros a b Ha Hb. apply H; [right; exact Ha|exact Hb].
  - apply Forall_app. split; [exact Hf|]. apply Forall_forall. intros b Hb. apply H; [left; reflexivity|exact Hb].
Qed.

Lemma ascending_bounds l m : ascending l -> hd_error l = Some m -> Forall (fun t => m <= t)%Q l.
Proof.
  intros Ha H. destruct l as [|x l]; [discriminate|]. injection H as ->.
  constructor; [lra|]. apply StronglySorted_inv in Ha as [_ Ha]. eapply Forall_impl; [|exact Ha]. cbn beta; intros; lra.
Qed.
Lemma ascending_last l m : ascending l -> hd_error (rev l) = Some m -> Forall (fun t => t <= m)%Q l.
Proof.
  intros Ha H. induction l as [|x l IH]; [constructor|].
  apply StronglySorted_inv in Ha as [Ha Hf]. destruct l as [|y l].
  { cbn in H. injection H as ->. constructor; [lra|constructor]. }
  assert (Hr : hd_error (rev (y :: l)) = Some m).
  { cbn [rev] in *. destruct (rev l) as [|z r]; cbn in *; exact H. }
  specialize (IH Ha Hr). constructor; [|exact IH].
  apply Forall_inv in IH, Hf. lra.
Qed.

Lemma marked_ascending day_end l out : marked g day_end blank l out -> ascending (map fst l) ->
  (forall t, In t (map fst l) -> 0 <= t <= day_end)%Q ->
  ascending (map fst out) /\ Forall (fun t => 0 <= t <= day_end)%Q (map fst out).
Proof.
  intros (first & last_ & lead & inner & trail & Hf & Hl & Hw & -> & Hlead & Htrail) Ha Hr.
  assert (Ht : (0 < tick)%Q) by reflexivity.
  destruct (with_gaps_ascending _ _ Hw Ha) as (I1 & I2 & I3).
  specialize (I2 first (ascending_bounds _ _ Ha Hf)). specialize (I3 last_ (ascending_last _ _ Ha Hl)).
  assert (Hfr : (0 <= first <= day_end)%Q).
  { apply Hr. destruct (map fst l); [discriminate|]. injection Hf as ->. left; reflexivity. }
  assert (Hlr : (0 <= last_ <= day_end)%Q).
  { apply Hr. apply in_rev. destruct (rev (map fst l)); [discriminate|]. injection Hl as ->. left; reflexivity. }
  rewrite !map_app.
  assert (HL : ascending (map fst lead) /\ Forall (fun t => 0 <= t /\ t < first)%Q (map fst lead)).
  { destruct Hlead as [[_ ->]|[Hgt ->]]; cbn [map fst]; [split; constructor|]. split.
    - constructor; [constructor; constructor|]. constructor; [lra|constructor].
    - constructor; [lra|]. constructor; [lra|constructor]. }
  assert (HT : ascending (map fst trail) /\ Forall (fun t => last_ < t /\ t <= day_end)%Q (map fst trail)).
  { destruct Htrail as [[_ ->]|[Hgt ->]]; cbn [map fst]; [split; constructor|]. split.
    - constructor; [constructor; constructor|]. constructor; [lra|constructor].
    - constructor; [lra|]. constructor; [lra|constructor]. }
  destruct HL as [HL1 HL2]. destruct HT as [HT1 HT2].
  assert (Hfl : (first <= last_)%Q).
  { assert (H := ascending_bounds _ _ Ha Hf). rewrite Forall_forall in H. apply H.
    apply in_rev. destruct (rev (map fst l)); [discriminate|]. injection Hl as ->. left; reflexivity. }
  rewrite Forall_forall in I2, I3, HL2, HT2. split.
  - apply ascending_app; [exact HL1| |].
    + apply ascending_app; [exact I1|exact HT1|]. intros a b Ha' Hb'. specialize (I3 _ Ha'). specialize (HT2 _ Hb'). lra.
    + intros a b Ha' Hb'. specialize (HL2 _ Ha'). apply in_app_or in Hb' as [Hb'|Hb'].
      * specialize (I2 _ Hb'). lra.
      * specialize (HT2 _ Hb'). lra.
  - apply Forall_forall. intros t Ht'. apply in_app_or in Ht' as [Ht'|Ht'].
    + specialize (HL2 _ Ht'). lra.
    + apply in_app_or in Ht' as [Ht'|Ht'].
      * specialize (I2 _ Ht'). specialize (I3 _ Ht'). lra.
      * specialize (HT2 _ Ht'). lra.
Qed.

Lemma subsequence_refl {B} (l : list B) : subsequence l l.
Proof. induction l; constructor; assumption. Qed.

Lemma with_gaps_kept l out : with_gaps g blank l out ->
  subsequence l out /\
  (forall p, In p out -> In p l \/ (snd p = blank /\ exists a b, In (a, b) (gaps_of g (map fst l)) /\ (a < fst p < b)%Q)).
Proof.
  assert (Ht : (0 < tick)%Q) by reflexivity.
  induction 1 as [p|p q l out Hc Hw [IH1 IH2]|p q l out Hc Hw [IH1 IH2]].
  - split; [apply subsequence_refl|]. intros p' H. left. exact H.
  - split; [constructor; exact IH1|]. intros p' [<-|H]; [left; left; reflexivity|].
    destruct (IH2 _ H) as [H'|(H1 & a & b & Hab & Hin)]; [left; right; exact H'|]. right.
    split; [exact H1|]. exists a, b. split; [|exact Hin]. cbn [map]. unfold gaps_of, neighbours. cbn [tl combine filter].
    match goal with |- context [if ?c then _ else _] => destruct c end; [right|]; exact Hab.
  - split; [constructor; do 2 apply SubSkip; exact IH1|].
    assert (Hn : In (fst p, fst q) (gaps_of g (map fst (p :: q :: l)))).
    { cbn [map]. unfold gaps_of, neighbours. cbn [tl combine filter snd fst].
      apply qlt_iff in Hc. unfold qlt in Hc. rewrite Hc. left. reflexivity. }
    intros p' [<-|[<-|[<-|H]]].
    + left; left; reflexivity.
    + right. split; [reflexivity|]. exists (fst p), (fst q). split; [exact Hn|]. cbn [fst]. lra.
    + right. split; [reflexivity|]. exists (fst p), (fst q). split; [exact Hn|]. cbn [fst]. lra.
    + destruct (IH2 _ H) as [H'|(H1 & a & b & Hab & Hin)]; [left; right; exact H'|]. right.
      split; [exact H1|]. exists a, b. split; [|exact Hin]. cbn [map]. unfold gaps_of, neighbours. cbn [tl combine filter].
      match goal with |- context [if ?c then _ else _] => destruct c end; [right|]; exact Hab.
Qed.

(** The intervals of the list with the ends of the axis. *)
Lemma neighbours_cons a b l : neighbours (a :: b :: l) = (a, b) :: neighbours (b :: l).
Proof. reflexivity. Qed.
Lemma neighbours_snoc l m : forall last_ e, hd_error (rev (m :: l)) = Some last_ ->
  neighbours (m :: l ++ [e]) = neighbours (m :: l) ++ [(last_, e)].
Proof.
  revert m. induction l as [|x l IH]; intros m last_ e H.
  - cbn in H. injection H as ->. reflexivity.
  - cbn [app]. rewrite !neighbours_cons. cbn [app]. f_equal. apply IH.
    cbn [rev] in *. destruct (rev l) as [|z r]; cbn in *; exact H.
Qed.

Lemma gaps_of_axis time first last_ day_end :
  hd_error time = Some first -> hd_error (rev time) = Some last_ ->
  gaps_of g (0%Q :: time ++ [day_end]) =
  (if qlt g (first - 0) then [(0%Q, first)] else []) ++ gaps_of g time
  ++ (if qlt g (day_end - last_) then [(last_, day_end)] else []).
Proof.
  intros Hf Hl. destruct time as [|t time]; [discriminate|]. injection Hf as ->.
  unfold gaps_of. cbn [app]. rewrite neighbours_cons, (neighbours_snoc _ _ last_) by exact Hl.
  cbn [filter fst snd]. fold (qlt g (first - 0)). rewrite filter_app. cbn [filter fst snd].
  fold (qlt g (day_end - last_)). destruct (qlt g (first - 0)); reflexivity.
Qed.

Lemma marked_kept day_end l out : marked g day_end blank l out ->
  subsequence l out /\
  (forall p, In p out -> In p l \/
    (snd p = blank /\ exists a b, In (a, b) (gaps_of g (0%Q :: map fst l ++ [day_end])) /\ (a < fst p < b)%Q)).
Proof.
  intros (first & last_ & lead & inner & trail & Hf & Hl & Hw & -> & Hlead & Htrail).
  assert (Ht : (0 < tick)%Q) by reflexivity.
  rewrite (gaps_of_axis _ _ _ _ Hf Hl). destruct (with_gaps_kept _ _ Hw) as [I1 I2]. split.
  - assert (Hpre : forall (a b c : list (Q * A)), subsequence a b -> subsequence a (c ++ b)).
    { intros a b c H. induction c; [exact H|]. constructor. exact IHc. }
    assert (Hpost : forall (a b c : list (Q * A)), subsequence a b -> subsequence a (b ++ c)).
    { intros a b c H. induction H; cbn [app]; try (constructor; assumption).
      induction c; constructor. exact IHc. }
    apply Hpre, Hpost. exact I1.
  - intros p Hp. apply in_app_or in Hp as [Hp|Hp].
    + destruct Hlead as [[_ ->]|[Hgt ->]]; [destruct Hp|]. right.
      assert (E : qlt g (first - 0) = true) by (apply qlt_iff; lra). rewrite E.
      destruct Hp as [<-|[<-|[]]]; (split; [reflexivity|]); exists 0%Q, first;
        (split; [left; reflexivity|cbn [fst]; lra]).
    + apply in_app_or in Hp as [Hp|Hp].
      * destruct (I2 _ Hp) as [H|(H & a & b & Hab & Hin)]; [left; exact H|]. right. split; [exact H|].
        exists a, b. split; [|exact Hin]. apply in_or_app. right. apply in_or_app. left. exact Hab.
      * destruct Htrail as [[_ ->]|[Hgt ->]]; [destruct Hp|]. right.
        assert (E : qlt g (day_end - last_) = true) by (apply qlt_iff; exact Hgt). rewrite E.
        destruct Hp as [<-|[<-|[]]]; (split; [reflexivity|]); exists last_, day_end;
          (split; [apply in_or_app; right; apply in_or_app; right; left; reflexivity|cbn [fst]; lra]).
Qed.

(** The hatched periods. *)
Definition ends (p : Q * Q) : list Q := [(fst p + tick)%Q; (snd p - tick)%Q].

Lemma with_gaps_times T l out : with_gaps g blank l out ->
  (forall t, In t (map fst l) -> qmem t T = true) ->
  (forall p, In p (gaps_of g (map fst l)) -> qmem (fst p + tick)%Q T = false /\ qmem (snd p - tick)%Q T = false) ->
  filter (fun t => negb (qmem t T)) (map fst out) = concat (map ends (gaps_of g (map fst l))).
Proof.
  induction 1 as [p|p q l out Hc Hw IH|p q l out Hc Hw IH]; intros Hin Hgap.
  - cbn. rewrite (Hin (fst p)) by (left; reflexivity). reflexivity.
  - cbn [map filter]. rewrite (Hin (fst p)) by (left; reflexivity). cbn [negb].
    assert (E : gaps_of g (fst p :: fst q :: map fst l) = gaps_of g (fst q :: map fst l)).
    { unfold gaps_of. rewrite neighbours_cons. cbn [filter fst snd]. apply Qle_bool_iff in Hc. rewrite Hc. reflexivity. }
    rewrite E. apply IH; [intros t Ht; apply Hin; right; exact Ht|].
    intros p' Hp'. apply Hgap. cbn [map]. rewrite E. exact Hp'.
  - assert (E : gaps_of g (fst p :: fst q :: map fst l) = (fst p, fst q) :: gaps_of g (fst q :: map fst l)).
    { unfold gaps_of. rewrite neighbours_cons. cbn [filter fst snd]. apply qlt_iff in Hc. unfold qlt in Hc. rewrite Hc. reflexivity. }
    cbn [map filter fst]. rewrite (Hin (fst p)) by (left; reflexivity). cbn [negb]. rewrite E.
    assert (H0 := Hgap (fst p, fst q)). cbn [map] in H0. rewrite E in H0.
    destruct (H0 (or_introl eq_refl)) as [H1 H2]. cbn [fst snd] in H1, H2. rewrite H1, H2. cbn [negb map concat ends fst snd app].
    do 2 f_equal. apply IH; [intros t Ht; apply Hin; right; exact Ht|].
    intros p' Hp'. apply Hgap. cbn [map]. rewrite E. right. exact Hp'.
Qed.

Lemma qset_ascending l : ascending l -> qset l = l.
Proof.
  induction l as [|x l IH]; intros H; [reflexivity|]. apply StronglySorted_inv in H as [H Hf]. cbn [qset].
  rewrite IH by exact H. destruct (qmem x l) eqn:E; [|reflexivity].
  unfold qmem in E. apply existsb_exists in E as (y & Hy & E). apply Qeq_bool_iff in E.
  rewrite Forall_forall in Hf. specialize (Hf _ Hy). lra.
Qed.
Lemma qsort_ascending l : ascending l -> qsort l = l.
Proof.
  induction l as [|x l IH]; intros H; [reflexivity|]. apply StronglySorted_inv in H as [H Hf].
  cbn [qsort fold_right]. fold (qsort l). rewrite IH by exact H. destruct l as [|y l]; [reflexivity|].
  cbn [qinsert]. apply Forall_inv in Hf. assert (E : Qle_bool x y = true) by (apply Qle_bool_iff; lra).
  rewrite E. reflexivity.
Qed.
Lemma ascending_filter f l : ascending l -> ascending (filter f l).
Proof.
  induction l as [|x l IH]; intros H; [constructor|]. apply StronglySorted_inv in H as [H Hf]. cbn [filter].
  destruct (f x); [|apply IH; exact H]. constructor; [apply IH; exact H|].
  rewrite Forall_forall in *. intros y Hy. apply filter_In in Hy as [Hy _]. apply Hf. exact Hy.
Qed.
Lemma chunk2_ends l : chunk2 (concat (map ends l)) = map ends l.
Proof. induction l as [|p l IH]; [reflexivity|]. cbn [map concat ends app chunk2]. rewrite IH. reflexivity. Qed.

Lemma neighbours_between l a b : StronglySorted Qle l -> In (a, b) (neighbours l) ->
  forall x, In x l -> (x <= a \/ b <= x)%Q.
Proof.
  induction l as [|y l IH]; intros Hs Hin x Hx; [destruct Hin|].
  destruct l as [|z l]; [destruct Hin|]. rewrite neighbours_cons in Hin.
  apply StronglySorted_inv in Hs as [Hs Hf]. destruct Hin as [Hin|Hin].
  - injection Hin as <- <-. destruct Hx as [<-|Hx]; [left; lra|]. right.
    destruct Hx as [<-|Hx]; [lra|]. apply StronglySorted_inv in Hs as [_ Hs]. rewrite Forall_forall in Hs. apply Hs. exact Hx.
  - destruct Hx as [<-|Hx]; [|apply IH; assumption]. left.
    unfold neighbours in Hin. apply in_combine_l in Hin. rewrite Forall_forall in Hf. apply Hf. exact Hin.
Qed.

Lemma marked_hatched day_end l out : marked g day_end blank l out -> ascending (map fst l) ->
  (forall t, In t (map fst l) -> 0 <= t <= day_end)%Q ->
  gap_batches (map fst out) (map fst l) = hatched g day_end (map fst l).
Proof.
  intros Hm Ha Hr. destruct (marked_ascending _ _ _ Hm Ha Hr) as [Hasc _].
  unfold gap_batches. rewrite qset_ascending by exact Hasc.
  rewrite qsort_ascending by (apply ascending_filter; exact Hasc).
  destruct Hm as (first & last_ & lead & inner & trail & Hf & Hl & Hw & -> & Hlead & Htrail).
  set (T := map fst l) in *.
  assert (HinT : forall t, In t T -> qmem t T = true).
  { intros t Ht. unfold qmem. apply existsb_exists. exists t. split; [exact Ht|apply Qeq_bool_iff; reflexivity]. }
  assert (Hsort : StronglySorted Qle (0%Q :: T ++ [day_end])).
  { constructor.
    - clear - Ha Hr. induction T as [|x T IH]; [repeat constructor|]. apply StronglySorted_inv in Ha as [Ha Hf]. cbn [app]. constructor.
      + apply IH; [exact Ha|]. intros t Ht. apply Hr. right; exact Ht.
      + apply Forall_app. split; [eapply Forall_impl; [|exact Hf]; cbn beta; intros; lra|]. constructor; [|constructor].
        apply Hr. left; reflexivity.
    - apply Forall_app. split; [apply Forall_forall; intros t Ht; apply Hr; exact Ht|]. constructor; [|constructor].
      destruct T as [|t T']; [discriminate|]. assert (H := Hr t (or_introl eq_refl)). lra. }
  assert (Hnot : forall p, In p (gaps_of g (0%Q :: T ++ [day_end])) ->
     qmem (fst p + tick)%Q T = false /\ qmem (snd p - tick)%Q T = false).
  { intros [a b] Hp. unfold gaps_of in Hp. apply filter_In in Hp as [Hp Hlen]. fold (qlt g (snd (a, b) - fst (a, b))) in Hlen.
    apply qlt_iff in Hlen. cbn [fst snd] in *.
    assert (Ht : (0 < tick)%Q) by reflexivity.
    split; apply not_true_iff_false; intros H; unfold qmem in H; apply existsb_exists in H as (x & Hx & E);
      apply Qeq_bool_iff in E;
      (destruct (neighbours_between _ a b Hsort Hp x ltac:(right; apply in_or_app; left; exact Hx)); lra). }
  rewrite (gaps_of_axis T first last_ day_end Hf Hl) in Hnot.
  rewrite !map_app, !filter_app.
  assert (Hinner : filter (fun t => negb (qmem t T)) (map fst inner) = concat (map ends (gaps_of g T))).
  { apply (with_gaps_times T l inner Hw); [exact HinT|]. intros p Hp. apply Hnot. apply in_or_app; right. apply in_or_app; left. exact Hp. }
  rewrite Hinner. unfold hatched. rewrite (gaps_of_axis T first last_ day_end Hf Hl).
  change (map (fun p => [(fst p + tick)%Q; (snd p - tick)%Q])) with (map ends).
  match goal with |- _ = map ends ?x => rewrite <- (chunk2_ends x) end.
  f_equal. rewrite !map_app, !concat_app. f_equal; [|f_equal].
  - destruct Hlead as [[Hle ->]|[Hgt ->]].
    + assert (E : qlt g (first - 0) = false) by (apply qlt_false; lra). rewrite E. reflexivity.
    + assert (E : qlt g (first - 0) = true) by (apply qlt_iff; lra). rewrite E in *.
      destruct (Hnot (0%Q, first)) as [H1 H2]; [left; reflexivity|]. cbn [fst snd] in H1, H2.
      change (0 + tick)%Q with tick in H1. cbn [map filter fst]. rewrite H1, H2. reflexivity.
  - destruct Htrail as [[Hle ->]|[Hgt ->]].
    + assert (E : qlt g (day_end - last_) = false) by (apply qlt_false; exact Hle). rewrite E. reflexivity.
    + assert (E : qlt g (day_end - last_) = true) by (apply qlt_iff; exact Hgt). rewrite E in *.
      destruct (Hnot (last_, day_end)) as [H1 H2]; [apply in_or_app; right; apply in_or_app; right; left; reflexivity|].
      cbn [fst snd] in H1, H2. cbn [map filter fst]. rewrite H1, H2. reflexivity.
Qed.
End marked.

(** ** Model files *)

Lemma np_min_spec l : l <> [] -> exists d, np_min l = Ok d /\ In d l /\ forall x, In x l -> (d <= x)%Q.
Proof.
  destruct l as [|x r]; [congruence|]. intros _. unfold np_min.
  exists (fold_left (fun a b => if Qle_bool a b then a else b) r x). split; [reflexivity|].
  revert x. induction r as [|y r IH]; intros x.
  - split; [left; reflexivity|]. intros z [<-|[]]. cbn. lra.
  - cbn [fold_left]. destruct (Qle_bool x y) eqn:E.
    + apply Qle_bool_iff in E. destruct (IH x) as [H1 H2]. split.
      * destruct H1 as [H1|H1]; [left; exact H1|right; right; exact H1].
      * intros z [<-|[<-|Hz]]; [apply H2; left; reflexivity| |apply H2; right; exact Hz].
        eapply Qle_trans; [apply H2; left; reflexivity|exact E].
    + assert (E' : (y <= x)%Q) by (destruct (Qlt_le_dec x y) as [H|H]; [apply Qlt_le_weak, Qle_bool_iff in H; congruence|exact H]).
      destruct (IH y) as [H1 H2]. split.
      * right. exact H1.
      * intros z [<-|[<-|Hz]]; [|apply H2; left; reflexivity|apply H2; right; exact Hz].
        eapply Qle_trans; [apply H2; left; reflexivity|exact E'].
Qed.

Lemma diffs_neighbours l : diffs l = map (fun p => (snd p - fst p)%Q) (neighbours l).
Proof.
  unfold diffs, neighbours. generalize (tl l). induction l as [|x l IH]; intros [|y r]; try reflexivity.
  cbn. f_equal. apply IH.
Qed.

Lemma model_gap_spec time : 2 <= length time ->
  exists a b m, In (a, b) (neighbours time) /\
    (forall a' b', In (a', b') (neighbours time) -> (b - a <= b' - a')%Q) /\
    get_max_gap_in_minutes "model" time = Ok m /\
    ((2 * Qabs (60 * (b - a) - inject_Z m) < 1)%Q \/
     ((2 * Qabs (60 * (b - a) - inject_Z m) == 1)%Q /\ Z.even m = true)).
Proof.
  intros H. unfold get_max_gap_in_minutes. cbn [String.eqb Ascii.eqb Bool.eqb].
  destruct time as [|x [|y r]]; cbn [length] in H; try lia.
  destruct (np_min_spec (diffs (x :: y :: r))) as (d & Hd & Hin & Hmin); [discriminate|].
  rewrite Hd. cbn [bind]. rewrite diffs_neighbours in Hin, Hmin.
  apply in_map_iff in Hin as ([a b] & Hab & Hin). cbn [fst snd] in Hab. subst d.
  exists a, b, (round_half_even (60 * (b - a))). split; [exact Hin|]. split.
  - intros a' b' H'. apply (Hmin (b' - a')%Q). apply in_map_iff. exists (a', b'). auto.
  - split; [reflexivity|]. apply round_half_even_spec.
Qed.

Lemma model_gap_single t : get_max_gap_in_minutes "model" [t] = Raise ValueError.
Proof. reflexivity. Qed.

Lemma is_some_has_data (row : profile) : existsb is_some row = true <-> has_data row.
Proof.
  rewrite existsb_exists. split.
  - intros ([v|] & Hin & H); [exists v; exact Hin|discriminate].
  - intros (v & H). exists (Some v). auto.
Qed.

Lemma where1_has_data data : good_profiles data (where1 (map (existsb is_some) data)).
Proof.
  split; [apply where1_sorted|]. intros i. rewrite where1_in, nth_error_map.
  destruct (nth_error data i) as [row|]; cbn [option_map].
  - split.
    + intros H. injection H as H. exists row. split; [reflexivity|]. apply is_some_has_data. exact H.
    + intros (row' & H & Hd). injection H as <-. f_equal. apply is_some_has_data. exact Hd.
  - split; [discriminate|]. intros (row & H & _). discriminate.
Qed.

Lemma sequence_items {A} (l : list A) d idx : Forall (fun i => i < length l) idx ->
  sequence (map (item l) idx) = Ok (map (fun i => nth i l d) idx).
Proof.
  induction 1 as [|i idx Hi _ IH]; [reflexivity|]. cbn [map sequence]. unfold item at 1.
  rewrite (nth_error_nth' l d Hi), IH. reflexivity.
Qed.

Lemma screen_spec time data : length time = length data ->
  ((forall row, In row data -> ~ In None row) ->
     screen_completely_masked_profiles time data = Ok (Some (time, data))) /\
  ((exists row, In row data /\ In None row) ->
   (forall row, In row data -> ~ has_data row) ->
     screen_completely_masked_profiles time data = Ok None) /\
  ((exists row, In row data /\ In None row) ->
   (exists row, In row data /\ has_data row) ->
   exists idx, good_profiles data idx /\ idx <> [] /\
     screen_completely_masked_profiles time data =
       Ok (Some (map (fun i => nth i time 0%Q) (shown (length time) idx),
                 map (fun i => nth i data []) (shown (length time) idx)))).
Proof.
  intros Hlen.
  assert (Hfull : forallb (forallb is_some) data = true <-> forall row, In row data -> ~ In None row).
  { rewrite forallb_forall. split.
    - intros H row Hr Hn. specialize (H _ Hr). rewrite forallb_forall in H. specialize (H _ Hn). discriminate.
    - intros H row Hr. apply forallb_forall. intros [v|] Hv; [reflexivity|]. destruct (H _ Hr Hv). }
  assert (Hmask : (exists row, In row data /\ In None row) -> forallb (forallb is_some) data = false).
  { intros (row & Hr & Hn). apply not_true_iff_false. intros H. apply (proj1 Hfull H row Hr Hn). }
  destruct (where1_has_data data) as [Hs Hin]. unfold screen_completely_masked_profiles.
  split; [|split].
  - intros H. apply Hfull in H. rewrite H. reflexivity.
  - intros H Hno. rewrite (Hmask H). destruct (rev (where1 (map (existsb is_some) data))) as [|i r] eqn:E; [reflexivity|].
    exfalso. assert (Hi : In i (where1 (map (existsb is_some) data))) by (apply in_rev; rewrite E; left; reflexivity).
    apply Hin in Hi as (row & Hn & Hd). apply (Hno row); [eapply nth_error_In; exact Hn|exact Hd].
  - intros H (row & Hr & Hd). rewrite (Hmask H). exists (where1 (map (existsb is_some) data)).
    set (idx := where1 (map (existsb is_some) data)) in *.
    assert (Hne : idx <> []).
    { apply In_nth_error in Hr as [i Hi]. assert (Hx : In i idx) by (apply Hin; exists row; auto).
      intros E. rewrite E in Hx. destruct Hx. }
    split; [split; assumption|]. split; [exact Hne|].
    assert (Hlast := last_hd_error idx 0 Hne). destruct (rev idx) as [|i r]; [discriminate|]. injection Hlast as Hlast.
    rewrite Hlast.
    assert (Hlt : Forall (fun i => i < length time) idx).
    { apply Forall_forall. intros k Hk. apply Hin in Hk as (row' & Hk & _). rewrite Hlen. apply nth_error_Some. congruence. }
    assert (Hpos : 0 < length time).
    { destruct idx; [congruence|]. apply Forall_inv in Hlt. lia. }
    assert (Hclip : map (clip_index (length time)) (idx ++ [S (last idx 0)]) = shown (length time) idx).
    { rewrite map_app. unfold shown. f_equal.
      rewrite <- (map_id idx) at 2. apply map_ext_in. intros k Hk. rewrite Forall_forall in Hlt. specialize (Hlt _ Hk).
      unfold clip_index. lia. }
    rewrite Hclip.
    assert (Hall : Forall (fun i => i < length time) (shown (length time) idx)).
    { unfold shown. apply Forall_app. split; [exact Hlt|]. constructor; [lia|constructor]. }
    rewrite (sequence_items time 0%Q) by exact Hall. cbn [bind].
    rewrite (sequence_items data []) by (rewrite <- Hlen; exact Hall). reflexivity.
Qed.

Lemma mark_model_spec day_end time data t d m : time <> [] ->
  (0 <= hd 0 time)%Q -> (last time 0 <= day_end)%Q ->
  get_max_gap_in_minutes "model" time = Ok m ->
  screen_completely_masked_profiles time data = Ok (Some (t, d)) ->
  t <> [] -> length t = length d ->
  exists out, mark_gaps "model" 0 day_end time data = Ok (Some (map fst out, map snd out)) /\
    marked (hours m) day_end (repeat None (length (hd [] d))) (combine t d) out.
Proof.
  intros Hne H0 H1 Hm Hs Ht Hl. rewrite mark_gaps_in_range by assumption.
  rewrite Hm. cbn [bind String.eqb Ascii.eqb Bool.eqb]. rewrite Hs. cbn [bind option_map].
  destruct (insert_gaps_spec (hours m) day_end t d Ht Hl) as (out & Ho & Hq).
  exists out. rewrite Ho. auto.
Qed.

Lemma with_gaps_none {A} g (blank : A) l out : with_gaps g blank l out ->
  Forall (fun p => (snd p - fst p <= g)%Q) (neighbours (map fst l)) -> out = l.
Proof.
  induction 1 as [p|p q l out Hc Hw IH|p q l out Hc Hw IH]; intros Hf.
  - reflexivity.
  - cbn [map] in *. rewrite neighbours_cons in Hf. inversion Hf; subst. f_equal. apply IH. assumption.
  - cbn [map] in *. rewrite neighbours_cons in Hf. inversion Hf; subst. cbn [fst snd] in *. lra.
Qed.

Lemma regular_spec day_end n time data : (1 <= n)%Z -> 2 <= length time -> length time = length data ->
  (0 <= hd 0 time)%Q -> (last time 0 <= day_end)%Q ->
  regular (inject_Z n / 60) time -> (forall row, In row data -> ~ In None row) ->
  exists lead trail, mark_gaps "model" 0 day_end time data
    = Ok (Some (map fst lead ++ time ++ map fst trail, map snd lead ++ data ++ map snd trail)) /\
    Forall (fun p => forall v, In v (snd p) -> v = None) (lead ++ trail).
Proof.
  intros Hn H2 Hlen H0 H1 Hreg Hfull.
  assert (Hne : time <> []) by (destruct time; [cbn in H2; lia|discriminate]).
  destruct (model_gap_spec time H2) as (a & b & m & Hin & _ & Hm & Hround).
  unfold regular in Hreg. rewrite Forall_forall in Hreg. assert (Hab := Hreg _ Hin). cbn [fst snd] in Hab.
  assert (Em : m = n).
  { assert (E : (60 * (b - a) == inject_Z n)%Q) by (rewrite Hab; field).
    assert (Hd : (Qabs (inject_Z n - inject_Z m) < 1)%Q).
    { assert (E' : (Qabs (60 * (b - a) - inject_Z m) == Qabs (inject_Z n - inject_Z m))%Q) by (rewrite E; reflexivity).
      destruct Hround as [Hr|[Hr _]]; rewrite E' in Hr; lra. }
    apply Qabs_Qlt_condition in Hd as [Hd1 Hd2].
    assert (Hz1 : (inject_Z m < inject_Z (n + 1))%Q) by (rewrite inject_Z_plus; change (inject_Z 1) with 1%Q; lra).
    assert (Hz2 : (inject_Z n < inject_Z (m + 1))%Q) by (rewrite inject_Z_plus; change (inject_Z 1) with 1%Q; lra).
    rewrite <- Zlt_Qlt in Hz1, Hz2. lia. }
  subst m.
  destruct (mark_model_spec day_end time data time data n Hne H0 H1 Hm) as (out & Ho & Hmk); [|exact Hne|exact Hlen|].
  { apply screen_spec; assumption. }
  destruct Hmk as (first & last_ & lead & inner & trail & Hf & Hl & Hw & -> & Hlead & Htrail).
  exists lead, trail. rewrite Ho. split.
  - assert (E : inner = combine time data).
    { eapply with_gaps_none; [exact Hw|]. rewrite fst_combine by exact Hlen. apply Forall_forall. intros p Hp.
      specialize (Hreg _ Hp). rewrite Hreg. unfold hours. lra. }
    rewrite E, !map_app, fst_combine, snd_combine by exact Hlen. reflexivity.
  - apply Forall_app. split.
    + destruct Hlead as [[_ ->]|[_ ->]]; repeat constructor; cbn [snd]; intros v Hv; apply repeat_spec in Hv; exact Hv.
    + destruct Htrail as [[_ ->]|[_ ->]]; repeat constructor; cbn [snd]; intros v Hv; apply repeat_spec in Hv; exact Hv.
Qed.

(** ** Batches *)

Lemma diff_is_minus_one_tops l : diff_is_minus_one l = tops_from l.
Proof.
  induction l as [|b r IH]; [reflexivity|]. cbn [diff_is_minus_one tops_from]. rewrite IH. f_equal.
  destruct b; destruct r as [|[] r]; reflexivity.
Qed.

Lemma runs_lists row : lists_runs row (runs row).
Proof.
  split.
  - assert (H := runs_ordered row). induction H as [|p l H IH Hf]; constructor; [exact IH|].
    eapply Forall_impl; [|exact Hf]. cbn beta. intros; lia.
  - intros b t. split; [apply runs_max_run|apply max_run_in_runs].
Qed.

Lemma batches_spec array : find_batches_of_ones array = Ok (runs array).
Proof.
  unfold find_batches_of_ones. change (diff_is_one 0%Z array) with (find_cloud_bases_row array).
  rewrite diff_is_minus_one_tops, <- find_cloud_tops_row_eq, where1_bases, where1_tops, !map_length, Nat.eqb_refl.
  rewrite combine_fst_snd. reflexivity.
Qed.

Lemma runs_bound row b t : In (b, t) (runs row) -> b <= t < length row.
Proof.
  intros H. apply runs_max_run in H as (H1 & H2 & _). split; [exact H1|]. apply nth_error_Some.
  rewrite (H2 t) by lia. discriminate.
Qed.

Lemma filled_spec time flags : length time = length flags ->
  fill_flagged_data time flags =
  Ok (map (fun b => (nth (fst b) time 0%Q, nth (snd b) time 0%Q))
          (filter (fun b => negb (Nat.eqb (fst b) (snd b))) (runs flags))).
Proof.
  intros Hlen. unfold fill_flagged_data. rewrite batches_spec. cbn [bind].
  assert (Hb : forall p, In p (filter (fun b => negb (Nat.eqb (fst b) (snd b))) (runs flags)) -> fst p < length time /\ snd p < length time).
  { intros [b t] H. apply filter_In in H as [H _]. apply runs_bound in H. cbn [fst snd]. lia. }
  induction (filter (fun b => negb (Nat.eqb (fst b) (snd b))) (runs flags)) as [|p l IH]; [reflexivity|].
  cbn [map sequence]. destruct (Hb p (or_introl eq_refl)) as [H1 H2]. unfold item at 1 2.
  rewrite (nth_error_nth' time 0%Q H1). cbn [bind]. rewrite (nth_error_nth' time 0%Q H2). cbn [bind].
  rewrite IH by (intros q Hq; apply Hb; right; exact Hq). reflexivity.
Qed.

(** ** Segments *)

Definition count_hidden (l : list segment) : nat := length (filter (fun x => hidden (fst x)) l).
Definition after_hiding (l : list segment) (v : masked Z) : masked Z :=
  match v with
  | None => None
  | Some x =>
    if (x <? 0)%Z then Some x
    else if (match nth_error l (Z.to_nat x) with Some s => hidden (fst s) | None => false end) then None
    else Some (x - Z.of_nat (count_hidden (firstn (Z.to_nat x) l)))%Z
  end.

Lemma hidden_eq s : hidden s = starts_with_underscore s.
Proof. destruct s as [|c s]; [reflexivity|]. unfold hidden. cbn [prefix starts_with_underscore].
  destruct (Ascii.ascii_dec "_"%char c) as [<-|H]; [destruct s; reflexivity|].
  symmetry. apply Ascii.eqb_neq. congruence.
Qed.

Lemma where1_snoc l b : where1 (l ++ [b]) = where1 l ++ (if b then [length l] else []).
Proof.
  unfold where1. assert (H : forall j, where_from j (l ++ [b]) = where_from j l ++ (if b then [j + length l] else [])).
  { induction l as [|x l IH]; intros j; cbn [app where_from length].
    - rewrite Nat.add_0_r. destruct b; reflexivity.
    - rewrite IH, <- app_assoc. do 2 f_equal. destruct b; [|reflexivity]. f_equal. lia. }
  apply H.
Qed.

Lemma count_hidden_app l1 l2 : count_hidden (l1 ++ l2) = count_hidden l1 + count_hidden l2.
Proof. unfold count_hidden. rewrite filter_app, app_length. reflexivity. Qed.

Lemma after_hiding_snoc l s v :
  after_hiding (l ++ [s]) v = after_hiding l (if hidden (fst s) then hide_value (length l) v else v).
Proof.
  destruct v as [x|]; [|destruct (hidden (fst s)); reflexivity].
  cbn [after_hiding]. destruct (Z.ltb_spec x 0) as [Hx|Hx].
  { destruct (hidden (fst s)); cbn [hide_value after_hiding].
    - destruct (Z.eqb_spec x (Z.of_nat (length l))); [lia|]. destruct (Z.ltb_spec (Z.of_nat (length l)) x); [lia|].
      cbn [after_hiding]. destruct (Z.ltb_spec x 0); [reflexivity|lia].
    - destruct (Z.ltb_spec x 0); [reflexivity|lia]. }
  destruct (Z.compare_spec x (Z.of_nat (length l))) as [E|E|E].
  - subst x. rewrite Nat2Z.id, nth_error_app2, Nat.sub_diag by lia. cbn [nth_error].
    destruct (hidden (fst s)) eqn:Hs; cbn [hide_value].
    + rewrite Z.eqb_refl. reflexivity.
    + cbn [after_hiding]. destruct (Z.ltb_spec (Z.of_nat (length l)) 0); [lia|]. rewrite Nat2Z.id.
      assert (E : nth_error l (length l) = None) by (apply nth_error_None; lia). rewrite E.
      rewrite firstn_app, Nat.sub_diag. cbn [firstn]. rewrite app_nil_r. reflexivity.
  - assert (Hk : Z.to_nat x < length l) by lia.
    assert (Hv : (if hidden (fst s) then hide_value (length l) (Some x) else Some x) = Some x).
    { destruct (hidden (fst s)); [|reflexivity]. cbn [hide_value].
      destruct (Z.eqb_spec x (Z.of_nat (length l))); [lia|]. destruct (Z.ltb_spec (Z.of_nat (length l)) x); [lia|reflexivity]. }
    rewrite Hv. cbn [after_hiding]. destruct (Z.ltb_spec x 0); [lia|].
    rewrite nth_error_app1 by exact Hk. rewrite firstn_app. replace (Z.to_nat x - length l) with 0 by lia.
    cbn [firstn]. rewrite app_nil_r. reflexivity.
  - assert (Hk : length l < Z.to_nat x) by lia.
    assert (E1 : nth_error (l ++ [s]) (Z.to_nat x) = None) by (apply nth_error_None; rewrite app_length; cbn; lia).
    rewrite E1, firstn_all2 by (rewrite app_length; cbn; lia). rewrite count_hidden_app.
    destruct (hidden (fst s)) eqn:Hs; cbn [hide_value].
    + destruct (Z.eqb_spec x (Z.of_nat (length l))); [lia|]. destruct (Z.ltb_spec (Z.of_nat (length l)) x); [|lia].
      cbn [after_hiding]. destruct (Z.ltb_spec (x - 1) 0); [lia|].
      assert (E2 : nth_error l (Z.to_nat (x - 1)) = None) by (apply nth_error_None; lia). rewrite E2.
      rewrite firstn_all2 by lia. f_equal. unfold count_hidden at 2. cbn [filter]. rewrite Hs. cbn [length]. lia.
    + cbn [after_hiding]. destruct (Z.ltb_spec x 0); [lia|].
      assert (E2 : nth_error l (Z.to_nat x) = None) by (apply nth_error_None; lia). rewrite E2.
      rewrite firstn_all2 by lia. f_equal. unfold count_hidden at 2. cbn [filter]. rewrite Hs. cbn [length]. lia.
Qed.

Lemma delete_at_mid {A} (l : list A) x r : delete_at (length l) (l ++ x :: r) = l ++ r.
Proof.
  unfold delete_at. rewrite firstn_app, Nat.sub_diag, firstn_all. cbn [firstn]. rewrite app_nil_r. f_equal.
  rewrite skipn_app. replace (S (length l) - length l) with 1 by lia. rewrite skipn_all2 by lia. reflexivity.
Qed.

Lemma imap_imap {A B C} (f : A -> B) (h : B -> C) m : imap h (imap f m) = imap (fun x => h (f x)) m.
Proof. unfold imap. rewrite map_map. apply map_ext. intros r. apply map_map. Qed.
Lemma imap_ext {A B} (f h : A -> B) m : (forall x, f x = h x) -> imap f m = imap h m.
Proof. intros H. unfold imap. apply map_ext. intros r. apply map_ext. exact H. Qed.

Lemma hide_fold l : forall post data,
  fold_left (fun (st : list segment * image (masked Z)) ind =>
    (delete_at ind (fst st), imap (hide_value ind) (snd st)))
    (rev (where1 (map (fun x => starts_with_underscore (fst x)) l))) (l ++ post, data)
  = (visible_segments l ++ post, imap (after_hiding l) data).
Proof.
  induction l as [|s l IH] using rev_ind; intros post data.
  - cbn. f_equal. rewrite <- (map_id data) at 1. unfold imap. apply map_ext. intros r.
    rewrite <- (map_id r) at 1. apply map_ext. intros [x|]; cbn; [|reflexivity].
    destruct (x <? 0)%Z; [reflexivity|]. destruct (Z.to_nat x); cbn; f_equal; lia.
  - rewrite map_app. cbn [map]. rewrite where1_snoc, rev_app_distr, map_length, <- hidden_eq.
    unfold visible_segments. rewrite filter_app. cbn [filter]. fold (visible_segments l).
    rewrite <- app_assoc. cbn [app].
    destruct (hidden (fst s)) eqn:Hs; cbn [rev app fold_left negb fst snd].
    + rewrite delete_at_mid, IH, app_nil_r. f_equal. rewrite imap_imap. apply imap_ext. intros v.
      rewrite after_hiding_snoc, Hs. reflexivity.
    + rewrite IH. rewrite <- app_assoc. cbn [app]. f_equal. apply imap_ext. intros v.
      rewrite after_hiding_snoc, Hs. reflexivity.
Qed.

Lemma hide_segments_spec l data : hide_segments l data = (visible_segments l, imap (after_hiding l) data).
Proof.
  unfold hide_segments. rewrite <- (app_nil_r l) at 2. rewrite hide_fold, app_nil_r. reflexivity.
Qed.

Lemma visible_nth (l : list segment) : forall k s, nth_error l k = Some s -> hidden (fst s) = false ->
  nth_error (visible_segments l) (k - count_hidden (firstn k l)) = Some s /\ count_hidden (firstn k l) <= k.
Proof.
  induction l as [|x l IH]; intros [|k] s H Hs; try discriminate.
  - cbn in H. injection H as ->. cbn [firstn]. unfold visible_segments. cbn [filter]. rewrite Hs. split; [reflexivity|cbn; lia].
  - cbn [nth_error] in H. destruct (IH k s H Hs) as [H1 H2]. cbn [firstn]. unfold visible_segments, count_hidden in *. cbn [filter].
    destruct (hidden (fst x)); cbn [negb length].
    + split; [|lia]. replace (S k - S (length (filter (fun x => hidden (fst x)) (firstn k l))))
        with (k - length (filter (fun x => hidden (fst x)) (firstn k l))) by lia. exact H1.
    + split; [|lia]. replace (S k - length (filter (fun x => hidden (fst x)) (firstn k l)))
        with (S (k - length (filter (fun x => hidden (fst x)) (firstn k l)))) by lia. exact H1.
Qed.

Lemma after_hiding_meaning (l : list segment) v :
  (forall s, nth_error l (Z.to_nat v) = Some s -> (0 <= v)%Z ->
     (hidden (fst s) = true -> after_hiding l (Some v) = None) /\
     (hidden (fst s) = false -> exists w, after_hiding l (Some v) = Some w /\ (0 <= w)%Z /\
        nth_error (visible_segments l) (Z.to_nat w) = Some s)) /\
  ((v < 0)%Z -> after_hiding l (Some v) = Some v) /\
  ((Z.of_nat (length l) <= v)%Z -> exists w, after_hiding l (Some v) = Some w /\
     (w = v - Z.of_nat (length l) + Z.of_nat (length (visible_segments l)))%Z).
Proof.
  cbn [after_hiding]. split; [|split].
  - intros s H Hv. destruct (Z.ltb_spec v 0); [lia|]. rewrite H. split; intros Hs; rewrite Hs; [reflexivity|].
    destruct (visible_nth l _ _ H Hs) as [H1 H2]. eexists. split; [reflexivity|]. split; [lia|].
    replace (Z.to_nat (v - Z.of_nat (count_hidden (firstn (Z.to_nat v) l))))
      with (Z.to_nat v - count_hidden (firstn (Z.to_nat v) l)) by lia. exact H1.
  - intros H. destruct (Z.ltb_spec v 0); [reflexivity|lia].
  - intros H. destruct (Z.ltb_spec v 0); [lia|].
    assert (E : nth_error l (Z.to_nat v) = None) by (apply nth_error_None; lia). rewrite E.
    eexists. split; [reflexivity|]. rewrite firstn_all2 by lia.
    assert (Hc : length l = count_hidden l + length (visible_segments l)).
    { clear. unfold count_hidden, visible_segments. induction l as [|x l IH]; [reflexivity|]. cbn [filter length].
      destruct (hidden (fst x)); cbn [negb length]; lia. }
    lia.
Qed.

(** ** Cells *)

Lemma map2_firstn {A B C} (f : A -> B -> C) l1 : forall l2, map2 f (firstn (length l2) l1) l2 = map2 f l1 l2.
Proof. induction l1 as [|x l1 IH]; intros [|y l2]; try reflexivity. cbn. f_equal. apply IH. Qed.

Lemma make_edges_short centers : length centers < 2 -> make_edges centers = Raise IndexError.
Proof. destruct centers as [|a [|b r]]; cbn [length]; intros H; [reflexivity|reflexivity|lia]. Qed.

Lemma ascending_nth l i j a b : ascending l -> i < j -> nth_error l i = Some a -> nth_error l j = Some b -> (a < b)%Q.
Proof.
  revert i j. induction l as [|x l IH]; intros i j Hs Hij Hi Hj; [destruct i; discriminate|].
  apply StronglySorted_inv in Hs as [Hs Hf]. destruct j as [|j]; [lia|]. destruct i as [|i].
  - injection Hi as <-. rewrite Forall_forall in Hf. apply Hf. eapply nth_error_In. exact Hj.
  - apply (IH i j); [exact Hs|lia|exact Hi|exact Hj].
Qed.

Lemma make_edges_outer centers edges k : make_edges centers = Ok edges -> k = 0 \/ S k = length centers ->
  forall c e1 e2, nth_error centers k = Some c -> nth_error edges k = Some e1 -> nth_error edges (S k) = Some e2 ->
  (c - e1 == e2 - c)%Q.
Proof.
  unfold make_edges, item. cbv zeta.
  destruct (nth_error centers 0) as [c0|] eqn:E0; [|discriminate].
  destruct (nth_error centers 1) as [c1|] eqn:E1; [|discriminate].
  assert (Hlen : 1 < length centers) by (apply nth_error_Some; congruence).
  set (n := length centers) in *.
  destruct (nth_error centers (n - 1)) as [cn|] eqn:En; [|discriminate].
  destruct (nth_error centers (n - 2)) as [cm|] eqn:Em; [|discriminate]. cbn [bind].
  assert (Htl : length (tl centers) = n - 1) by (unfold n; destruct centers; cbn; lia).
  rewrite <- Htl, map2_firstn. set (mids := map2 (fun a b => ((a + b) / 2)%Q) centers (tl centers)).
  assert (Hml : length mids = n - 1) by (unfold mids; rewrite map2_length, Htl; fold n; lia).
  assert (Htn : forall i, nth_error (tl centers) i = nth_error centers (S i)) by (intros i; destruct centers; [destruct i|]; reflexivity).
  assert (Hmid : forall i a b, nth_error centers i = Some a -> nth_error centers (S i) = Some b ->
       nth_error mids i = Some ((a + b) / 2)%Q).
  { intros i a b Ha Hb. unfold mids. rewrite nth_error_map2, Htn, Ha, Hb. reflexivity. }
  intros H Hk c e1 e2 Hc H1 H2. assert (He : edges = [(c0 - (c1 - c0) / 2)%Q] ++ mids ++ [(cn + (cn - cm) / 2)%Q]) by congruence.
  rewrite He in H1, H2. clear H He. cbn [app] in H1, H2. destruct Hk as [->|Hk].
  - cbn [nth_error] in H1. change (nth_error (mids ++ [(cn + (cn - cm) / 2)%Q]) 0 = Some e2) in H2.
    rewrite nth_error_app1 in H2 by lia. rewrite (Hmid 0 c0 c1 E0 E1) in H2.
    assert (c = c0) by congruence. assert (X1 : e1 = (c0 - (c1 - c0) / 2)%Q) by congruence.
    assert (X2 : e2 = ((c0 + c1) / 2)%Q) by congruence. subst c. rewrite X1, X2.
    unfold Qdiv. change (/ 2)%Q with (1 # 2)%Q. lra.
  - destruct k as [|j]; [lia|]. change (nth_error (mids ++ [(cn + (cn - cm) / 2)%Q]) j = Some e1) in H1.
    change (nth_error (mids ++ [(cn + (cn - cm) / 2)%Q]) (S j) = Some e2) in H2.
    rewrite nth_error_app1 in H1 by lia. rewrite nth_error_app2 in H2 by lia.
    replace (S j - length mids) with 0 in H2 by lia. cbn [nth_error] in H2.
    replace (n - 1) with (S j) in En by lia. replace (n - 2) with j in Em by lia.
    rewrite (Hmid j cm cn Em En) in H1.
    assert (c = cn) by congruence. assert (X1 : e1 = ((cm + cn) / 2)%Q) by congruence.
    assert (X2 : e2 = (cn + (cn - cm) / 2)%Q) by congruence. subst c. rewrite X1, X2.
    unfold Qdiv. change (/ 2)%Q with (1 # 2)%Q. lra.
Qed.

Lemma make_edges_spec centers : 2 <= length centers -> ascending centers ->
  exists edges, make_edges centers = Ok edges /\ length edges = S (length centers) /\ ascending edges /\
    (forall i c e1 e2, nth_error centers i = Some c -> nth_error edges i = Some e1 -> nth_error edges (S i) = Some e2 ->
       (e1 < c < e2)%Q) /\
    (forall i a b, nth_error centers i = Some a -> nth_error centers (S i) = Some b ->
       exists e, nth_error edges (S i) = Some e /\ (2 * e == a + b)%Q).
Proof.
  intros Hlen Hasc. set (n := length centers) in *.
  destruct (nth_error centers 0) as [c0|] eqn:E0; [|apply nth_error_None in E0; lia].
  destruct (nth_error centers 1) as [c1|] eqn:E1; [|apply nth_error_None in E1; lia].
  destruct (nth_error centers (n - 1)) as [cn|] eqn:En; [|apply nth_error_None in En; lia].
  destruct (nth_error centers (n - 2)) as [cm|] eqn:Em; [|apply nth_error_None in Em; lia].
  unfold make_edges. fold n. unfold item. rewrite E0, E1, En, Em. cbn [bind]. eexists. split; [reflexivity|].
  assert (Htl : length (tl centers) = n - 1) by (unfold n; destruct centers; cbn; lia).
  rewrite <- Htl, map2_firstn. set (mids := map2 (fun a b => ((a + b) / 2)%Q) centers (tl centers)).
  assert (Hml : length mids = n - 1) by (unfold mids; rewrite map2_length, Htl; fold n; lia).
  set (edges := [(c0 - (c1 - c0) / 2)%Q] ++ mids ++ [(cn + (cn - cm) / 2)%Q]).
  assert (Hel : length edges = S n) by (unfold edges; rewrite !app_length, Hml; cbn [length]; lia).
  assert (Htn : forall i, nth_error (tl centers) i = nth_error centers (S i)) by (intros i; destruct centers; [destruct i|]; reflexivity).
  assert (Hmid : forall i a b, nth_error centers i = Some a -> nth_error centers (S i) = Some b ->
       nth_error edges (S i) = Some ((a + b) / 2)%Q).
  { intros i a b Ha Hb. unfold edges. cbn [app nth_error].
    assert (i < n - 1) by (assert (H : S i < n) by (apply nth_error_Some; congruence); lia).
    rewrite nth_error_app1 by lia. unfold mids. rewrite nth_error_map2, Htn, Ha, Hb. reflexivity. }
  assert (Hlast : nth_error edges n = Some (cn + (cn - cm) / 2)%Q).
  { unfold edges. destruct n as [|k] eqn:En'; [lia|]. cbn [app nth_error]. rewrite nth_error_app2 by lia.
    rewrite Hml. replace (k - (S k - 1)) with 0 by lia. reflexivity. }
  assert (Hbetween : forall i c e1 e2, nth_error centers i = Some c -> nth_error edges i = Some e1 -> nth_error edges (S i) = Some e2 ->
       (e1 < c < e2)%Q).
  { intros i c e1 e2 Hc He1 He2. assert (Hi : i < n) by (apply nth_error_Some; congruence). split.
    - destruct i as [|i].
      + rewrite E0 in Hc. injection Hc as <-.
        change (nth_error edges 0) with (Some (c0 - (c1 - c0) / 2)%Q) in He1.
        assert (Ee : e1 = (c0 - (c1 - c0) / 2)%Q) by congruence. rewrite Ee.
        assert (H := ascending_nth _ 0 1 _ _ Hasc ltac:(lia) E0 E1). unfold Qdiv. change (/ 2)%Q with (1 # 2)%Q. lra.
      + destruct (nth_error centers i) as [a|] eqn:Ea; [|apply nth_error_None in Ea; lia].
        rewrite (Hmid _ _ _ Ea Hc) in He1.
        assert (Ee : e1 = ((a + c) / 2)%Q) by congruence. rewrite Ee.
        assert (H := ascending_nth _ i (S i) _ _ Hasc ltac:(lia) Ea Hc). unfold Qdiv. change (/ 2)%Q with (1 # 2)%Q. lra.
    - destruct (nth_error centers (S i)) as [b|] eqn:Eb.
      + rewrite (Hmid _ _ _ Hc Eb) in He2.
        assert (Ee : e2 = ((c + b) / 2)%Q) by congruence. rewrite Ee.
        assert (H := ascending_nth _ i (S i) _ _ Hasc ltac:(lia) Hc Eb). unfold Qdiv. change (/ 2)%Q with (1 # 2)%Q. lra.
      + apply nth_error_None in Eb. assert (i = n - 1) by lia. subst i. rewrite En in Hc. injection Hc as <-.
        replace (S (n - 1)) with n in He2 by lia. rewrite Hlast in He2.
        assert (Ee : e2 = (cn + (cn - cm) / 2)%Q) by congruence. rewrite Ee.
        assert (H := ascending_nth _ (n - 2) (n - 1) _ _ Hasc ltac:(lia) Em En). unfold Qdiv. change (/ 2)%Q with (1 # 2)%Q. lra. }
  split; [exact Hel|]. split; [|split; [exact Hbetween|]].
  - assert (Hstep : forall i e1 e2, nth_error edges i = Some e1 -> nth_error edges (S i) = Some e2 -> (e1 < e2)%Q).
    { intros i e1 e2 H1 H2. assert (Hi : S i < S n) by (rewrite <- Hel; apply nth_error_Some; congruence).
      destruct (nth_error centers i) as [c|] eqn:Ec; [|apply nth_error_None in Ec; lia].
      destruct (Hbetween i c e1 e2 Ec H1 H2). lra. }
    clear - Hstep. revert Hstep. induction edges as [|x l IH]; intros H; [constructor|]. constructor.
    + apply IH. intros i e1 e2 H1 H2. apply (H (S i)); assumption.
    + assert (Hl : ascending l) by (apply IH; intros i e1 e2 H1 H2; apply (H (S i)); assumption).
      destruct l as [|y l]; [constructor|]. assert (Hxy := H 0 x y eq_refl eq_refl). constructor; [exact Hxy|].
      apply StronglySorted_inv in Hl as [_ Hl]. eapply Forall_impl; [|exact Hl]. cbn beta. intros; lra.
  - intros i a b Ha Hb. eexists. split; [apply (Hmid _ _ _ Ha Hb)|]. field.
Qed.

Lemma screen_max_y_spec alt y data :
  (alt = [] -> screen_data_by_max_y alt (Some y) data = Raise ValueError) /\
  (forall k h, nth_error alt k = Some h -> (y < h)%Q -> 0 < k ->
     (forall i x, i < k -> nth_error alt i = Some x -> (x <= y)%Q) ->
     screen_data_by_max_y alt (Some y) data = Ok (firstn (S k) alt, map (firstn (S k)) data)) /\
  (alt <> [] -> (forall x, In x alt -> (x <= y)%Q) ->
     (forall row, In row data -> length row = length alt) ->
     screen_data_by_max_y alt (Some y) data = Ok (alt, data)) /\
  screen_data_by_max_y alt None data = Ok (alt, data).
Proof.
  unfold screen_data_by_max_y. assert (Hft := first_true_spec (map (fun h => qlt y h) alt)).
  split; [intros ->; reflexivity|]. split; [|split; [|reflexivity]].
  - intros k h Hk Hy Hpos Hlow.
    assert (E : first_true (map (fun h => qlt y h) alt) = Some k).
    { destruct (first_true (map (fun h => qlt y h) alt)) as [i|].
      - destruct Hft as [H1 H2]. destruct (Nat.lt_trichotomy i k) as [Hlt|[->|Hlt]]; [|reflexivity|].
        + rewrite nth_error_map in H1. destruct (nth_error alt i) as [x|] eqn:Ex; [|discriminate].
          cbn in H1. injection H1 as H1. apply qlt_iff in H1. specialize (Hlow _ _ Hlt Ex). lra.
        + specialize (H2 _ Hlt). rewrite nth_error_map, Hk in H2. cbn in H2. injection H2 as H2. apply qlt_false in H2. lra.
      - assert (Hkl : k < length (map (fun h => qlt y h) alt)) by (rewrite map_length; apply nth_error_Some; congruence).
        specialize (Hft _ Hkl). rewrite nth_error_map, Hk in Hft. cbn in Hft. injection Hft as Hft. apply qlt_false in Hft. lra. }
    unfold argmax_bool. rewrite E. destruct alt as [|x alt]; [destruct k; discriminate|]. cbn [map bind].
    destruct k; [lia|]. reflexivity.
  - intros Hne Hall Hrow.
    assert (E : first_true (map (fun h => qlt y h) alt) = None).
    { destruct (first_true (map (fun h => qlt y h) alt)) as [i|]; [|reflexivity]. destruct Hft as [H1 _].
      rewrite nth_error_map in H1. destruct (nth_error alt i) as [x|] eqn:Ex; [|discriminate].
      cbn in H1. injection H1 as H1. apply qlt_iff in H1. specialize (Hall x (nth_error_In _ _ Ex)). lra. }
    unfold argmax_bool. rewrite E. destruct alt as [|x alt]; [congruence|]. cbn [map bind Nat.eqb].
    rewrite firstn_all2 by lia. f_equal. f_equal. rewrite <- (map_id data) at 2. apply map_ext_in. intros row Hr.
    apply firstn_all2. rewrite (Hrow _ Hr). lia.
Qed.

(** ** Moving averages *)

Lemma int_of_spec x : (0 <= x)%Q -> (0 <= int_of x)%Z /\ (inject_Z (int_of x) <= x)%Q /\ (x < inject_Z (int_of x + 1))%Q.
Proof.
  intros H. unfold int_of. destruct x as [n d]. unfold Qle in H. cbn [Qnum Qden] in *.
  assert (Hn : (0 <= n)%Z) by lia. rewrite Z.quot_div_nonneg by lia.
  assert (H1 := Z.div_mod n (Zpos d) ltac:(lia)). assert (H2 := Z.mod_pos_bound n (Zpos d) ltac:(lia)).
  split; [apply Z.div_pos; lia|]. unfold Qle, Qlt, inject_Z. cbn [Qnum Qden]. split; nia.
Qed.

Lemma median_positive time d : ascending time -> median (diffs time) = Some d -> (0 < d)%Q.
Proof.
  intros Ha Hm. assert (H := median_iff (diffs time)). rewrite Hm in H.
  destruct H as (s & a & b & P & _ & Ea & Eb & E).
  assert (Hpos : forall x, In x (diffs time) -> (0 < x)%Q).
  { intros x Hx. rewrite diffs_neighbours in Hx. apply in_map_iff in Hx as ([u v] & <- & Hx). cbn [fst snd].
    clear - Ha Hx. induction time as [|y time IH]; [destruct Hx|]. destruct time as [|z time]; [destruct Hx|].
    apply StronglySorted_inv in Ha as [Ha Hf]. rewrite neighbours_cons in Hx. destruct Hx as [Hx|Hx]; [|apply IH; assumption].
    injection Hx as <- <-. apply Forall_inv in Hf. lra. }
  assert (Ia : (0 < a)%Q) by (apply Hpos; eapply Permutation_in; [apply Permutation_sym; exact P|eapply nth_error_In; exact Ea]).
  assert (Ib : (0 < b)%Q) by (apply Hpos; eapply Permutation_in; [apply Permutation_sym; exact P|eapply nth_error_In; exact Eb]).
  lra.
Qed.

Lemma window_spec time window : ascending time -> 2 <= length time -> (0 <= window)%Q ->
  exists d h, window_size time window = Some (2 * h + 1) /\ is_median (diffs time) d /\
    (inject_Z (2 * Z.of_nat h) * d <= window / 60)%Q /\ (window / 60 < inject_Z (2 * Z.of_nat h + 2) * d)%Q.
Proof.
  intros Ha Hl Hw. unfold window_size. assert (Hm := median_iff (diffs time)).
  destruct (median (diffs time)) as [d|] eqn:E.
  2:{ exfalso. destruct time as [|x [|y r]]; cbn [length] in Hl; try lia. discriminate Hm. }
  assert (Hd := median_positive _ _ Ha E).
  assert (E0 : Qeq_bool d 0 = false) by (apply not_true_iff_false; rewrite Qeq_bool_iff; lra). rewrite E0.
  set (x := (window / 60 / d)%Q). set (t := int_of x).
  assert (Hw60 : (0 <= window / 60)%Q) by (apply Qle_shift_div_l; [reflexivity|lra]).
  assert (Hx : (0 <= x)%Q) by (apply Qle_shift_div_l; [exact Hd|lra]).
  destruct (int_of_spec x Hx) as (Ht0 & Ht1 & Ht2). fold t in Ht0, Ht1, Ht2.
  assert (Ex : (x * d == window / 60)%Q) by (unfold x; field; lra).
  set (t1 := if (t <? 1)%Z then 1%Z else t).
  assert (Ht1' : (1 <= t1)%Z /\ ((t1 = t) \/ (t = 0 /\ t1 = 1))%Z).
  { unfold t1. destruct (Z.ltb_spec t 1); split; lia. }
  set (t2 := if (t1 mod 2 =? 0)%Z then (t1 + 1)%Z else t1).
  assert (Hh : exists h, t2 = (2 * Z.of_nat h + 1)%Z /\ (2 * Z.of_nat h <= t)%Z /\ (t + 1 <= 2 * Z.of_nat h + 2)%Z).
  { exists (Z.to_nat (t1 / 2)). unfold t2. assert (H1 := Z.div_mod t1 2 ltac:(lia)). assert (H2 := Z.mod_pos_bound t1 2 ltac:(lia)).
    assert (H3 : (0 <= t1 / 2)%Z) by (apply Z.div_pos; lia). rewrite Z2Nat.id by exact H3.
    destruct (Z.eqb_spec (t1 mod 2) 0); lia. }
  destruct Hh as (h & Hh & Hh1 & Hh2). exists d, h. split.
  - f_equal. rewrite Hh. lia.
  - split; [exact Hm|]. split.
    + rewrite <- Ex. apply Qmult_le_compat_r; [|lra]. eapply Qle_trans; [|exact Ht1]. rewrite <- Zle_Qle. exact Hh1.
    + rewrite <- Ex. apply Qmult_lt_compat_r; [exact Hd|]. eapply Qlt_le_trans; [exact Ht2|]. rewrite <- Zle_Qle. exact Hh2.
Qed.

Lemma nth_repeat' {A} (x d : A) n k : k < n -> nth k (repeat x n) d = x.
Proof. revert k. induction n as [|n IH]; intros [|k] H; try lia; [reflexivity|]. cbn. apply IH. lia. Qed.

Lemma pad_nth h data j : data <> [] -> j < length data + 2 * h ->
  nth j (pad_edge h data) 0%Q = continued data (Z.of_nat j - Z.of_nat h).
Proof.
  intros Hne Hj. unfold pad_edge, continued.
  assert (Hpos : 0 < length data) by (destruct data; [congruence|cbn; lia]).
  destruct (Nat.lt_ge_cases j h) as [H|H].
  - rewrite app_nth1 by (rewrite repeat_length; exact H). rewrite nth_repeat' by exact H.
    replace (Z.to_nat _) with 0 by lia. destruct data; [congruence|reflexivity].
  - rewrite app_nth2 by (rewrite repeat_length; exact H). rewrite repeat_length.
    destruct (Nat.lt_ge_cases (j - h) (length data)) as [H'|H'].
    + rewrite app_nth1 by exact H'. f_equal. lia.
    + rewrite app_nth2 by exact H'. rewrite nth_repeat' by lia.
      replace (Z.to_nat _) with (length data - 1) by lia.
      clear - Hne. induction data as [|x data IH] using rev_ind; [congruence|].
      rewrite last_last, app_length. cbn [length]. replace (length data + 1 - 1) with (length data) by lia.
      rewrite app_nth2, Nat.sub_diag by lia. reflexivity.
Qed.

Lemma section_nth {A} (l : list A) d a n : a + n <= length l ->
  section a (a + n) l = map (fun k => nth (a + k) l d) (seq 0 n).
Proof.
  intros H. unfold section. replace (a + n - a) with n by lia.
  apply nth_ext with (d := d) (d' := nth (a + 0) l d).
  - rewrite map_length, seq_length, firstn_length, skipn_length. lia.
  - intros k Hk. rewrite firstn_length, skipn_length in Hk.
    rewrite (map_nth (fun k => nth (a + k) l d)), seq_nth by lia. cbn [Nat.add].
    rewrite <- (firstn_skipn n (skipn a l)) in *. 
    assert (E : nth k (firstn n (skipn a l)) d = nth k (skipn a l) d).
    { rewrite <- (firstn_skipn n (skipn a l)) at 2. rewrite app_nth1; [reflexivity|]. rewrite firstn_length, skipn_length. lia. }
    rewrite firstn_skipn. rewrite E. clear. revert a. induction l as [|x l IH]; intros [|a]; try reflexivity.
    + cbn. destruct k; reflexivity.
    + cbn [skipn Nat.add nth]. apply IH.
Qed.

Lemma weighted_sum w l : (fold_right (fun x a => x * w + a) 0 l == qsum l * w)%Q.
Proof. induction l as [|x l IH]; cbn [fold_right qsum]; [ring|]. rewrite IH. ring. Qed.

Lemma pad_length h data : length (pad_edge h data) = length data + 2 * h.
Proof. unfold pad_edge. rewrite !app_length, !repeat_length. lia. Qed.

Lemma convolve_spec data h : data <> [] ->
  length (convolve_valid (pad_edge h data) (2 * h + 1) (1 / inject_Z (Z.of_nat (2 * h + 1)))) = length data /\
  forall i v, nth_error (convolve_valid (pad_edge h data) (2 * h + 1) (1 / inject_Z (Z.of_nat (2 * h + 1)))) i = Some v ->
    (v == centred_mean data h i)%Q.
Proof.
  intros Hne. assert (Hpos : 0 < length data) by (destruct data; [congruence|cbn; lia]).
  unfold convolve_valid. rewrite pad_length. split.
  - rewrite map_length, seq_length. lia.
  - intros i v H. rewrite nth_error_map in H. set (n := 2 * h + 1) in *.
    destruct (nth_error (seq 0 (length data + 2 * h - n + 1)) i) as [j|] eqn:Ej; [|discriminate].
    assert (Hi : i < length data + 2 * h - n + 1) by (rewrite <- (seq_length (length data + 2 * h - n + 1) 0); apply nth_error_Some; congruence).
    assert (Hj : j = i).
    { apply (nth_error_nth _ _ 0) in Ej. rewrite seq_nth in Ej by exact Hi. lia. }
    subst j. cbn [option_map] in H. apply (f_equal (fun o => match o with Some y => y | None => v end)) in H. cbn beta iota in H. rewrite <- H.
    rewrite weighted_sum, (section_nth _ 0%Q) by (rewrite pad_length; lia).
    unfold centred_mean. fold n. unfold Qdiv. rewrite Qmult_1_l. apply Qmult_comp; [|reflexivity].
    assert (Em : map (fun k => nth (i + k) (pad_edge h data) 0%Q) (seq 0 n)
      = map (fun k => continued data (Z.of_nat i + Z.of_nat k - Z.of_nat h)) (seq 0 n)).
    { apply map_ext_in. intros k Hk. apply in_seq in Hk. rewrite pad_nth by (try exact Hne; lia). f_equal. lia. }
    rewrite Em. reflexivity.
Qed.

Lemma moving_average_spec data time minutes : ascending time -> length time = length data -> data <> [] -> (0 <= minutes)%Q ->
  exists avg, calculate_moving_average data time minutes = Some avg /\ averaged minutes time data avg.
Proof.
  intros Ha Hl Hne Hm. destruct data as [|x [|y data]]; [congruence| |].
  - exists [x]. split; [reflexivity|]. split; [reflexivity|]. split; [reflexivity|]. cbn; lia.
  - set (l := x :: y :: data) in *.
    destruct (window_spec time minutes Ha) as (d & h & Hw & Hd & H1 & H2); [rewrite Hl; cbn; lia|exact Hm|].
    destruct (convolve_spec l h ltac:(discriminate)) as [Hc1 Hc2].
    exists (convolve_valid (pad_edge h l) (2 * h + 1) (1 / inject_Z (Z.of_nat (2 * h + 1)))). split.
    + unfold calculate_moving_average, l. rewrite Hw. replace ((2 * h + 1) / 2) with h; [reflexivity|].
      replace (2 * h + 1) with (1 + h * 2) by lia. rewrite Nat.div_add by lia. reflexivity.
    + split; [exact Hc1|]. split; [cbn; lia|]. intros _. exists d, h. rewrite <- diffs_neighbours.
      split; [exact Hd|]. split; [exact H1|]. split; [exact H2|]. exact Hc2.
Qed.

Lemma qsum_bounds lo hi l : (forall x, In x l -> lo <= x <= hi)%Q ->
  (lo * inject_Z (Z.of_nat (length l)) <= qsum l <= hi * inject_Z (Z.of_nat (length l)))%Q.
Proof.
  induction l as [|x l IH]; intros H.
  - cbn [length qsum Z.of_nat]. change (inject_Z 0) with 0%Q. split; lra.
  - destruct (IH (fun y Hy => H y (or_intror Hy))) as [I1 I2]. destruct (H x (or_introl eq_refl)).
    cbn [length qsum]. rewrite Nat2Z.inj_succ, <- Z.add_1_r, inject_Z_plus. change (inject_Z 1) with 1%Q. split; lra.
Qed.

Lemma centred_bounds lo hi data h i : data <> [] -> (forall x, In x data -> lo <= x <= hi)%Q ->
  (lo <= centred_mean data h i <= hi)%Q.
Proof.
  intros Hne H. unfold centred_mean. set (l := map _ _).
  assert (Hl : length l = 2 * h + 1) by (unfold l; rewrite map_length, seq_length; reflexivity).
  assert (Hb : forall x, In x l -> (lo <= x <= hi)%Q).
  { intros x Hx. unfold l in Hx. apply in_map_iff in Hx as (k & <- & _). apply H. unfold continued. apply nth_In.
    destruct data; [congruence|]. cbn [length]. lia. }
  destruct (qsum_bounds lo hi l Hb) as [H1 H2]. rewrite Hl in H1, H2.
  assert (Hp : (0 < inject_Z (Z.of_nat (2 * h + 1)))%Q) by (change 0%Q with (inject_Z 0); rewrite <- Zlt_Qlt; lia).
  split; [apply Qle_shift_div_l; [exact Hp|exact H1]|apply Qle_shift_div_r; [exact Hp|exact H2]].
Qed.

Lemma averaged_bounds minutes time data avg lo hi : averaged minutes time data avg ->
  (forall x, In x data -> lo <= x <= hi)%Q -> forall v, In v avg -> (lo <= v <= hi)%Q.
Proof.
  intros (Hl & H1 & H2) Hb v Hv. destruct data as [|x [|y data]].
  - destruct avg; [destruct Hv|discriminate].
  - rewrite (H1 eq_refl) in Hv. apply Hb. exact Hv.
  - destruct H2 as (d & h & _ & _ & _ & H); [cbn; lia|]. apply In_nth_error in Hv as [i Hi].
    rewrite (H _ _ Hi). apply centred_bounds; [discriminate|exact Hb].
Qed.

(** ** Blocks *)

Lemma section_S {A} a i (x : A) l : section (S a) (S i) (x :: l) = section a i l.
Proof. reflexivity. Qed.

Lemma split_from_S {A} inds : forall a (x : A) l, split_from (S a) (map S inds) (x :: l) = split_from a inds l.
Proof. induction inds as [|i inds IH]; intros a x l; [reflexivity|]. cbn [map split_from]. rewrite section_S, IH. reflexivity. Qed.

Definition cons_head {A} (x : A) (ll : list (list A)) : list (list A) :=
  match ll with [] => [[x]] | h :: r => (x :: h) :: r end.

Lemma split_0_S {A} inds (x : A) l : np_split (map S inds) (x :: l) = cons_head x (np_split inds l).
Proof.
  unfold np_split. destruct inds as [|i inds]; [reflexivity|]. cbn [map split_from cons_head].
  rewrite split_from_S. unfold section. rewrite !Nat.sub_0_r. reflexivity.
Qed.

Lemma split_cut {A} inds (x : A) l : np_split (1 :: map S inds) (x :: l) = [x] :: np_split inds l.
Proof. unfold np_split. cbn [split_from]. rewrite split_from_S. reflexivity. Qed.

Lemma split_step {A} c (cs : list bool) (x : A) l :
  np_split (map S (where1 (c :: cs))) (x :: l) =
  (if c then [x] :: np_split (map S (where1 cs)) l else cons_head x (np_split (map S (where1 cs)) l)).
Proof.
  rewrite where1_cons, map_app. destruct c; cbn [map app]; [apply split_cut|apply split_0_S].
Qed.

(** The runs of a row with one more element in front. *)
Definition shift1 (p : nat * nat) : nat * nat := (S (fst p), S (snd p)).

Lemma runs_shift row : forall j,
  runs_from (S j) None row = map shift1 (runs_from j None row) /\
  forall b, b < j -> runs_from (S j) (Some (S b)) row = map shift1 (runs_from j (Some b) row).
Proof.
  induction row as [|x row IH]; intros j; cbn [runs_from].
  - split; [reflexivity|]. intros b Hb. cbn [map]. unfold shift1. cbn [fst snd]. do 2 f_equal. lia.
  - destruct (IH (S j)) as [H1 H2]. destruct x.
    + split; [apply H2; lia|]. intros b Hb. apply H2. lia.
    + split; [exact H1|]. intros b Hb. rewrite H1, map_app. cbn [map]. unfold shift1 at 2. cbn [fst snd].
      do 3 f_equal. lia.
Qed.

Definition extend (l : list (nat * nat)) : list (nat * nat) :=
  match l with [] => [] | p :: r => (fst p, S (snd p)) :: map shift1 r end.

Lemma runs_open row : forall j b, b < j -> runs_from (S j) (Some b) row = extend (runs_from j (Some b) row).
Proof.
  induction row as [|x row IH]; intros j b Hj; cbn [runs_from].
  - cbn [extend fst snd]. do 2 f_equal. lia.
  - destruct x.
    + apply IH. lia.
    + cbn [app extend fst snd]. destruct (runs_shift row (S j)) as [H1 _]. rewrite H1. do 2 f_equal. lia.
Qed.

Lemma runs_true_false r : runs (true :: false :: r) = (0, 0) :: map shift1 (runs (false :: r)).
Proof. unfold runs. cbn [runs_from app]. destruct (runs_shift r 1) as [-> _]. reflexivity. Qed.
Lemma runs_true_true r : runs (true :: true :: r) = extend (runs (true :: r)).
Proof. unfold runs. cbn [runs_from]. apply runs_open. lia. Qed.
Lemma runs_false r : runs (false :: r) = map shift1 (runs r).
Proof. unfold runs. cbn [runs_from app]. apply runs_shift. Qed.
Lemma runs_true_first r : exists t rest, runs (true :: r) = (0, t) :: rest.
Proof.
  unfold runs. cbn [runs_from]. assert (H : forall j, exists t rest, runs_from j (Some 0) r = (0, t) :: rest).
  { induction r as [|[] r IH]; intros j; cbn [runs_from app]; eauto. }
  apply H.
Qed.

Definition slices {A} (l : list A) (rs : list (nat * nat)) : list (list A) := map (fun p => slice (fst p) (snd p) l) rs.

Lemma slices_shift {A} (x : A) l rs : slices (x :: l) (map shift1 rs) = slices l rs.
Proof. unfold slices. rewrite map_map. reflexivity. Qed.

Lemma blocks_spec {A} : forall (inv : list bool) (l : list A), inv <> [] -> length inv = length l ->
  exists h blocks, np_split (map S (where1 (changes inv))) l = h :: blocks /\
    every_second (skipn (if hd false inv then 1 else 0) (h :: blocks)) = slices l (runs (map negb inv)).
Proof.
  induction inv as [|a inv IH]; intros l Hne Hlen; [congruence|].
  destruct l as [|x l]; [discriminate|]. injection Hlen as Hlen.
  destruct inv as [|b inv].
  { destruct l; [|discriminate]. exists [x], []. split; [reflexivity|]. destruct a; reflexivity. }
  destruct l as [|y l]; [discriminate|].
  destruct (IH (y :: l) ltac:(discriminate) Hlen) as (h & blocks & Hs & He).
  change (changes (a :: b :: inv)) with (xorb a b :: changes (b :: inv)).
  rewrite split_step, Hs. cbn [hd] in *. cbn [map] in *. 
  assert (Hsec : forall {B} (z : B) r, every_second (z :: r) = z :: every_second (tl r)) by (intros B z [|w r]; reflexivity).
  destruct a, b; cbn [xorb negb] in *.
  - (* both invalid *)
    exists (x :: h), blocks. split; [reflexivity|].
    cbn [skipn] in *. rewrite He. rewrite (runs_false (false :: map negb inv)). symmetry. apply slices_shift.
  - exists [x], (h :: blocks). split; [reflexivity|].
    cbn [skipn] in *. rewrite He. rewrite (runs_false (true :: map negb inv)). symmetry. apply slices_shift.
  - exists [x], (h :: blocks). split; [reflexivity|].
    change (every_second ([x] :: h :: blocks) = slices (x :: y :: l) (runs (true :: false :: map negb inv))).
    change (every_second blocks = slices (y :: l) (runs (false :: map negb inv))) in He.
    change (every_second ([x] :: h :: blocks)) with ([x] :: every_second blocks). rewrite He, runs_true_false.
    unfold slices at 2. cbn [map fst snd]. fold (slices (x :: y :: l) (map shift1 (runs (false :: map negb inv)))).
    rewrite slices_shift. reflexivity.
  - exists (x :: h), blocks. split; [reflexivity|].
    cbn [skipn] in He |- *. rewrite Hsec in He |- *. rewrite runs_true_true.
    destruct (runs_true_first (map negb inv)) as (t & rest & Hr). rewrite Hr in *. cbn [extend fst snd].
    unfold slices in *. cbn [map fst snd] in *. injection He as Hh Hb. rewrite Hb. f_equal.
    + rewrite Hh. unfold slice. rewrite !Nat.sub_0_r. reflexivity.
    + fold (slices (x :: y :: l) (map shift1 rest)). rewrite slices_shift. reflexivity.
Qed.

Lemma valid_blocks_spec {A} (inv : list bool) (l : list A) : inv <> [] -> length inv = length l ->
  valid_blocks inv l = Ok (slices l (runs (map negb inv))).
Proof.
  intros Hne Hlen. destruct (blocks_spec inv l Hne Hlen) as (h & blocks & Hs & He).
  unfold valid_blocks, item. destruct inv as [|a inv]; [congruence|]. cbn [nth_error bind]. rewrite Hs.
  cbn [hd] in He. rewrite He. reflexivity.
Qed.

(** Cutting at time gaps. *)
Lemma cut_spec {A} g : forall time (vals : list A), time <> [] -> length time = length vals ->
  exists pieces, cut g (combine time vals) pieces /\
    let gaps := map S (where1 (map (fun d => qlt g d) (diffs time))) in
    combine (np_split gaps time) (np_split gaps vals) = map (fun p => (map fst p, map snd p)) pieces.
Proof.
  cbv zeta. intros time. induction time as [|x time IH]; intros vals Hne Hlen; [congruence|].
  destruct vals as [|v vals]; [discriminate|]. injection Hlen as Hlen.
  destruct time as [|y time].
  { destruct vals; [|discriminate]. exists [[(x, v)]]. split; [constructor|reflexivity]. }
  destruct vals as [|w vals]; [discriminate|].
  destruct (IH (w :: vals) ltac:(discriminate) Hlen) as (pieces & Hc & He).
  change (diffs (x :: y :: time)) with ((y - x)%Q :: diffs (y :: time)). cbn [map].
  rewrite !split_step. destruct (qlt g (y - x)%Q) eqn:E.
  - apply qlt_iff in E. exists ([(x, v)] :: pieces). split; [apply CutGap; [exact E|exact Hc]|].
    cbn [combine map fst snd]. f_equal. exact He.
  - apply qlt_false in E. destruct pieces as [|piece r]; [inversion Hc|].
    exists (((x, v) :: piece) :: r). split; [apply CutClose; [exact E|exact Hc]|].
    destruct (np_split (map S (where1 (map (fun d => qlt g d) (diffs (y :: time))))) (y :: time)) as [|a ra];
      [discriminate|].
    destruct (np_split (map S (where1 (map (fun d => qlt g d) (diffs (y :: time))))) (w :: vals)) as [|b rb];
      [discriminate|].
    cbn [combine cons_head map fst snd] in *. injection He as Ha Hb Hr. subst. f_equal. exact Hr.
Qed.

Lemma ascending_firstn n l : ascending l -> ascending (firstn n l).
Proof.
  revert n. induction l as [|x l IH]; intros [|n] H; try constructor.
  - apply IH. apply StronglySorted_inv in H. apply H.
  - apply StronglySorted_inv in H as [_ H]. rewrite Forall_forall in *. intros y Hy. apply H.
    rewrite <- (firstn_skipn n l). apply in_or_app. left. exact Hy.
Qed.
Lemma ascending_skipn n l : ascending l -> ascending (skipn n l).
Proof.
  revert n. induction l as [|x l IH]; intros [|n] H; try exact H.
  apply IH. apply StronglySorted_inv in H. apply H.
Qed.
Lemma slice_length {A} b t (l : list A) : b <= t -> t < length l -> length (slice b t l) = S t - b.
Proof. intros H1 H2. unfold slice. rewrite firstn_length, skipn_length. lia. Qed.

Definition curve (p : list (Q * Q)) : list Q * list Q := (map fst p, map snd p).

Lemma plot_average_spec ft time inv data : ft <> "model" -> time <> [] -> ascending time ->
  length inv = length time -> length data = length time ->
  exists rs pieces, lists_runs (map negb inv) rs /\
    Forall2 (fun r ps => exists avg, averaged 5 (slice (fst r) (snd r) time) (slice (fst r) (snd r) data) avg /\
       cut (hours (allowed_minutes ft)) (combine (slice (fst r) (snd r) time) avg) ps) rs pieces /\
    plot_moving_average ft time inv data = Ok (Some (map curve (concat pieces))).
Proof.
  intros Hm Hne Ha Hl1 Hl2.
  assert (Hine : inv <> []) by (destruct inv; [destruct time; [congruence|discriminate]|discriminate]).
  assert (Hbound : forall r, In r (runs (map negb inv)) -> fst r <= snd r < length time).
  { intros [b t] H. apply runs_bound in H. rewrite map_length, Hl1 in H. exact H. }
  unfold plot_moving_average. rewrite !valid_blocks_spec by congruence. cbn [bind].
  assert (Hseq : forall (ll : list (list Q)), sequence (map (fun _ => get_max_gap_in_minutes ft time) ll)
     = Ok (map (fun _ => allowed_minutes ft) ll)).
  { induction ll as [|z ll IH]; [reflexivity|]. cbn [map sequence]. rewrite IH, allowed_gap_spec by exact Hm. reflexivity. }
  rewrite Hseq. cbn [bind]. exists (runs (map negb inv)).
  assert (Hlr := runs_lists (map negb inv)).
  assert (H : exists pieces,
    Forall2 (fun r ps => exists avg, averaged 5 (slice (fst r) (snd r) time) (slice (fst r) (snd r) data) avg /\
       cut (hours (allowed_minutes ft)) (combine (slice (fst r) (snd r) time) avg) ps) (runs (map negb inv)) pieces /\
    sequence_option (map (fun '(time1, data1, gap_time) =>
       option_map (fun sma =>
         let gaps := map S (find_time_gap_indices time1 gap_time) in
         combine (np_split gaps time1) (np_split gaps sma))
       (calculate_moving_average data1 time1 5))
     (combine (combine (slices time (runs (map negb inv))) (slices data (runs (map negb inv))))
        (map (fun _ => allowed_minutes ft) (slices time (runs (map negb inv))))))
    = Some (map (map curve) pieces)).
  { clear Hlr. induction (runs (map negb inv)) as [|r rs IH].
    - exists []. split; [constructor|reflexivity].
    - destruct IH as (pieces & Hp & He); [intros q Hq; apply Hbound; right; exact Hq|].
      destruct (Hbound r (or_introl eq_refl)) as [Hb1 Hb2].
      assert (Hlen1 := slice_length _ _ time Hb1 Hb2).
      assert (Hlen2 := slice_length _ _ data Hb1 ltac:(rewrite Hl2; exact Hb2)).
      assert (Hasc : ascending (slice (fst r) (snd r) time)) by (unfold slice; apply ascending_firstn, ascending_skipn; exact Ha).
      destruct (moving_average_spec (slice (fst r) (snd r) data) (slice (fst r) (snd r) time) 5 Hasc) as (avg & Havg & Hsp).
      + congruence.
      + intros E. rewrite E in Hlen2. cbn [length] in Hlen2. lia.
      + discriminate.
      + destruct (cut_spec (hours (allowed_minutes ft)) (slice (fst r) (snd r) time) avg) as (ps & Hc & Hce).
        * intros E. rewrite E in Hlen1. cbn [length] in Hlen1. lia.
        * destruct Hsp as [Hsl _]. congruence.
        * exists (ps :: pieces). split; [constructor; [exists avg; split; assumption|exact Hp]|].
          unfold slices in *. cbn [map combine sequence_option]. rewrite Havg. cbn [option_map].
          rewrite He. cbn [option_map map]. do 2 f_equal. exact Hce. }
  destruct H as (pieces & Hp & He). exists pieces. split; [exact Hlr|]. split; [exact Hp|].
  apply (f_equal (fun o => Ok (option_map (@concat _) o))) in He. etransitivity; [exact He|].
  cbn [option_map]. rewrite concat_map. reflexivity.
Qed.

(** ** Limits *)

Lemma fold_min_spec r : forall v, let m := fold_left (fun a b => if Qle_bool a b then a else b) r v in
  In m (v :: r) /\ forall x, In x (v :: r) -> (m <= x)%Q.
Proof.
  intros v. destruct (np_min_spec (v :: r)) as (d & Hd & H1 & H2); [discriminate|].
  unfold np_min in Hd. injection Hd as <-. split; assumption.
Qed.
Lemma fold_max_spec r : forall v, let m := fold_left (fun a b => if Qle_bool a b then b else a) r v in
  In m (v :: r) /\ forall x, In x (v :: r) -> (x <= m)%Q.
Proof.
  cbv zeta. induction r as [|y r IH]; intros x.
  - split; [left; reflexivity|]. intros z [<-|[]]. cbn. lra.
  - cbn [fold_left]. destruct (Qle_bool x y) eqn:E.
    + apply Qle_bool_iff in E. destruct (IH y) as [H1 H2]. split; [right; exact H1|].
      intros z [<-|Hz]; [|apply H2; exact Hz]. eapply Qle_trans; [exact E|apply H2; left; reflexivity].
    + assert (E' : (y <= x)%Q) by (destruct (Qlt_le_dec x y) as [H|H]; [apply Qlt_le_weak, Qle_bool_iff in H; congruence|exact H]).
      destruct (IH x) as [H1 H2]. split; [destruct H1 as [H1|H1]; [left; exact H1|right; right; exact H1]|].
      intros z [<-|[<-|Hz]]; [apply H2; left; reflexivity| |apply H2; right; exact Hz].
      eapply Qle_trans; [exact E'|apply H2; left; reflexivity].
Qed.

Lemma y_limits_spec data : exists lo hi, get_y_limits data = (lo, hi) /\ (lo < hi)%Q /\
  (forall v, In (Some v) data -> (lo < v < hi)%Q) /\
  ((forall v, ~ In (Some v) data) -> (lo == - (1 # 20))%Q /\ (hi == 1 # 20)%Q) /\
  (forall a b, In (Some a) data -> In (Some b) data -> (a < b)%Q ->
     (forall v, In (Some v) data -> a <= v <= b)%Q ->
     (lo == a - (1 # 20) * (b - a))%Q /\ (hi == b + (1 # 20) * (b - a))%Q).
Proof.
  unfold get_y_limits.
  assert (Hin : forall v, In v (flat_map (fun x => match x with Some v => [v] | None => [] end) data) <-> In (Some v) data).
  { intros v. rewrite in_flat_map. split.
    - intros ([x|] & H & H'); [destruct H' as [<-|[]]; exact H|destruct H'].
    - intros H. exists (Some v). split; [exact H|left; reflexivity]. }
  destruct (flat_map (fun x => match x with Some v => [v] | None => [] end) data) as [|v r].
  - do 2 eexists. split; [reflexivity|]. split; [reflexivity|]. split; [intros v H; apply Hin in H; destruct H|].
    split; [intros _; split; reflexivity|]. intros a b H. apply Hin in H. destruct H.
  - destruct (fold_min_spec r v) as [M1 M2]. destruct (fold_max_spec r v) as [N1 N2].
    set (m := fold_left (fun a b => if Qle_bool a b then a else b) r v) in *.
    set (M := fold_left (fun a b => if Qle_bool a b then b else a) r v) in *. clearbody m M.
    cbv zeta.
    assert (HmM := M2 _ N1).
    assert (Hex : forall P : Prop, (forall v0 : Q, ~ In (Some v0) data) -> P).
    { intros P H. exfalso. apply (H v). apply Hin. left; reflexivity. }
    assert (Hext : forall a b, In (Some a) data -> In (Some b) data -> (forall v, In (Some v) data -> a <= v <= b)%Q -> (a == m /\ b == M)%Q).
    { intros a b Ha Hb H. assert (H1 := H _ (proj1 (Hin _) M1)). assert (H2 := H _ (proj1 (Hin _) N1)).
      apply Hin in Ha, Hb. assert (H3 := M2 _ Ha). assert (H4 := N2 _ Hb). split; lra. }
    destruct (Qeq_bool (m - (5 # 100) * (M - m)) 0 && Qeq_bool (M + (5 # 100) * (M - m)) 0) eqn:E0.
    + apply andb_true_iff in E0 as [E1 E2]. apply Qeq_bool_iff in E1, E2.
      do 2 eexists. split; [reflexivity|]. split; [reflexivity|]. split.
      { intros x Hx. apply Hin in Hx. assert (H1 := M2 _ Hx). assert (H2 := N2 _ Hx). split; lra. }
      split; [apply Hex|]. intros a b Ha Hb Hab H. destruct (Hext _ _ Ha Hb H). lra.
    + destruct (Qeq_bool (m - (5 # 100) * (M - m)) (M + (5 # 100) * (M - m))) eqn:E1.
      * apply Qeq_bool_iff in E1. assert (Em : (m == M)%Q) by lra.
        assert (Hz : ~ (m == 0)%Q).
        { intros Hz. apply andb_false_iff in E0 as [E0|E0]; apply Qeq_bool_neq in E0; apply E0; lra. }
        assert (Habs : (0 < Qabs (m - (5 # 100) * (M - m)))%Q).
        { apply Qabs_case; intros; lra. }
        do 2 eexists. split; [reflexivity|]. split; [lra|]. split.
        { intros x Hx. apply Hin in Hx. assert (H1 := M2 _ Hx). assert (H2 := N2 _ Hx). split; lra. }
        split; [apply Hex|]. intros a b Ha Hb Hab H. destruct (Hext _ _ Ha Hb H). lra.
      * apply Qeq_bool_neq in E1. assert (HM : (m < M)%Q) by (destruct (Qlt_le_dec m M); [assumption|exfalso; apply E1; lra]).
        do 2 eexists. split; [reflexivity|]. split; [lra|]. split.
        { intros x Hx. apply Hin in Hx. assert (H1 := M2 _ Hx). assert (H2 := N2 _ Hx). split; lra. }
        split; [apply Hex|]. intros a b Ha Hb Hab H. destruct (Hext _ _ Ha Hb H) as [Ea Eb].
        rewrite Ea, Eb. split; lra.
Qed.
