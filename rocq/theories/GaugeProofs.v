(** Proofs about the rain gauge, the RD-80 and the MRR-PRO. *)
From Coq Require Import List Bool Arith ZArith QArith Qround String Ascii Sorted Permutation Lia Lqa.
From Verif Require Import Base ArrayModel GridModel TimeModel OutputModel InstrumentModel SiteModel ReaderModel TelegramModel StationModel.
From Verif Require Import TimeSpec OutputSpec InstrumentSpec SiteSpec ReaderSpec StationSpec TelegramSpec CliSpec.
From Verif Require Import GridProofs TimeProofs OutputProofs InstrumentProofs SiteProofs ReaderProofs StationProofs TelegramProofs CliProofs.
From Verif Require Import WsModel WsSpec WsProofs GaugeModel GaugeSpec.
Import ListNotations.
Local Open Scope string_scope.
Local Open Scope nat_scope.
Local Open Scope list_scope.
Local Notation length := List.length (only parsing).

(** ** The median *)
Lemma insert_perm : forall x l, Permutation (x :: l) (insert_nat x l).
Proof.
  intros x l. induction l as [|y l IH]; cbn; [reflexivity|]. destruct (x <=? y); [reflexivity|].
  rewrite perm_swap, IH. reflexivity.
Qed.
Lemma sort_perm : forall l, Permutation l (sort_nat l).
Proof. intros l. induction l as [|x l IH]; cbn; [constructor|]. rewrite <- insert_perm. constructor. exact IH. Qed.
Lemma insert_sorted : forall x l, StronglySorted le l -> StronglySorted le (insert_nat x l).
Proof.
  intros x l S. induction S as [|y l S IH F]; cbn; [repeat constructor|]. destruct (Nat.leb_spec x y).
  - constructor; [constructor; assumption|]. constructor; [assumption|]. eapply Forall_impl; [|exact F]. intros; lia.
  - constructor; [exact IH|]. eapply Permutation_Forall; [apply insert_perm|]. constructor; [lia|exact F].
Qed.
Lemma sort_sorted : forall l, StronglySorted le (sort_nat l).
Proof. intros l. induction l as [|x l IH]; cbn; [constructor|]. apply insert_sorted. exact IH. Qed.
Lemma sorted_perm_eq : forall l m, StronglySorted le l -> StronglySorted le m -> Permutation l m -> l = m.
Proof.
  intros l. induction l as [|x l IH]; intros m S T P; [apply Permutation_nil in P; congruence|].
  destruct m as [|y m]; [apply Permutation_sym, Permutation_nil in P; discriminate|].
  inversion S as [|? ? S' F]; subst. inversion T as [|? ? T' G]; subst. rewrite Forall_forall in F, G.
  assert (E : x = y).
  { assert (A : In x (y :: m)) by (eapply Permutation_in; [exact P|left; reflexivity]).
    assert (B : In y (x :: l)) by (eapply Permutation_in; [symmetry; exact P|left; reflexivity]).
    destruct A as [A|A]; [congruence|]. destruct B as [B|B]; [congruence|]. specialize (F y B). specialize (G x A). lia. }
  subst y. f_equal. apply IH; try assumption. eapply Permutation_cons_inv. exact P.
Qed.
Lemma median_iff : forall l m, l <> [] -> (whole_median l m <-> median_int l = m).
Proof.
  intros l m NE. unfold median_int. set (s := sort_nat l). assert (L : length s = length l) by (symmetry; apply Permutation_length, sort_perm).
  assert (U : whole_median l m <->
    ((exists k, length s = 2 * k + 1 /\ nth_error s k = Some m) \/
     (exists k x y, length s = 2 * k + 2 /\ nth_error s k = Some x /\ nth_error s (S k) = Some y /\ 2 * m <= x + y < 2 * m + 2))).
  { split.
    - intros (s' & P & S & H). assert (s' = s) as -> by (apply sorted_perm_eq; [exact S|apply sort_sorted|rewrite <- P; apply sort_perm]). exact H.
    - intros H. exists s. split; [apply sort_perm|]. split; [apply sort_sorted|exact H]. }
  rewrite U. clear U. assert (0 < length s) by (destruct l; [congruence|rewrite L; cbn; lia]). clear L NE.
  assert (HN : forall i, i < length s -> nth_error s i = Some (nth i s 0)) by (intros i Hi; apply nth_error_nth'; exact Hi).
  destruct (Nat.even (length s)) eqn:E.
  - apply Nat.even_spec in E. destruct E as (k & E). destruct k as [|k]; [lia|]. rewrite E.
    replace (2 * S k / 2) with (S k) by (rewrite Nat.mul_comm, Nat.div_mul; lia). replace (S k - 1) with k by lia. split.
    + intros [(k' & A & _)|(k' & x & y & A & B & C & D)]; [lia|]. assert (k' = k) by lia. subst k'.
      rewrite HN in B, C by lia. injection B as B. injection C as C. rewrite B, C. symmetry. apply (Nat.div_unique _ 2 _ (x + y - 2 * m)); lia.
    + intros <-. right. exists k, (nth k s 0), (nth (S k) s 0). split; [lia|]. split; [apply HN; lia|]. split; [apply HN; lia|].
      set (z := nth k s 0 + nth (S k) s 0). assert (D := Nat.div_mod z 2 ltac:(lia)). assert (M := Nat.mod_upper_bound z 2 ltac:(lia)). lia.
  - assert (O : Nat.odd (length s) = true) by (rewrite <- Nat.negb_even, E; reflexivity). apply Nat.odd_spec in O. destruct O as (k & O). rewrite O.
    replace ((2 * k + 1) / 2) with k by (apply (Nat.div_unique _ 2 _ 1); lia). split.
    + intros [(k' & A & B)|(k' & x & y & A & _)]; [|lia]. assert (k' = k) by lia. subst k'. rewrite HN in B by lia. congruence.
    + intros <-. left. exists k. split; [lia|apply HN; lia].
Qed.

(** ** The rows of the rain gauge *)
Section Rain.
Context (to_num : string -> option (masked Q)) (to_stamp16 to_stamp22 : string -> option stamp).
(** Both loops. *)
Section Loop.
Context (pick : list string -> option stamp) (i j : nat) (ser : list string -> option string -> option string).
Fixpoint talker (data : list (list string)) (g : gauge) : result gauge :=
  match data with
  | [] => Ok g
  | row :: r =>
      match pick row with
      | None => talker r g
      | Some t => match to_num (nth i row ""), to_num (nth j row "") with
                  | Some x, Some y => talker r {| g_time := g_time g ++ [t]; g_rate := g_rate g ++ [x]; g_amount := g_amount g ++ [y];
                                                  g_serial := ser row (g_serial g) |}
                  | _, _ => Raise ValueError
                  end
      end
  end.
Definition picked (row : list string) : bool := match pick row with Some _ => true | None => false end.
Lemma talker_ok : forall data g g', talker data g = Ok g' <->
  exists ts xs ys, Forall2 (fun row t => pick row = Some t) (filter picked data) ts /\
    Forall2 (fun row x => to_num (nth i row "") = Some x) (filter picked data) xs /\
    Forall2 (fun row y => to_num (nth j row "") = Some y) (filter picked data) ys /\
    g_time g' = g_time g ++ ts /\ g_rate g' = g_rate g ++ xs /\ g_amount g' = g_amount g ++ ys /\
    g_serial g' = fold_left (fun s row => ser row s) (filter picked data) (g_serial g).
Proof.
  induction data as [|row data IH]; intros g g'; cbn [talker filter].
  - split.
    + intros H. injection H as <-. exists [], [], []. rewrite !app_nil_r. repeat (split; [constructor|]). repeat (split; [reflexivity|]). reflexivity.
    + intros (ts & xs & ys & A & B & C & D & E & F & G). inversion A; subst. inversion B; subst. inversion C; subst. rewrite app_nil_r in *. cbn in G.
      destruct g, g'; cbn in *. congruence.
  - assert (PR : picked row = match pick row with Some _ => true | None => false end) by reflexivity. rewrite PR.
    destruct (pick row) as [t|] eqn:P; [|apply IH].
    destruct (to_num (nth i row "")) as [x|] eqn:X.
    2:{ split; [discriminate|]. intros (ts & xs & ys & A & B & _). inversion B; subst. congruence. }
    destruct (to_num (nth j row "")) as [y|] eqn:Y.
    2:{ split; [discriminate|]. intros (ts & xs & ys & A & B & C & _). inversion C; subst. congruence. }
    rewrite IH. cbn [g_time g_rate g_amount g_serial fold_left]. split.
    + intros (ts & xs & ys & A & B & C & D & E & F & G). exists (t :: ts), (x :: xs), (y :: ys). rewrite <- app_assoc in D, E, F.
      repeat (split; [constructor; assumption|]). auto.
    + intros (ts & xs & ys & A & B & C & D & E & F & G). inversion A as [|? t' ? ts' A1 A2]; subst. inversion B as [|? x' ? xs' B1 B2]; subst.
      inversion C as [|? y' ? ys' C1 C2]; subst. exists ts', xs', ys'. rewrite <- !app_assoc. cbn [app].
      repeat (split; [assumption|]). repeat split; congruence.
Qed.
Lemma talker_error : forall data g e, talker data g = Raise e <->
  e = ValueError /\ exists row t, In row data /\ pick row = Some t /\ (to_num (nth i row "") = None \/ to_num (nth j row "") = None).
Proof.
  induction data as [|row data IH]; intros g e; cbn [talker].
  - split; [discriminate|]. intros (_ & row & t & [] & _).
  - assert (NX : forall g', (pick row = None \/ (to_num (nth i row "") <> None /\ to_num (nth j row "") <> None)) -> (talker data g' = Raise e <->
      e = ValueError /\ exists row' t, In row' (row :: data) /\ pick row' = Some t /\ (to_num (nth i row' "") = None \/ to_num (nth j row' "") = None))).
    { intros g' H. rewrite IH. split.
      - intros (-> & r & t & I & P). split; [reflexivity|]. exists r, t. split; [right; exact I|exact P].
      - intros (-> & r & t & I & P & Q). split; [reflexivity|]. exists r, t. split; [|auto]. destruct I as [<-|I]; [|exact I].
        exfalso. destruct H as [H|[H1 H2]]; [congruence|]. destruct Q; congruence. }
    destruct (pick row) as [t|] eqn:P; [|apply NX; left; reflexivity].
    assert (BAD : (to_num (nth i row "") = None \/ to_num (nth j row "") = None) -> (Raise ValueError : result gauge) = Raise e <->
      e = ValueError /\ exists row' t', In row' (row :: data) /\ pick row' = Some t' /\ (to_num (nth i row' "") = None \/ to_num (nth j row' "") = None)).
    { intros H. split; [|intros (-> & _); reflexivity]. intros E. injection E as <-. split; [reflexivity|]. exists row, t.
      split; [left; reflexivity|]. split; [exact P|exact H]. }
    destruct (to_num (nth i row "")) as [x|] eqn:X; [|apply BAD; left; reflexivity].
    destruct (to_num (nth j row "")) as [y|] eqn:Y; [|apply BAD; right; reflexivity].
    apply NX. right. split; congruence.
Qed.
End Loop.

Definition pick16 (date : option Z) (row : list string) : option stamp :=
  if negb (length row =? 16) then None
  else match to_stamp16 (nth 0 row "" ++ " " ++ nth 1 row "") with
       | None => None
       | Some t => if negb (wanted date t) then None else Some t
       end.
Definition pick22 (date : option Z) (row : list string) : option stamp :=
  if negb (length row =? 22) then None
  else match to_stamp22 (nth 0 row "") with
       | None => None
       | Some t => if negb (wanted date t) then None else Some t
       end.
Lemma talker16_eq : forall date data g, talker16 to_num to_stamp16 date data g = talker (pick16 date) 2 3 (fun _ s => s) data g.
Proof.
  intros date. induction data as [|row data IH]; intros g; [reflexivity|]. cbn [talker16 talker]. unfold pick16.
  destruct (negb (length row =? 16)); [apply IH|]. destruct (to_stamp16 _) as [t|]; [|apply IH]. destruct (negb (wanted date t)); [apply IH|].
  destruct (to_num (nth 2 row "")); [|reflexivity]. destruct (to_num (nth 3 row "")); [|reflexivity]. apply IH.
Qed.
Lemma talker22_eq : forall date data g, talker22 to_num to_stamp22 date data g = talker (pick22 date) 3 4 (fun row _ => Some (nth 18 row "")) data g.
Proof.
  intros date. induction data as [|row data IH]; intros g; [reflexivity|]. cbn [talker22 talker]. unfold pick22.
  destruct (negb (length row =? 22)); [apply IH|]. destruct (to_stamp22 _) as [t|]; [|apply IH]. destruct (negb (wanted date t)); [apply IH|].
  destruct (to_num (nth 3 row "")); [|reflexivity]. destruct (to_num (nth 4 row "")); [|reflexivity]. apply IH.
Qed.
Lemma wanted_iff : forall date t, wanted date t = true <-> asked date t.
Proof.
  intros [d|] t; unfold wanted, asked; [rewrite Z.eqb_eq|]; (split; [|auto]).
  - intros -> d' E. congruence.
  - intros H. symmetry. apply H. reflexivity.
  - intros _ d E. discriminate.
Qed.
Lemma at_nth : forall (row : list string) k a, k < length row -> (nth_error row k = Some a <-> a = nth k row "").
Proof. intros row k a L. rewrite (nth_error_nth' row "" L). split; congruence. Qed.
Lemma pick16_iff : forall date row t, pick16 date row = Some t <-> used16 to_stamp16 date row t.
Proof.
  intros date row t. unfold pick16, used16. destruct (Nat.eqb_spec (length row) 16) as [L|L]; cbn [negb]; [|split; [discriminate|intros (E & _); contradiction]].
  assert (X : (exists a b, nth_error row 0 = Some a /\ nth_error row 1 = Some b /\ to_stamp16 (a ++ " " ++ b) = Some t) <->
    to_stamp16 (nth 0 row "" ++ " " ++ nth 1 row "") = Some t).
  { split.
    - intros (a & b & A & B & C). apply at_nth in A; [|lia]. apply at_nth in B; [|lia]. congruence.
    - intros H. exists (nth 0 row ""), (nth 1 row ""). split; [apply at_nth; [lia|reflexivity]|]. split; [apply at_nth; [lia|reflexivity]|exact H]. }
  rewrite X. destruct (to_stamp16 _) as [t'|]; [|split; [discriminate|intros (_ & _ & H); discriminate]].
  destruct (wanted date t') eqn:W; cbn [negb].
  - apply wanted_iff in W. split; [intros H; injection H as <-; auto|]. intros (_ & _ & H). exact H.
  - split; [discriminate|]. intros (_ & H & E). injection E as ->. apply wanted_iff in H. congruence.
Qed.
Lemma pick22_iff : forall date row t, pick22 date row = Some t <-> used22 to_stamp22 date row t.
Proof.
  intros date row t. unfold pick22, used22. destruct (Nat.eqb_spec (length row) 22) as [L|L]; cbn [negb]; [|split; [discriminate|intros (E & _); contradiction]].
  assert (X : (exists a, nth_error row 0 = Some a /\ to_stamp22 a = Some t) <-> to_stamp22 (nth 0 row "") = Some t).
  { split.
    - intros (a & A & C). apply at_nth in A; [|lia]. congruence.
    - intros H. exists (nth 0 row ""). split; [apply at_nth; [lia|reflexivity]|exact H]. }
  rewrite X. destruct (to_stamp22 _) as [t'|]; [|split; [discriminate|intros (_ & _ & H); discriminate]].
  destruct (wanted date t') eqn:W; cbn [negb].
  - apply wanted_iff in W. split; [intros H; injection H as <-; auto|]. intros (_ & _ & H). exact H.
  - split; [discriminate|]. intros (_ & H & E). injection E as ->. apply wanted_iff in H. congruence.
Qed.

(** From the loop to the specification. *)
Section Used.
Context (pick : list string -> option stamp) (used : list string -> stamp -> Prop) (n i j : nat) (ser : list string -> option string -> option string).
Hypothesis HP : forall row t, pick row = Some t <-> used row t.
Hypothesis HL : forall row t, used row t -> length row = n.
Hypothesis Hi : i < n.
Hypothesis Hj : j < n.
Let none := {| g_time := []; g_rate := []; g_amount := []; g_serial := None |}.
Lemma picked_kept : forall data, kept (fun row => exists t, used row t) data (filter (picked pick) data).
Proof.
  intros data. apply kept_filter. intros row. unfold picked. destruct (pick row) as [t|] eqn:P.
  - split; [intros _; exists t; apply HP; exact P|reflexivity].
  - split; [discriminate|]. intros (t & U). apply HP in U. congruence.
Qed.
Lemma number_iff : forall row k x, k < length row -> (number_at to_num row k x <-> to_num (nth k row "") = Some x).
Proof.
  intros row k x L. unfold number_at. split.
  - intros (w & W & E). apply at_nth in W; [congruence|exact L].
  - intros H. exists (nth k row ""). split; [apply at_nth; [exact L|reflexivity]|exact H].
Qed.
Lemma kept_length : forall data row, In row (filter (picked pick) data) -> length row = n.
Proof.
  intros data row I. apply filter_In in I. destruct I as [_ P]. unfold picked in P. destruct (pick row) as [t|] eqn:E; [|discriminate].
  apply (HL row t). apply HP. exact E.
Qed.
Lemma forall2_in : forall A B (R R' : A -> B -> Prop) l m, (forall a b, In a l -> R a b -> R' a b) -> Forall2 R l m -> Forall2 R' l m.
Proof. intros A B R R' l m H F. induction F; constructor; [apply H; [left; reflexivity|assumption]|]. apply IHF. intros; apply H; [right; assumption|assumption]. Qed.
Lemma gauge_spec : forall data g,
  bind (talker pick i j ser data none) some_rows = Ok g <->
  exists ks, gauge_rows to_num used i j data ks g /\ g_serial g = fold_left (fun s row => ser row s) ks None.
Proof.
  intros data g. unfold gauge_rows. split.
  - destruct (talker pick i j ser data none) as [g'|e] eqn:T; cbn [bind]; [|discriminate]. unfold some_rows.
    destruct (g_time g') as [|t0 ts0] eqn:GT; [discriminate|]. intros H. injection H as <-.
    apply talker_ok in T. destruct T as (ts & xs & ys & A & B & C & D & E & F & G). cbn in D, E, F. exists (filter (picked pick) data).
    split; [|exact G]. split; [intros N; rewrite N in A; inversion A; subst; congruence|]. split; [apply picked_kept|].
    rewrite D, E, F. split; [eapply forall2_impl; [|exact A]; intros a b X; apply HP; exact X|].
    split; (eapply forall2_in; [|eassumption]); intros a b I X; apply number_iff; try exact X; rewrite (kept_length data a I); assumption.
  - intros (ks & (NE & K & A & B & C) & S). assert (ks = filter (picked pick) data) as -> by (eapply kept_unique; [exact K|apply picked_kept]).
    assert (T : talker pick i j ser data none = Ok g).
    { apply talker_ok. exists (g_time g), (g_rate g), (g_amount g). split; [eapply forall2_impl; [|exact A]; intros a b X; apply HP; exact X|].
      split; [|split]; [| |auto]; (eapply forall2_in; [|eassumption]); intros a b I X; apply number_iff; try exact X; rewrite (kept_length data a I); assumption. }
    rewrite T. cbn [bind]. unfold some_rows. destruct (g_time g) eqn:GT; [|reflexivity]. inversion A; congruence.
Qed.
Lemma gauge_errors : forall data e,
  bind (talker pick i j ser data none) some_rows = Raise e <->
  (e = ValueError /\ unreadable to_num used i j data) \/ (e = ValidTimeStampError /\ forall row t, In row data -> ~ used row t).
Proof.
  intros data e.
  assert (UN : unreadable to_num used i j data <-> exists row t, In row data /\ pick row = Some t /\ (to_num (nth i row "") = None \/ to_num (nth j row "") = None)).
  { unfold unreadable. split; intros (row & t & I & U & Q); exists row, t; (split; [exact I|]).
    - assert (L := HL row t U). split; [apply HP; exact U|]. destruct Q as [Q|Q]; [left|right].
      + destruct (to_num (nth i row "")) as [x|] eqn:X; [|reflexivity]. exfalso. apply (Q x). apply number_iff; [lia|exact X].
      + destruct (to_num (nth j row "")) as [x|] eqn:X; [|reflexivity]. exfalso. apply (Q x). apply number_iff; [lia|exact X].
    - apply HP in U. assert (L := HL row t U). split; [exact U|]. destruct Q as [Q|Q]; [left|right]; intros x N; apply number_iff in N; [congruence|lia|congruence|lia]. }
  destruct (talker pick i j ser data none) as [g|e'] eqn:T; cbn [bind].
  - assert (NU : ~ unreadable to_num used i j data).
    { intros U. apply UN in U. assert (X : talker pick i j ser data none = Raise ValueError) by (apply talker_error; auto). congruence. }
    apply talker_ok in T. destruct T as (ts & xs & ys & A & _ & _ & D & _). cbn in D. unfold some_rows. destruct (g_time g) as [|t0 ts0] eqn:GT.
    + subst ts. inversion A as [E|]. split.
      * intros H. injection H as <-. right. split; [reflexivity|]. intros row t I U. apply HP in U.
        assert (X : In row (filter (picked pick) data)) by (apply filter_In; split; [exact I|unfold picked; rewrite U; reflexivity]). rewrite <- E in X. destruct X.
      * intros [[_ U]|[-> _]]; [contradiction|reflexivity].
    + split; [discriminate|]. intros [[_ U]|[_ N]]; [contradiction|]. exfalso. rewrite <- D in A. inversion A as [|row ? l ? P A']; subst.
      assert (X : In row (filter (picked pick) data)) by (rewrite <- H; left; reflexivity). apply filter_In in X. apply (N row t0 (proj1 X)). apply HP. exact P.
  - assert (X := T). apply talker_error in X. destruct X as (-> & X). split.
    + intros H. injection H as <-. left. split; [reflexivity|]. apply UN. exact X.
    + intros [[-> _]|[-> N]]; [reflexivity|]. exfalso. destruct X as (row & t & I & P & _). apply (N row t I). apply HP. exact P.
Qed.
End Used.
Lemma serial_last : forall ks s, ks <> [] -> fold_left (fun (_ : option string) row => Some (nth 18 row "")) ks s = Some (nth 18 (last ks []) "").
Proof.
  intros ks. induction ks as [|k ks IH]; intros s N; [congruence|]. cbn [fold_left]. destruct ks as [|k' ks]; [reflexivity|]. rewrite IH by discriminate. reflexivity.
Qed.
Lemma serial_none : forall (ks : list (list string)) s, fold_left (fun (s : option string) row => s) ks s = s.
Proof. intros ks. induction ks as [|k ks IH]; intros s; [reflexivity|apply IH]. Qed.
End Rain.

(** ** Sorting and removing duplicates *)
Lemma take_seq : forall A (l : list A), take l (seq 0 (length l)) = l.
Proof.
  intros A l. induction l as [|x l IH]; [reflexivity|]. cbn [length seq]. unfold take. cbn [flat_map nth_error]. cbn [app].
  f_equal. rewrite <- seq_shift. change (take (x :: l) (map S (seq 0 (length l))) = l). rewrite take_shift. exact IH.
Qed.
Lemma nth_firstn_lt : forall A (l : list A) k j, j < k -> nth_error (firstn k l) j = nth_error l j.
Proof. intros A l k. revert l. induction k as [|k IH]; intros [|x l] [|j] L; try reflexivity; try lia. cbn. apply IH. lia. Qed.
Lemma first_exists : forall l k x, nth_error l k = Some x -> exists i y, first_occurrence l i /\ nth_error l i = Some y /\ (y == x)%Q.
Proof.
  intros l k. induction k as [k IH] using lt_wf_ind. intros x H.
  destruct (existsb (fun y => Qeq_bool x y) (firstn k l)) eqn:E.
  - apply existsb_exists in E. destruct E as (y & I & E). apply Qeq_bool_iff in E. apply In_nth_error in I. destruct I as (j & J).
    assert (Lj : j < length (firstn k l)) by (apply nth_error_Some; congruence). rewrite firstn_length in Lj.
    assert (N : nth_error l j = Some y) by (rewrite <- J; symmetry; apply nth_firstn_lt; lia).
    destruct (IH j ltac:(lia) y N) as (i & z & F & Z & Q). exists i, z. split; [exact F|]. split; [exact Z|]. rewrite Q, E. reflexivity.
  - exists k, x. split; [|split; [exact H|reflexivity]]. exists x. split; [exact H|]. intros j y L N Q.
    assert (X : existsb (fun y => Qeq_bool x y) (firstn k l) = true).
    { apply existsb_exists. exists y. split; [|apply Qeq_bool_iff; exact Q]. eapply nth_error_In. rewrite nth_firstn_lt; [exact N|lia]. }
    congruence.
Qed.
Lemma sorted_lt_perm : forall l m, StronglySorted lt l -> StronglySorted lt m -> Permutation l m -> l = m.
Proof.
  assert (X : forall l, StronglySorted lt l -> StronglySorted le l).
  { intros l S. induction S as [|x l S IH F]; constructor; [exact IH|]. eapply Forall_impl; [|exact F]. intros; lia. }
  intros l m S T P. apply sorted_perm_eq; auto.
Qed.
Lemma seq_sorted : forall n s, StronglySorted lt (seq s n).
Proof. induction n as [|n IH]; intros s; cbn; constructor; [apply IH|]. apply Forall_forall. intros x I. apply in_seq in I. lia. Qed.
Lemma sorted_nodup : forall l, StronglySorted lt l -> NoDup l.
Proof.
  intros l S. induction S as [|x l S IH F]; constructor; [|exact IH]. intros I. rewrite Forall_forall in F. specialize (F x I). lia.
Qed.
Lemma increasing_nth : forall l i j a b, strictly_increasing l -> nth_error l i = Some a -> nth_error l j = Some b -> i < j -> (a < b)%Q.
Proof.
  intros l i j a b S. revert i j. induction S as [|x l S IH F]; intros i j A B L; [destruct i; discriminate|].
  destruct j as [|j]; [lia|]. destruct i as [|i]; cbn in A, B.
  - injection A as <-. rewrite Forall_forall in F. apply F. eapply nth_error_In. exact B.
  - eapply IH; try eassumption. lia.
Qed.
Lemma argsort_increasing : forall l ind, is_argsort l ind -> strictly_increasing l -> ind = seq 0 (length l).
Proof.
  intros l ind [P S] I. apply sorted_lt_perm; [|apply seq_sorted|exact P].
  assert (N : NoDup ind) by (eapply Permutation_NoDup; [symmetry; exact P|apply seq_NoDup]).
  assert (B : forall i, In i ind -> i < length l) by (intros i H; apply (Permutation_in _ P) in H; apply in_seq in H; lia).
  clear P. induction S as [|i ind S IH F]; constructor.
  - apply IH; [inversion N; assumption|intros; apply B; right; assumption].
  - apply Forall_forall. intros j J. rewrite Forall_forall in F. specialize (F j J).
    assert (i <> j) by (inversion N; congruence). assert (Li := B i (or_introl eq_refl)). assert (Lj := B j (or_intror J)).
    destruct (nth_error l i) as [a|] eqn:A; [|apply nth_error_None in A; lia]. destruct (nth_error l j) as [b|] eqn:E; [|apply nth_error_None in E; lia].
    specialize (F a b eq_refl eq_refl). destruct (Nat.lt_trichotomy i j) as [L|[L|L]]; [exact L|contradiction|].
    assert (X := increasing_nth l j i b a I E A L). lra.
Qed.
Lemma unique_increasing : forall l, strictly_increasing l -> unique_index l = seq 0 (length l).
Proof.
  intros l I. destruct (unique_spec l) as [U S].
  assert (F : forall i, first_occurrence l i <-> i < length l).
  { intros i. split; [apply first_occurrence_lt|]. intros L. destruct (nth_error l i) as [x|] eqn:E; [|apply nth_error_None in E; lia].
    exists x. split; [exact E|]. intros j y J Y Q. assert (X := increasing_nth l j i y x I Y E J). lra. }
  assert (SL : StronglySorted lt (unique_index l)).
  { assert (B : forall i, In i (unique_index l) -> i < length l) by (intros i H; apply U, F in H; exact H).
    clear U. induction S as [|i ind S IH G]; constructor; [apply IH; intros; apply B; right; assumption|].
    apply Forall_forall. intros j J. rewrite Forall_forall in G. specialize (G j J).
    assert (Li := B i (or_introl eq_refl)). assert (Lj := B j (or_intror J)).
    destruct (nth_error l i) as [a|] eqn:A; [|apply nth_error_None in A; lia]. destruct (nth_error l j) as [b|] eqn:E; [|apply nth_error_None in E; lia].
    specialize (G a b A E). destruct (Nat.lt_trichotomy i j) as [L|[L|L]]; [exact L| |].
    - subst j. assert (a = b) by congruence. subst b. lra.
    - assert (X := increasing_nth l j i b a I E A L). lra. }
  apply sorted_lt_perm; [exact SL|apply seq_sorted|].
  apply NoDup_Permutation; [apply sorted_nodup; exact SL|apply seq_NoDup|].
  intros i. rewrite U, F, in_seq. lia.
Qed.
Lemma take_length : forall A (l : list A) ind, (forall i, In i ind -> i < length l) -> length (take l ind) = length ind.
Proof. intros A l ind H. apply take_picks in H. apply forall2_nth in H. symmetry. exact (proj1 H). Qed.
Lemma sort_dedup : forall H ind, is_argsort H ind ->
  let ind' := unique_index (take H ind) in let J := take ind ind' in
  (forall i, In i J -> i < length H) /\ (forall A (X : list A), length X = length H -> take (take X ind) ind' = take X J) /\
  strictly_increasing (take H J) /\ (forall x, In x H -> exists y, In y (take H J) /\ (y == x)%Q).
Proof.
  intros H ind AS ind' J. destruct AS as [P S].
  assert (B : forall i, In i ind -> i < length H) by (intros i I; apply (Permutation_in _ P) in I; apply in_seq in I; lia).
  assert (L : length (take H ind) = length ind) by (apply take_length; exact B).
  destruct (unique_spec (take H ind)) as [U S'].
  assert (B' : forall k, In k ind' -> k < length ind) by (intros k I; apply U, first_occurrence_lt in I; lia).
  assert (T : forall A (X : list A), length X = length H -> take (take X ind) ind' = take X J).
  { intros A X E. apply take_take. intros i I. rewrite E. apply B. exact I. }
  assert (PJ : picks ind ind' J) by (apply take_picks; exact B').
  assert (BJ : forall i, In i J -> i < length H).
  { intros i I. apply B. apply In_nth_error in I. destruct I as (k & K). apply forall2_nth in PJ. destruct PJ as [PL PJ].
    destruct (nth_error ind' k) as [a|] eqn:E; [|apply nth_error_None in E; assert (k < length J) by (apply nth_error_Some; congruence); lia].
    eapply nth_error_In. exact (PJ k a i E K). }
  split; [exact BJ|]. split; [exact T|]. split.
  - rewrite <- (T Q H eq_refl). eapply sorted_take; [exact S'|]. apply take_picks. intros k I. rewrite L. apply B'. exact I.
  - intros x I. apply In_nth_error in I. destruct I as (i & I).
    assert (M : In i ind) by (eapply Permutation_in; [symmetry; exact P|]; apply in_seq; assert (i < length H) by (apply nth_error_Some; congruence); lia).
    apply In_nth_error in M. destruct M as (k & M).
    assert (K : nth_error (take H ind) k = Some x) by (rewrite take_nth by exact B; rewrite M; exact I).
    destruct (first_exists _ _ _ K) as (k' & y & F & Y & E). exists y. split; [|exact E]. rewrite <- (T Q H eq_refl).
    apply U in F. apply In_nth_error in F. destruct F as (m & F).
    apply (nth_error_In _ m). rewrite take_nth; [fold ind' in F; rewrite F; exact Y|]. intros j J'. rewrite L. apply B'. exact J'.
Qed.

(** ** The output of the rain gauge *)
Lemma gauge_lengths : forall to_num used i j data ks g, gauge_rows to_num used i j data ks g ->
  length (g_rate g) = length (g_time g) /\ length (g_amount g) = length (g_time g) /\ g_time g <> [].
Proof.
  intros to_num used i j data ks g (NE & _ & A & B & C). apply forall2_nth in A, B, C. destruct A as [A _], B as [B _], C as [C _].
  repeat split; try lia. intros E. rewrite E in A. destruct ks; [congruence|discriminate].
Qed.
Lemma parse_lengths : forall to_num f16 f22 date data g, parse_gauge to_num f16 f22 date data = Ok g ->
  length (g_rate g) = length (g_time g) /\ length (g_amount g) = length (g_time g) /\ g_time g <> [] /\
  (forall t, In t (g_time g) -> (exists w, f16 w = Some t \/ f22 w = Some t) /\ asked date t).
Proof.
  intros to_num f16 f22 date data g. unfold parse_gauge. destruct (median_int _ =? 22); [|destruct (median_int _ =? 16); [|discriminate]].
  - intros H. rewrite talker22_eq in H. apply (gauge_spec to_num (pick22 f22 date) (used22 f22 date) 22 3 4 _ (pick22_iff f22 date)) in H;
      [|intros row t U; exact (proj1 U)|lia|lia]. destruct H as (ks & G & _). destruct (gauge_lengths _ _ _ _ _ _ _ G) as (A & B & C).
    split; [exact A|]. split; [exact B|]. split; [exact C|]. destruct G as (_ & _ & F & _). intros t I. apply In_nth_error in I. destruct I as (k & I).
    apply forall2_nth in F. destruct F as [L F]. destruct (nth_error ks k) as [row|] eqn:E; [|apply nth_error_None in E; assert (k < length (g_time g)) by (apply nth_error_Some; congruence); lia].
    destruct (F k row t E I) as (_ & X & a & _ & Y). split; [exists a; right; exact Y|exact X].
  - intros H. rewrite talker16_eq in H. apply (gauge_spec to_num (pick16 f16 date) (used16 f16 date) 16 2 3 _ (pick16_iff f16 date)) in H;
      [|intros row t U; exact (proj1 U)|lia|lia]. destruct H as (ks & G & _). destruct (gauge_lengths _ _ _ _ _ _ _ G) as (A & B & C).
    split; [exact A|]. split; [exact B|]. split; [exact C|]. destruct G as (_ & _ & F & _). intros t I. apply In_nth_error in I. destruct I as (k & I).
    apply forall2_nth in F. destruct F as [L F]. destruct (nth_error ks k) as [row|] eqn:E; [|apply nth_error_None in E; assert (k < length (g_time g)) by (apply nth_error_Some; congruence); lia].
    destruct (F k row t E I) as (_ & X & a & b & _ & _ & Y). split; [eexists; left; exact Y|exact X].
Qed.
Lemma amounts_total : forall l, l <> [] -> exists out, normalize_cumulative_amount l = Ok out /\ length out = length l.
Proof.
  intros [|[x|] l] N; [congruence| |].
  - eexists. split; [reflexivity|]. exact (proj1 (amount_shape x l _ eq_refl)).
  - eexists. split; [reflexivity|]. exact (proj1 (amount_leading_gap l _ eq_refl)).
Qed.
Lemma rain_eq : forall to_num f16 f22 argsort date data g, parse_gauge to_num f16 f22 date data = Ok g -> (forall l, is_argsort l (argsort l)) ->
  exists J am o t0, rain_e_h3 to_num f16 f22 argsort date data = Ok o /\ hd_error (g_time g) = Some t0 /\ go_day o = fst t0 /\
    (forall i, In i J -> i < length (g_time g)) /\ normalize_cumulative_amount (map (option_map gauge_amount) (g_amount g)) = Ok am /\
    go_hours o = map hours_of (take (g_time g) J) /\ go_rate o = map (option_map gauge_rate) (take (g_rate g) J) /\ go_amount o = take am J /\
    go_serial o = g_serial g /\ strictly_increasing (go_hours o) /\
    (forall t, In t (g_time g) -> exists y, In y (go_hours o) /\ (y == hours_of t)%Q) /\
    (strictly_increasing (map hours_of (g_time g)) -> J = seq 0 (length (g_time g))).
Proof.
  intros to_num f16 f22 argsort date data g PG HA. destruct (parse_lengths _ _ _ _ _ _ PG) as (LR & LA & NE & _).
  unfold rain_e_h3. rewrite PG. cbn [bind]. destruct (g_time g) as [|t0 ts] eqn:GT; [congruence|].
  destruct (amounts_total (map (option_map gauge_amount) (g_amount g))) as (am & N & AL).
  { intros E. apply (f_equal (@List.length _)) in E. rewrite map_length, LA in E. discriminate. }
  rewrite map_length in AL. rewrite N. cbn [bind]. rewrite <- GT in *. set (H := map hours_of (g_time g)).
  assert (LH : length H = length (g_time g)) by apply map_length.
  destruct (sort_dedup H (argsort H) (HA H)) as (BJ & TJ & SI & CO). set (J := take (argsort H) (unique_index (take H (argsort H)))) in *.
  exists J, am. eexists. exists t0. split; [reflexivity|]. cbn [go_day go_hours go_rate go_amount go_serial].
  split; [rewrite GT; reflexivity|]. split; [reflexivity|]. split; [rewrite <- LH; exact BJ|]. split; [reflexivity|].
  rewrite (TJ _ H eq_refl), (TJ _ am ltac:(lia)), (TJ _ (map (option_map gauge_rate) (g_rate g)) ltac:(rewrite map_length; lia)).
  split; [apply take_map|]. split; [apply take_map|]. split; [reflexivity|]. split; [reflexivity|]. split; [exact SI|]. split.
  - intros t I. apply CO. apply in_map. exact I.
  - intros S. unfold J. rewrite (argsort_increasing H _ (HA H) S), take_seq. rewrite (unique_increasing H S), LH.
    rewrite <- (seq_length (length (g_time g)) 0) at 2. apply take_seq.
Qed.
Lemma hours_increasing : forall times, in_order times -> (forall t, In t times -> whole_second t) ->
  (forall a b, In a times -> In b times -> fst a = fst b) -> strictly_increasing (map hours_of times).
Proof.
  intros times O W D. induction O as [|t ts O IH F]; cbn [map]; constructor.
  - apply IH; intros; [apply W|apply D]; right; assumption.
  - apply Forall_forall. intros h I. apply in_map_iff in I. destruct I as (u & <- & I). rewrite Forall_forall in F.
    assert (X := F u I). unfold earlier in X. assert (E := D t u (or_introl eq_refl) (or_intror I)).
    assert (A := hours_whole t (W t (or_introl eq_refl))). assert (B := hours_whole u (W u (or_intror I))). unfold hours in A, B.
    assert (L : (snd t < snd u)%Z) by lia. rewrite Zlt_Qlt in L. rewrite <- A, <- B in L. lra.
Qed.
Lemma gauge_in_order : forall to_num f16 f22 argsort date data g, parse_gauge to_num f16 f22 date data = Ok g -> (forall l, is_argsort l (argsort l)) ->
  strictly_increasing (map hours_of (g_time g)) ->
  exists am o, rain_e_h3 to_num f16 f22 argsort date data = Ok o /\ go_hours o = map hours_of (g_time g) /\
    go_rate o = map (option_map gauge_rate) (g_rate g) /\ go_amount o = am /\
    normalize_cumulative_amount (map (option_map gauge_amount) (g_amount g)) = Ok am.
Proof.
  intros to_num f16 f22 argsort date data g PG HA SI. destruct (parse_lengths _ _ _ _ _ _ PG) as (LR & LA & NE & _).
  destruct (rain_eq _ _ _ _ _ _ _ PG HA) as (J & am & o & t0 & R & _ & _ & _ & N & HH & HR & HM & _ & _ & _ & HJ).
  specialize (HJ SI). subst J. exists am, o. split; [exact R|]. rewrite take_seq in HH. split; [exact HH|].
  rewrite <- LR, take_seq in HR. split; [exact HR|]. split; [|exact N].
  assert (NA : map (option_map gauge_amount) (g_amount g) <> []).
  { intros E. apply (f_equal (@List.length _)) in E. rewrite map_length, LA in E. destruct (g_time g); [congruence|discriminate]. }
  destruct (amounts_total _ NA) as (am' & N' & AL). assert (am' = am) by congruence. subst am'. rewrite map_length, LA in AL.
  rewrite HM, <- AL. apply take_seq.
Qed.

(** ** Reading RD-80 files *)
Section Rd.
Context (to_num : string -> option (masked Q)) (to_int : string -> option Z) (to_stamp : string -> option stamp).
Lemma dots_iff : forall w v, dots w = v <-> points w v.
Proof.
  unfold points. induction w as [|c w IH]; intros v; cbn [dots list_ascii_of_string].
  - split; [intros <-; constructor|]. destruct v; [reflexivity|]. intros H. inversion H.
  - split.
    + intros <-. cbn [list_ascii_of_string]. constructor; [|apply IH; reflexivity]. destruct (Ascii.eqb_spec c ","); [left|right]; auto.
    + destruct v as [|c' v]; cbn [list_ascii_of_string]; intros H; inversion H as [|? ? ? ? A B]; subst. apply IH in B. rewrite B.
      destruct (Ascii.eqb_spec c ","); destruct A as [[A A']|[A A']]; congruence.
Qed.
Section Row.
Context (keys ws : list string).
Hypothesis ND : NoDup keys.
Hypothesis LW : length ws = length keys.
Lemma cell_iff : forall k w, cell keys ws k = Some w <-> field keys k ws w.
Proof.
  intros k w. unfold cell, field. rewrite get_in.
  - rewrite <- in_rev. split.
    + intros I. apply In_nth_error in I. destruct I as (i & I). exists i. clear ND LW. revert ws i I.
      induction keys as [|x ks IH]; intros [|y ys] [|i] I; try discriminate; cbn in *; [injection I as -> ->; auto|]. apply IH. exact I.
    + intros (i & A & B). apply (nth_error_In _ i). clear ND LW. revert ws i A B.
      induction keys as [|x ks IH]; intros [|y ys] [|i] A B; try discriminate; cbn in *; [congruence|]. apply IH; assumption.
  - rewrite map_rev. apply NoDup_rev. rewrite combine_fst by lia. exact ND.
Qed.
Lemma cell_none : forall k, cell keys ws k = None <-> ~ In k keys.
Proof.
  intros k. split.
  - intros H I. destruct (full_field keys ws k ND I ltac:(lia)) as (w & F). apply cell_iff in F. congruence.
  - intros H. destruct (cell keys ws k) as [w|] eqn:E; [|reflexivity]. apply cell_iff in E. destruct E as (i & A & _). exfalso. apply H. eapply nth_error_In. exact A.
Qed.
Lemma text_ok : forall k w, text_cell keys ws k = Ok w <-> field keys k ws w.
Proof. intros k w. unfold text_cell. rewrite <- cell_iff. destruct (cell keys ws k); split; congruence. Qed.
Lemma text_error : forall k e, text_cell keys ws k = Raise e -> e = KeyError /\ ~ In k keys.
Proof. intros k e. unfold text_cell. rewrite <- cell_none. destruct (cell keys ws k); [discriminate|]. intros H. injection H as <-. auto. Qed.
Lemma int_ok : forall k z, int_cell to_int keys ws k = Ok z <-> int_field to_int keys ws k z.
Proof.
  intros k z. unfold int_cell, int_field. split.
  - destruct (text_cell keys ws k) as [w|e] eqn:E; cbn [bind]; [|discriminate]. apply text_ok in E.
    destruct (to_int w) as [z'|] eqn:T; [|discriminate]. intros H. injection H as <-. exists w. auto.
  - intros (w & F & T). apply text_ok in F. rewrite F. cbn [bind]. rewrite T. reflexivity.
Qed.
Definition row_error (k : string) (e : exn) : Prop := (e = KeyError /\ ~ In k keys) \/ e = ValueError.
Lemma int_error : forall k e, int_cell to_int keys ws k = Raise e -> row_error k e.
Proof.
  intros k e. unfold int_cell. destruct (text_cell keys ws k) as [w|e'] eqn:E; cbn [bind].
  - destruct (to_int w); [discriminate|]. intros H. injection H as <-. right. reflexivity.
  - intros H. injection H as <-. left. apply text_error. exact E.
Qed.
Lemma float_ok : forall k x, float_cell to_num keys ws k = Ok x <-> float_field to_num keys ws k x.
Proof.
  intros k z. unfold float_cell, float_field. split.
  - destruct (text_cell keys ws k) as [w|e] eqn:E; cbn [bind]; [|discriminate]. apply text_ok in E.
    destruct (to_num (dots w)) as [z'|] eqn:T; [|discriminate]. intros H. injection H as <-. exists w, (dots w). split; [exact E|]. split; [apply dots_iff; reflexivity|exact T].
  - intros (w & v & F & D & T). apply text_ok in F. rewrite F. cbn [bind]. apply dots_iff in D. rewrite D, T. reflexivity.
Qed.
Lemma float_error : forall k e, float_cell to_num keys ws k = Raise e -> row_error k e.
Proof.
  intros k e. unfold float_cell. destruct (text_cell keys ws k) as [w|e'] eqn:E; cbn [bind].
  - destruct (to_num (dots w)); [discriminate|]. intros H. injection H as <-. right. reflexivity.
  - intros H. injection H as <-. left. apply text_error. exact E.
Qed.
Lemma ints_ok : forall ks zs, int_cells to_int keys ws ks = Ok zs <-> Forall2 (int_field to_int keys ws) ks zs.
Proof.
  induction ks as [|k ks IH]; intros zs; cbn [int_cells].
  - split; [intros H; injection H as <-; constructor|intros H; inversion H; reflexivity].
  - split.
    + destruct (int_cell to_int keys ws k) as [z|e] eqn:E; cbn [bind]; [|discriminate]. apply int_ok in E.
      destruct (int_cells to_int keys ws ks) as [zs'|e]; cbn [bind]; [|discriminate]. intros H. injection H as <-. constructor; [exact E|apply IH; reflexivity].
    + intros H. inversion H as [|? z ? zs' A B]; subst. apply int_ok in A. apply IH in B. rewrite A, B. reflexivity.
Qed.
Lemma ints_error : forall ks e, int_cells to_int keys ws ks = Raise e -> exists k, In k ks /\ row_error k e.
Proof.
  induction ks as [|k ks IH]; intros e; cbn [int_cells]; [discriminate|].
  destruct (int_cell to_int keys ws k) as [z|e'] eqn:E; cbn [bind].
  - destruct (int_cells to_int keys ws ks) as [zs'|e'] eqn:F; cbn [bind]; [discriminate|]. intros H. injection H as <-.
    destruct (IH e' eq_refl) as (k' & I & R). exists k'. split; [right; exact I|exact R].
  - intros H. injection H as <-. exists k. split; [left; reflexivity|]. apply int_error. exact E.
Qed.
Definition row_rel (r : stamp * drops) : Prop :=
  stamp_field to_stamp keys ws (fst r) /\
    Forall2 (int_field to_int keys ws) classes (d_n (snd r)) /\ int_field to_int keys ws "Interval [s]" (d_interval (snd r)) /\
    float_field to_num keys ws "RI [mm/h]" (d_rate (snd r)) /\ float_field to_num keys ws "RA [mm]" (d_amount (snd r)) /\
    float_field to_num keys ws "RAT [mm]" (d_total (snd r)).
Lemma row_ok : forall r, rd80_row to_num to_int to_stamp keys ws = Ok r <-> row_rel r.
Proof.
  intros [t [n i x y z]]. unfold row_rel, rd80_row, stamp_field. cbn [fst snd d_n d_interval d_rate d_amount d_total]. change classes with class_keys. split.
  - destruct (text_cell keys ws "YYYY-MM-DD") as [a|e] eqn:A; cbn [bind]; [|discriminate]. apply text_ok in A.
    destruct (text_cell keys ws "hh:mm:ss") as [b|e] eqn:B; cbn [bind]; [|discriminate]. apply text_ok in B.
    destruct (to_stamp (a ++ " " ++ b)) as [t'|] eqn:T; [|discriminate].
    destruct (int_cells to_int keys ws class_keys) as [n'|e] eqn:C; cbn [bind]; [|discriminate]. apply ints_ok in C.
    destruct (int_cell to_int keys ws "Interval [s]") as [i'|e] eqn:D; cbn [bind]; [|discriminate]. apply int_ok in D.
    destruct (float_cell to_num keys ws "RI [mm/h]") as [x'|e] eqn:X; cbn [bind]; [|discriminate]. apply float_ok in X.
    destruct (float_cell to_num keys ws "RA [mm]") as [y'|e] eqn:Y; cbn [bind]; [|discriminate]. apply float_ok in Y.
    destruct (float_cell to_num keys ws "RAT [mm]") as [z'|e] eqn:Z; cbn [bind]; [|discriminate]. apply float_ok in Z.
    intros H. injection H as <- <- <- <- <- <-. split; [exists a, b; auto|]. auto.
  - intros ((a & b & A & B & T) & C & D & X & Y & Z). apply text_ok in A, B. apply ints_ok in C. apply int_ok in D. apply float_ok in X, Y, Z.
    rewrite A. cbn [bind]. rewrite B. cbn [bind]. rewrite T, C. cbn [bind]. rewrite D. cbn [bind]. rewrite X. cbn [bind]. rewrite Y. cbn [bind]. rewrite Z. reflexivity.
Qed.
Lemma in_titles : forall k, In k class_keys -> In k titles.
Proof. intros k I. unfold titles. apply in_or_app. right. apply in_or_app. left. exact I. Qed.
Lemma row_err : forall e, rd80_row to_num to_int to_stamp keys ws = Raise e -> exists k, In k titles /\ row_error k e.
Proof.
  intros e. unfold rd80_row.
  destruct (text_cell keys ws "YYYY-MM-DD") as [a|e'] eqn:A; cbn [bind].
  2:{ intros H. injection H as <-. eexists. split; [left; reflexivity|]. left. apply text_error. exact A. }
  destruct (text_cell keys ws "hh:mm:ss") as [b|e'] eqn:B; cbn [bind].
  2:{ intros H. injection H as <-. eexists. split; [right; left; reflexivity|]. left. apply text_error. exact B. }
  destruct (to_stamp (a ++ " " ++ b)) as [t'|] eqn:T.
  2:{ intros H. injection H as <-. eexists. split; [left; reflexivity|]. right. reflexivity. }
  assert (TL : forall k, In k ["Interval [s]"; "RI [mm/h]"; "RA [mm]"; "RAT [mm]"] -> In k titles).
  { intros k I. unfold titles. apply in_or_app. right. apply in_or_app. right. exact I. }
  destruct (int_cells to_int keys ws class_keys) as [n'|e'] eqn:C; cbn [bind].
  2:{ intros H. injection H as <-. apply ints_error in C. destruct C as (k & I & R). exists k. split; [apply in_titles; exact I|exact R]. }
  destruct (int_cell to_int keys ws "Interval [s]") as [i'|e'] eqn:D; cbn [bind].
  2:{ intros H. injection H as <-. apply int_error in D. eexists. split; [|exact D]. apply TL. left. reflexivity. }
  destruct (float_cell to_num keys ws "RI [mm/h]") as [x'|e'] eqn:X; cbn [bind].
  2:{ intros H. injection H as <-. apply float_error in X. eexists. split; [|exact X]. apply TL. right. left. reflexivity. }
  destruct (float_cell to_num keys ws "RA [mm]") as [y'|e'] eqn:Y; cbn [bind].
  2:{ intros H. injection H as <-. apply float_error in Y. eexists. split; [|exact Y]. apply TL. right. right. left. reflexivity. }
  destruct (float_cell to_num keys ws "RAT [mm]") as [z'|e'] eqn:Z; cbn [bind]; [discriminate|].
  intros H. injection H as <-. apply float_error in Z. eexists. split; [|exact Z]. apply TL. do 3 right. left. reflexivity.
Qed.
End Row.
Lemma tabbed_iff : forall line ws, tabbed line ws <-> split_on tab line = ws.
Proof. intros line ws. unfold tabbed. change (Ascii true false false true false false false false) with tab. symmetry. apply split_on_iff. Qed.
Definition fullb (keys : list string) (line : string) : bool := length (split_on tab line) =? length keys.
Lemma fullb_iff : forall keys line, fullb keys line = true <-> full keys line.
Proof.
  intros keys line. unfold fullb, full. rewrite Nat.eqb_eq. split.
  - intros H. exists (split_on tab line). split; [apply tabbed_iff; reflexivity|exact H].
  - intros (ws & T & L). apply tabbed_iff in T. congruence.
Qed.
Lemma rd_row_iff : forall keys line r, NoDup keys -> fullb keys line = true ->
  (rd80_row to_num to_int to_stamp keys (split_on tab line) = Ok r <-> rd_row to_num to_int to_stamp keys line r).
Proof.
  intros keys line r N F. apply Nat.eqb_eq in F. rewrite (row_ok keys (split_on tab line) N F). unfold rd_row, row_rel. split.
  - intros H. exists (split_on tab line). split; [apply tabbed_iff; reflexivity|]. split; [exact F|exact H].
  - intros (ws & T & _ & H). apply tabbed_iff in T. subst ws. exact H.
Qed.
Lemma rd80_rows_ok : forall keys lines rows, NoDup keys ->
  (rd80_rows to_num to_int to_stamp keys lines = Ok rows <-> Forall2 (rd_row to_num to_int to_stamp keys) (filter (fullb keys) lines) rows).
Proof.
  intros keys lines rows N. revert rows. induction lines as [|line lines IH]; intros rows; cbn [rd80_rows filter].
  - split; [intros H; injection H as <-; constructor|intros H; inversion H; reflexivity].
  - change (length (split_on tab line) =? length keys) with (fullb keys line). destruct (fullb keys line) eqn:F; cbn [negb]; [|apply IH]. split.
    + destruct (rd80_row to_num to_int to_stamp keys (split_on tab line)) as [r|e] eqn:R; cbn [bind]; [|discriminate].
      destruct (rd80_rows to_num to_int to_stamp keys lines) as [rs|e]; cbn [bind]; [|discriminate]. intros H. injection H as <-.
      constructor; [apply rd_row_iff; assumption|apply IH; reflexivity].
    + intros H. inversion H as [|? r ? rs A B]; subst. apply rd_row_iff in A; [|exact N|exact F]. apply IH in B. rewrite A. cbn [bind]. rewrite B. reflexivity.
Qed.
Lemma rd80_rows_error : forall keys lines e, NoDup keys -> rd80_rows to_num to_int to_stamp keys lines = Raise e ->
  exists line, In line lines /\ full keys line /\ (forall r, ~ rd_row to_num to_int to_stamp keys line r) /\
    ((e = KeyError /\ exists k, In k titles /\ ~ In k keys) \/ e = ValueError).
Proof.
  intros keys lines e N. revert e. induction lines as [|line lines IH]; intros e; cbn [rd80_rows]; [discriminate|].
  change (length (split_on tab line) =? length keys) with (fullb keys line).
  assert (NX : forall e, rd80_rows to_num to_int to_stamp keys lines = Raise e -> exists line', In line' (line :: lines) /\ full keys line' /\
    (forall r, ~ rd_row to_num to_int to_stamp keys line' r) /\ ((e = KeyError /\ exists k, In k titles /\ ~ In k keys) \/ e = ValueError)).
  { intros e' H. destruct (IH e' H) as (l & I & X). exists l. split; [right; exact I|exact X]. }
  destruct (fullb keys line) eqn:F; cbn [negb]; [|apply NX].
  destruct (rd80_row to_num to_int to_stamp keys (split_on tab line)) as [r|e'] eqn:R; cbn [bind].
  - destruct (rd80_rows to_num to_int to_stamp keys lines) as [rs|e'] eqn:E; cbn [bind]; [discriminate|]. intros H. injection H as <-. apply NX. reflexivity.
  - intros H. injection H as <-. exists line. split; [left; reflexivity|]. split; [apply fullb_iff; exact F|]. split.
    + intros r X. apply rd_row_iff in X; [congruence|exact N|exact F].
    + apply Nat.eqb_eq in F. destruct (row_err keys _ N F e' R) as (k & I & [[-> Y]| ->]); [left; split; [reflexivity|]; exists k; auto|right; reflexivity].
Qed.
End Rd.

(** ** A day of the RD-80 *)
Lemma filter_take : forall A (f : A -> bool) l, filter f l = take l (places (map f l)).
Proof.
  intros A f l. rewrite <- keep_take by (rewrite map_length; reflexivity). unfold keep. induction l as [|x l IH]; [reflexivity|].
  cbn [map combine filter fst]. destruct (f x); cbn [map snd]; [f_equal|]; exact IH.
Qed.
Lemma in_take : forall (p : list nat) ind i, In i (take p ind) <-> exists k, In k ind /\ nth_error p k = Some i.
Proof.
  intros p ind i. unfold take. rewrite in_flat_map. split; intros (k & I & E); exists k; (split; [exact I|]).
  - destruct (nth_error p k) as [j|]; [|destruct E]. destruct E as [->|[]]. reflexivity.
  - rewrite E. left. reflexivity.
Qed.
Lemma day_unique_by : forall (f : stamp -> Q) times d p, (forall a b, In a times -> In b times -> (f a == f b)%Q -> a = b) -> p = places (mask_of d times) ->
  let ind := unique_index (map f (take times p)) in
  day_rows times d (take p ind) /\ (forall k, In k ind -> k < length p).
Proof.
  intros f times d p W P ind.
  assert (R : forall i, In i p <-> exists t, nth_error times i = Some t /\ fst t = d).
  { intros i. rewrite P, places_in. apply mask_nth. }
  assert (LT : forall i, In i p -> i < length times).
  { intros i I. apply R in I. destruct I as (t & E & _). apply nth_error_Some. congruence. }
  assert (S : StronglySorted lt p) by (rewrite P; apply places_sorted).
  assert (L : length (take times p) = length p) by (apply take_length; exact LT).
  destruct (unique_spec (map f (take times p))) as [U _]. fold ind in U.
  assert (K : forall k, In k ind -> k < length p).
  { intros k I. apply U in I. apply first_occurrence_lt in I. rewrite map_length, L in I. exact I. }
  assert (H : forall k i t, nth_error p k = Some i -> nth_error times i = Some t -> nth_error (map f (take times p)) k = Some (f t)).
  { intros k i t A B. rewrite nth_error_map, take_nth by exact LT. rewrite A, B. reflexivity. }
  split; [|exact K]. intros i. rewrite in_take. split.
  - intros (k & I & E). apply U in I. destruct I as (x & X & F). assert (Ip : In i p) by (eapply nth_error_In; exact E).
    destruct (proj1 (R i) Ip) as (t & T & D). split; [|eauto]. exists t. split; [exact T|]. intros j J C.
    assert (Jp : In j p) by (apply R; eauto). apply In_nth_error in Jp. destruct Jp as (k' & E').
    assert (k' < k).
    { destruct (Nat.lt_trichotomy k' k) as [|[->|G]]; [assumption|assert (i = j) by congruence; lia|]. assert (i < j) by (eapply sorted_nth; eassumption). lia. }
    rewrite (H k i t E T) in X. injection X as <-. eapply F; [eassumption|apply (H k' j t E' C)|reflexivity].
  - intros ((t & T & F) & (t' & T' & D)). assert (t' = t) by congruence. subst t'. assert (Ip : In i p) by (apply R; eauto).
    apply In_nth_error in Ip. destruct Ip as (k & E). exists k. split; [|exact E]. apply U. exists (f t). split; [apply (H k i t E T)|].
    intros k' y G Y Q'. rewrite nth_error_map, take_nth in Y by exact LT. destruct (nth_error p k') as [j|] eqn:E'; [|discriminate].
    destruct (nth_error times j) as [u|] eqn:Tj; [|discriminate]. cbn in Y. injection Y as <-.
    assert (J : j < i) by (eapply sorted_nth; eassumption). apply (F j J). rewrite Tj. f_equal. symmetry.
    apply W; [eapply nth_error_In; eassumption|eapply nth_error_In; eassumption|exact Q'].
Qed.
Definition of_day (d : Z) (rows : list (stamp * drops)) : list (stamp * drops) := filter (fun r => Z.eqb (fst (fst r)) d) rows.
Lemma rd80_sorted : forall (rows : list (stamp * drops)) d, (forall r, In r rows -> proper (fst r)) ->
  exists ind, picks rows ind (rd80_sort (of_day d rows)) /\ day_rows (map fst rows) d ind /\
    strictly_increasing (map (fun r => instant (fst r)) (rd80_sort (of_day d rows))).
Proof.
  intros rows d PR. unfold rd80_sort. set (p := places (mask_of d (map fst rows))).
  assert (FT : of_day d rows = take rows p).
  { unfold of_day. rewrite filter_take. unfold p, mask_of. rewrite map_map. reflexivity. }
  rewrite FT. rewrite <- (map_map fst instant), <- take_map. set (ind := unique_index (map instant (take (map fst rows) p))).
  destruct (day_unique_by instant (map fst rows) d p) as [D K].
  - intros a b A B E. apply in_map_iff in A, B. destruct A as (ra & <- & A), B as (rb & <- & B). apply instant_eq in E; auto.
  - reflexivity.
  - fold ind in D, K. assert (LT : forall i, In i p -> i < length rows).
    { intros i I. unfold p in I. apply places_in in I. assert (i < length (mask_of d (map fst rows))) by (apply nth_error_Some; congruence). rewrite mask_length, map_length in H. exact H. }
    assert (LJ : forall i, In i (take p ind) -> i < length rows).
    { intros i I. apply in_take in I. destruct I as (k & _ & E). apply LT. eapply nth_error_In. exact E. }
    exists (take p ind). rewrite take_take by exact LT. split; [apply take_picks; exact LJ|]. split; [exact D|].
    rewrite <- take_take by exact LT. rewrite <- (map_map fst instant). set (T := take (map fst rows) p) in *.
    assert (E : map instant (map fst (take (take rows p) ind)) = take (map instant T) ind).
    { rewrite (take_map _ _ instant T ind). f_equal. unfold T. rewrite <- !take_map. reflexivity. }
    rewrite E. destruct (unique_spec (map instant T)) as [_ S]. eapply sorted_take; [exact S|]. apply take_picks. intros k I.
    unfold T. rewrite map_length, take_length by (intros i I'; rewrite map_length; apply LT; exact I'). apply K. exact I.
Qed.

(** The tables. *)
Lemma tables_widths : Forall2 (fun c vd => (fst vd == inject_Z (snd c) / 1000)%Q /\ (snd vd == inject_Z (snd (fst c)) / 1000)%Q /\ (0 < fst vd)%Q /\ (0 < snd vd)%Q)
  rd_classes (combine v_mid d_spr).
Proof. cbn [combine v_mid d_spr milli map rd_classes]. repeat (constructor; [repeat split; reflexivity|]). constructor. Qed.
Lemma tables_mid : Forall2 (fun c vd => (fst vd == inject_Z (snd c) / 1000)%Q /\ (snd vd == inject_Z (snd (fst (fst c))) / 1000)%Q /\ (0 < fst vd)%Q)
  rd_classes (combine v_mid d_mid).
Proof. cbn [combine v_mid d_mid milli map rd_classes]. repeat (constructor; [repeat split; reflexivity|]). constructor. Qed.
Lemma map2_nth : forall A B C (f : A -> B -> C) l m k z, nth_error (map2 f l m) k = Some z <->
  exists a b, nth_error l k = Some a /\ nth_error m k = Some b /\ z = f a b.
Proof.
  intros A B C f. induction l as [|x l IH]; intros [|y m] [|k] z; cbn; try (split; [discriminate|intros (a & b & H1 & H2 & _); discriminate]).
  - split; [intros H; injection H as <-; exists x, y; auto|intros (a & b & H1 & H2 & ->); congruence].
  - apply IH.
Qed.
Lemma map2_length : forall A B C (f : A -> B -> C) l m, length l <= length m -> length (map2 f l m) = length l.
Proof. intros A B C f. induction l as [|x l IH]; intros [|y m] L; cbn in *; try lia. rewrite IH; lia. Qed.
Lemma concentration_ok : forall d, good_drops d -> concentrations d (number_concentration d).
Proof.
  intros d [L D]. unfold concentrations, number_concentration. split; [apply map2_length; rewrite L; reflexivity|].
  intros k n c x N C X. apply map2_nth in X. destruct X as (n' & vd & N' & VD & ->). assert (n' = n) by congruence. subst n'.
  assert (T := tables_widths). apply forall2_nth in T. destruct T as [_ T]. destruct (T k c vd C VD) as (V & W & PV & PW). unfold concentration. rewrite <- V, <- W. unfold area.
  assert (I : (0 < inject_Z (d_interval d))%Q) by (change 0%Q with (inject_Z 0); rewrite <- Zlt_Qlt; exact D). field. repeat split; try lra.
Qed.
Lemma moment_ok : forall (n : list Z) cs vds, Forall2 (fun c vd => (fst vd == inject_Z (snd c) / 1000)%Q /\ (snd vd == inject_Z (snd (fst (fst c))) / 1000)%Q /\ (0 < fst vd)%Q) cs vds ->
  length n <= length cs -> sixth_moment n cs (sum_q (map2 (fun n vd => inject_Z n / fst vd * snd vd ^ 6)%Q n vds)).
Proof.
  intros n. induction n as [|x n IH]; intros cs vds F L; [constructor|]. destruct F as [|c vd cs vds (A & B & P) F]; [cbn in L; lia|].
  cbn [map2 sum_q fold_right]. econstructor; [apply (IH cs vds F); cbn in L; lia| |].
  2:{ rewrite Qplus_comm. unfold sum_q. reflexivity. }
  cbn [fst snd]. rewrite <- A. setoid_rewrite <- B. field. lra.
Qed.
Lemma reflectivity_ok : forall d, good_drops d -> moment_rate d (reflectivity d).
Proof.
  intros d [L D]. exists (sum_q (map2 (fun n vd => inject_Z n / fst vd * snd vd ^ 6)%Q (d_n d) (combine v_mid d_mid))). split.
  - apply moment_ok; [exact tables_mid|]. rewrite L. reflexivity.
  - unfold reflectivity, area. assert (I : (0 < inject_Z (d_interval d))%Q) by (change 0%Q with (inject_Z 0); rewrite <- Zlt_Qlt; exact D). field. lra.
Qed.
Lemma db_ok : forall log10 z, in_db log10 z (reflectivity_db log10 z).
Proof.
  intros log10 z. unfold in_db, reflectivity_db. destruct (Qle_bool z 0) eqn:E.
  - apply Qle_bool_iff in E. left. auto.
  - right. assert (P : (0 < z)%Q) by (apply Qnot_le_lt; intros C; apply Qle_bool_iff in C; congruence).
    destruct (qlt (10 * log10 z) (-10)) eqn:X.
    + apply GridProofs.qlt_iff in X. left. auto.
    + apply qlt_false in X. right. auto.
Qed.
Lemma total_ok : forall n, n_particles n = total n.
Proof.
  intros n. unfold n_particles, total. symmetry. apply fold_symmetric; intros; lia.
Qed.
Lemma rd80_hour_ok : forall d t, fst t = d -> hours t (rd80_hour d t).
Proof.
  intros d [a b] <-. unfold hours, rd80_hour. cbn [fst snd]. replace ((a - a) * 86400000000 + b)%Z with b by lia. field.
Qed.
Lemma rd80_hour_lt : forall d t u, fst t = d -> fst u = d -> (instant t < instant u)%Q -> (rd80_hour d t < rd80_hour d u)%Q.
Proof.
  intros d t u A B L. assert (X := rd80_hour_ok d t A). assert (Y := rd80_hour_ok d u B). unfold hours in X, Y. unfold instant in L. rewrite <- Zlt_Qlt in L.
  rewrite A, B in L. assert (Z : (inject_Z (snd t) < inject_Z (snd u))%Q) by (rewrite <- Zlt_Qlt; lia). lra.
Qed.
Lemma rd_written_ok : forall log10 d rows o, (forall r, In r rows -> fst (fst r) = d /\ good_drops (snd r)) -> rd80_convert log10 false d rows = Ok o ->
  rd_written log10 rows o.
Proof.
  intros log10 d rows o H E. injection E as <-. unfold rd_written. cbn [ro_hours ro_interval ro_rate ro_particles ro_concentration ro_reflectivity].
  repeat split; apply forall2_map; intros r I; destruct (H r I) as [D G]; cbv beta.
  - apply rd80_hour_ok. exact D.
  - reflexivity.
  - destruct (d_rate (snd r)) as [x|]; cbn [option_map]; constructor. unfold mmh_ms, rd80_rate. field.
  - apply total_ok.
  - apply concentration_ok. exact G.
  - exists (reflectivity (snd r)). split; [apply reflectivity_ok; exact G|apply db_ok].
Qed.
Lemma join_ok : forall l : list (list (stamp * drops)), l <> [] -> (forall f, In f l -> f <> []) ->
  join_files l = Ok (List.concat l) /\ no_rows (List.concat l) = false.
Proof.
  intros l N H. assert (E : existsb no_rows l = false).
  { destruct (existsb no_rows l) eqn:E; [|reflexivity]. apply existsb_exists in E. destruct E as (f & I & X). destruct f; [|discriminate]. exfalso. apply (H [] I). reflexivity. }
  split.
  - unfold join_files. destruct l as [|f l]; [congruence|]. rewrite E. reflexivity.
  - destruct l as [|f l]; [congruence|]. specialize (H f (or_introl eq_refl)). destruct f; [congruence|reflexivity].
Qed.
Lemma rd80_day_ok : forall log10 d l, l <> [] -> (forall f, In f l -> f <> []) -> (forall r, In r (List.concat l) -> proper (fst r) /\ good_drops (snd r)) ->
  exists o ind rows, rd80_day log10 (Some d) l = Ok o /\ ro_day o = d /\ day_rows (map fst (List.concat l)) d ind /\ picks (List.concat l) ind rows /\
    strictly_increasing (ro_hours o) /\ rd_written log10 rows o.
Proof.
  intros log10 d l N H G. destruct (join_ok l N H) as [J NR]. unfold rd80_day. rewrite J. cbn [bind]. rewrite NR. cbn [rd80_screen bind fst snd].
  fold (of_day d (List.concat l)). destruct (rd80_sorted (List.concat l) d) as (ind & P & D & S); [intros r I; apply G; exact I|].
  set (rows := rd80_sort (of_day d (List.concat l))) in *.
  assert (R : forall r, In r rows -> fst (fst r) = d /\ good_drops (snd r)).
  { intros r I. apply In_nth_error in I. destruct I as (k & I). apply forall2_nth in P. destruct P as [PL P].
    destruct (nth_error ind k) as [i|] eqn:E; [|apply nth_error_None in E; assert (k < length rows) by (apply nth_error_Some; congruence); lia].
    assert (X := P k i r E I). split; [|apply G; eapply nth_error_In; exact X].
    assert (Y : In i ind) by (eapply nth_error_In; exact E). apply D in Y. destruct Y as (_ & t & T & Q). rewrite nth_error_map, X in T. cbn in T. congruence. }
  eexists. exists ind, rows. split; [reflexivity|]. cbn [ro_day ro_hours]. split; [reflexivity|]. split; [exact D|]. split; [exact P|]. split.
  - unfold strictly_increasing in *. clear P. induction rows as [|r rs IH]; [constructor|]. cbn [map] in S |- *. inversion S as [|? ? S' F]; subst.
    constructor; [apply IH; [exact S'|intros; apply R; right; assumption]|]. apply Forall_forall. intros h I. apply in_map_iff in I. destruct I as (r' & <- & I).
    rewrite Forall_forall in F. assert (X := F (instant (fst r')) (in_map (fun r => instant (fst r)) rs r' I)). 
    apply rd80_hour_lt; [apply (R r (or_introl eq_refl))|apply (R r' (or_intror I))|exact X].
  - apply (rd_written_ok log10 d rows); [exact R|reflexivity].
Qed.

(** ** MRR-PRO *)
Lemma day_of_iff : forall s d, day_of s = d <-> in_day d s.
Proof.
  intros s d. unfold day_of, in_day. assert (E : (s == s / 86400 * 86400)%Q) by field. set (q := (s / 86400)%Q) in *. rewrite E. clearbody q. clear E.
  assert (A := Qfloor_le q). assert (B := Qlt_floor q). rewrite inject_Z_plus in B. split.
  - intros <-. change (inject_Z 1) with 1%Q in B. split; lra.
  - intros [X Y]. change (inject_Z 1) with 1%Q in B. assert (X1 : (inject_Z d < inject_Z (Qfloor q) + inject_Z 1)%Q) by (change (inject_Z 1) with 1%Q; lra).
    assert (Y1 : (inject_Z (Qfloor q) < inject_Z d + inject_Z 1)%Q) by (change (inject_Z 1) with 1%Q; lra). rewrite <- inject_Z_plus, <- Zlt_Qlt in X1, Y1. lia.
Qed.
Lemma profiles_in : forall d seconds i, In i (profiles_of d seconds) <-> exists s, nth_error seconds i = Some s /\ in_day d s.
Proof.
  intros d seconds i. unfold profiles_of. rewrite filter_In, in_seq, Z.eqb_eq, day_of_iff. split.
  - intros [L D]. exists (nth i seconds 0%Q). split; [apply nth_error_nth'; lia|exact D].
  - intros (s & N & D). assert (i < length seconds) by (apply nth_error_Some; congruence). split; [lia|]. rewrite (nth_error_nth _ _ _ N). exact D.
Qed.
Lemma filter_sorted : forall f l, StronglySorted lt l -> StronglySorted lt (filter f l).
Proof.
  intros f l S. induction S as [|x l S IH F]; cbn; [constructor|]. destruct (f x); [|exact IH]. constructor; [exact IH|].
  apply Forall_forall. intros y I. apply filter_In in I. rewrite Forall_forall in F. apply F. exact (proj1 I).
Qed.
Lemma mrr_unit_ok : forall k x, mrr_si k x (mrr_unit k x).
Proof.
  intros k x. unfold mrr_si, mrr_unit.
  destruct (String.eqb_spec k "v") as [->|D1]; [repeat split; intros H; try discriminate; try ring; exfalso; apply H; cbn; auto|].
  destruct (String.eqb_spec k "rainfall_rate") as [->|D2]; [repeat split; intros H; try discriminate; try field; exfalso; apply H; cbn; auto|].
  destruct (String.eqb_spec k "lwc") as [->|D3]; [repeat split; intros H; try discriminate; try field; exfalso; apply H; cbn; auto|].
  repeat split; intros H; congruence.
Qed.
Lemma nth_fix_last : forall l i x, nth_error l i = Some x -> (S i = length l -> ~ (x == 0)%Q) -> nth_error (fix_last l) i = Some x.
Proof.
  induction l as [|y l IH]; intros [|i] x H N; try discriminate.
  - cbn in H. injection H as ->. destruct l as [|z l]; [|reflexivity]. cbn. destruct (Qeq_bool x 0) eqn:E; [|reflexivity].
    apply Qeq_bool_iff in E. exfalso. apply (N eq_refl E).
  - cbn in H. destruct l as [|z l]; [destruct i; discriminate|]. cbn [fix_last]. change (nth_error (fix_last (z :: l)) i = Some x).
    apply IH; [exact H|]. intros E. apply N. cbn in *. lia.
Qed.
Lemma fix_last_length : forall l, length (fix_last l) = length l.
Proof. induction l as [|x [|y l] IH]; [reflexivity|reflexivity|]. cbn [fix_last]. cbn [length] in *. f_equal. exact IH. Qed.
Lemma hour_in_day : forall d s, in_day d s -> hour_of d s (qmod s 86400 / 3600).
Proof.
  intros d s H. apply GaugeProofs.day_of_iff in H. unfold GaugeModel.day_of in H. unfold hour_of, qmod. rewrite H. field.
Qed.
Lemma init_hours : forall seconds s d, In s seconds -> in_day d s -> (1 <= d)%Z ->
  exists hours, init_time seconds = Ok hours /\ length hours = length seconds /\
    forall i t d', nth_error seconds i = Some t -> in_day d' t -> (S i = length seconds -> ~ (t == inject_Z d' * 86400)%Q) ->
      exists h, nth_error hours i = Some h /\ hour_of d' t h.
Proof.
  intros seconds s d I [A _] D. unfold init_time. destruct seconds as [|s0 rest] eqn:E0; [destruct I|]. rewrite <- E0 in *.
  assert (X : existsb (qlt 25) seconds = true).
  { apply existsb_exists. exists s. split; [exact I|]. apply GridProofs.qlt_iff. assert (Y : (inject_Z 1 <= inject_Z d)%Q) by (rewrite <- Zle_Qle; exact D). change (inject_Z 1) with 1%Q in Y. lra. }
  rewrite X. unfold seconds2hours. rewrite E0. rewrite <- E0. eexists. split; [reflexivity|]. split; [rewrite fix_last_length; apply map_length|].
  intros i t d' N H L. exists (qmod t 86400 / 3600)%Q. split; [|apply hour_in_day; exact H].
  apply nth_fix_last; [rewrite nth_error_map, N; reflexivity|]. rewrite map_length. intros E Z. apply (L E).
  assert (Y := hour_in_day d' t H). unfold hour_of in Y. rewrite Z in Y. lra.
Qed.
Lemma take_perm : forall A (l : list A) ind, Permutation ind (seq 0 (length l)) -> Permutation (take l ind) l.
Proof.
  intros A l ind P. rewrite <- (take_seq A l) at 2. unfold take. apply Permutation_flat_map. exact P.
Qed.
Lemma sorted_take_le : forall l ind, is_argsort l ind -> not_decreasing (take l ind).
Proof.
  intros l ind [P S]. assert (B : forall i, In i ind -> i < length l) by (intros i I; apply (Permutation_in _ P) in I; apply in_seq in I; lia).
  clear P. induction S as [|i ind S IH F]; [constructor|]. unfold take. cbn [flat_map].
  destruct (nth_error l i) as [x|] eqn:X; [|apply nth_error_None in X; specialize (B i (or_introl eq_refl)); lia]. cbn [app].
  constructor; [apply IH; intros; apply B; right; assumption|]. apply Forall_forall. intros y I. apply in_flat_map in I. destruct I as (j & J & Y).
  destruct (nth_error l j) as [z|] eqn:Z; [|destruct Y]. destruct Y as [<-|[]]. rewrite Forall_forall in F. exact (F j J x z eq_refl Z).
Qed.
Lemma along_same : forall A n ind (l : list A), length l = n -> along_time n ind l = take l ind.
Proof. intros A n ind l E. unfold along_time. rewrite E, Nat.eqb_refl. reflexivity. Qed.
Lemma along_other : forall A n ind (l : list A), length l <> n -> along_time n ind l = l.
Proof. intros A n ind l E. unfold along_time. destruct (Nat.eqb_spec (length l) n); [contradiction|reflexivity]. Qed.
Lemma forall2_take : forall A B (R : A -> B -> Prop) (c : list A) (f : A -> B) ind, (forall i, In i ind -> i < length c) -> (forall a, R a (f a)) ->
  Forall2 (fun i b => exists a, nth_error c i = Some a /\ R a b) ind (take (map f c) ind).
Proof.
  intros A B R c f ind H HR. rewrite take_map. assert (P := take_picks _ c ind H). unfold picks in P. clear H.
  induction P as [|i x ind out N P IH]; constructor; [exists x; auto|exact IH].
Qed.
Lemma mrr_day_ok : forall argsort d f s0, (forall l, is_argsort l (argsort l)) -> mrr_aligned f -> (1 <= d)%Z -> In s0 (m_seconds f) -> in_day d s0 -> m_range f <> [] ->
  (forall i, S i = length (m_seconds f) -> forall t, nth_error (m_seconds f) i = Some t -> ~ (t == inject_Z d * 86400)%Q) ->
  exists o ind r0, mrr2nc argsort (Some d) f = Ok o /\ NoDup ind /\ (forall i, In i ind <-> exists s, nth_error (m_seconds f) i = Some s /\ in_day d s) /\
    Forall2 (fun i h => exists s, nth_error (m_seconds f) i = Some s /\ hour_of d s h) ind (mo_time o) /\ not_decreasing (mo_time o) /\ mrr_written f ind o /\
    hd_error (m_range f) = Some r0 /\ (length (m_range f) <> length ind -> Forall2 (fun r y => (y == r - r0)%Q) (m_range f) (mo_range o)) /\
    mo_day o = GaugeModel.day_of (hd 0%Q (m_seconds f)) /\
    (length (m_elevation f) = length (m_seconds f) -> length (mo_zenith o) = length (m_seconds f)).
Proof.
  intros argsort d f s0 HA AL D1 IS DS NR LM. destruct (init_hours (m_seconds f) s0 d IS DS D1) as (hours & IH & LH & HV).
  unfold mrr2nc. rewrite IH. cbn [bind mrr_screen]. set (ind0 := profiles_of d (m_seconds f)).
  assert (NE : ind0 <> []).
  { apply In_nth_error in IS. destruct IS as (k & K). assert (X : In k ind0) by (apply profiles_in; eauto). intros E. rewrite E in X. destruct X. }
  assert (B0 : forall i, In i ind0 -> i < length hours).
  { intros i I. apply profiles_in in I. destruct I as (s & N & _). rewrite LH. apply nth_error_Some. congruence. }
  destruct ind0 as [|i0 irest] eqn:EI; [congruence|]. rewrite <- EI in *. cbn [bind fst snd].
  destruct (m_range f) as [|r0 rs] eqn:ER; [congruence|]. rewrite <- ER in *.
  assert (LT : length (take hours ind0) = length ind0) by (apply take_length; exact B0).
  set (T := take hours ind0) in *. set (ind1 := argsort T). assert (AS := HA T). fold ind1 in AS. destruct (AS) as [P1 _]. rewrite LT in P1.
  assert (PJ : Permutation (take ind0 ind1) ind0) by (apply take_perm; exact P1). set (J := take ind0 ind1) in *.
  assert (BJ : forall i, In i J -> i < length hours) by (intros i I; apply B0; eapply Permutation_in; eassumption).
  assert (ET : take T ind1 = take hours J) by (apply take_take; exact B0).
  eexists. exists J, r0. split; [reflexivity|]. cbn [mo_time mo_range mo_vars mo_zenith mo_day].
  assert (IJ : forall i, In i J <-> exists s, nth_error (m_seconds f) i = Some s /\ in_day d s).
  { intros i. rewrite <- profiles_in. fold ind0. split; intros I; eapply Permutation_in; try eassumption. symmetry. exact PJ. }
  split; [eapply Permutation_NoDup; [symmetry; exact PJ|]; apply sorted_nodup, filter_sorted, seq_sorted|]. split; [exact IJ|]. split; [|split; [|split; [|split; [|split; [|split]]]]].
  - rewrite ET. assert (PK := take_picks _ hours J BJ). apply forall2_nth in PK. destruct PK as [PL PK]. apply forall2_nth. split; [exact PL|].
    intros k i h A B. assert (X := PK k i h A B). assert (I : In i J) by (eapply nth_error_In; exact A). apply IJ in I. destruct I as (s & N & DD).
    exists s. split; [exact N|]. destruct (HV i s d N DD) as (h' & H1 & H2); [intros E; apply (LM i E s N)|]. assert (h' = h) by congruence. subst h'. exact H2.
  - apply sorted_take_le. exact AS.
  - unfold mrr_written. cbn [mo_vars]. rewrite !map_map. apply forall2_map. intros [k c] I. cbn [fst snd]. split; [reflexivity|].
    assert (LC : length c = length hours) by (rewrite LH; eapply AL; exact I).
    rewrite (along_same _ (length hours)) by (rewrite map_length; exact LC). rewrite along_same by (rewrite LT; apply take_length; intros i Hi; rewrite map_length, LC; apply B0; exact Hi).
    rewrite take_take by (intros i Hi; rewrite map_length, LC; apply B0; exact Hi). fold J.
    apply forall2_take; [intros i Hi; rewrite LC; apply BJ; exact Hi|]. intros row. apply forall2_map. intros [x|] _; cbn [option_map]; constructor. apply mrr_unit_ok.
  - rewrite ER. reflexivity.
  - intros NL. rewrite along_other by (rewrite map_length, LT; intros E; apply NL; rewrite E; symmetry; apply Permutation_length; exact PJ).
    apply forall2_map. intros r _. reflexivity.
  - reflexivity.
  - intros LE. unfold along_time. rewrite map_length, LE, LT. destruct (Nat.eqb_spec (length (m_seconds f)) (length ind0)) as [E|E]; [|rewrite map_length; exact LE].
    rewrite take_length; [rewrite E; rewrite (Permutation_length P1), seq_length; reflexivity|].
    intros i I. apply (Permutation_in _ P1) in I. apply in_seq in I. rewrite map_length, LE. lia.
Qed.
