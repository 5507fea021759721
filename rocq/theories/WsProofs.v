(** Proofs about the weather stations. *)
From Coq Require Import List Bool Arith ZArith QArith Qround String Ascii Sorted Permutation Lia Lqa.
From Verif Require Import Base TimeModel OutputModel SiteModel ReaderModel TelegramModel StationModel.
From Verif Require Import TimeSpec OutputSpec SiteSpec ReaderSpec StationSpec TelegramSpec CliSpec.
From Verif Require Import TimeProofs OutputProofs SiteProofs ReaderProofs StationProofs TelegramProofs TelegramDayProofs CliProofs.
From Verif Require Import WsModel WsSpec.
Import ListNotations.
Local Open Scope string_scope.
Local Open Scope nat_scope.
Local Open Scope list_scope.
Local Notation length := List.length (only parsing).

(** ** Stamps *)
Lemma is_digit_iff : forall c, is_digit c = true <-> digit_char c.
Proof.
  intros c. unfold is_digit, digit_char. split.
  - intros H. apply andb_true_iff in H. destruct H as [H1 H2]. apply Nat.leb_le in H1, H2.
    rewrite <- (ascii_nat_embedding c). remember (nat_of_ascii c) as n.
    assert (E : n = 48 \/ n = 49 \/ n = 50 \/ n = 51 \/ n = 52 \/ n = 53 \/ n = 54 \/ n = 55 \/ n = 56 \/ n = 57) by lia.
    repeat (destruct E as [->|E]; [vm_compute; auto 12|]). rewrite E. vm_compute. auto 12.
  - intros H. cbn in H. repeat (destruct H as [<-|H]; [reflexivity|]). destruct H.
Qed.
Lemma stamp_text_iff : forall s, stamp_text s = true <-> written_stamp s.
Proof.
  intros s. unfold stamp_text, written_stamp.
  do 20 (destruct s as [|? s]; [split; [cbn; intros H; repeat (apply andb_true_iff in H; destruct H as [_ H]); discriminate
                                       |intros (_ & _ & _ & _ & _ & _ & H); discriminate]|]).
  cbn [fits String.get]. change (Ascii.eqb "d" "d") with true. change (Ascii.eqb "-" "d") with false.
  change (Ascii.eqb "T" "d") with false. change (Ascii.eqb ":" "d") with false. change (Ascii.eqb "Z" "d") with false.
  cbv iota. split.
  - intros H.
    repeat match goal with H : (_ && _)%bool = true |- _ => apply andb_true_iff in H; destruct H end.
    repeat match goal with H : is_digit _ = true |- _ => apply is_digit_iff in H end.
    repeat match goal with H : Ascii.eqb _ _ = true |- _ => apply Ascii.eqb_eq in H; subst end.
    split; [|repeat split].
    intros i I. cbn in I. repeat (destruct I as [<-|I]; [eexists; split; [reflexivity|assumption]|]). destruct I.
  - intros (D & E4 & E7 & E10 & E13 & E16 & E19).
    injection E4 as ->. injection E7 as ->. injection E10 as ->. injection E13 as ->. injection E16 as ->. injection E19 as ->.
    repeat match goal with |- context [is_digit ?c] =>
      let X := fresh in assert (X : is_digit c = true);
      [apply is_digit_iff;
       first [ destruct (D 0) as (? & K & L); [cbn; tauto|]; injection K as <-; exact L
             | destruct (D 1) as (? & K & L); [cbn; tauto|]; injection K as <-; exact L
             | destruct (D 2) as (? & K & L); [cbn; tauto|]; injection K as <-; exact L
             | destruct (D 3) as (? & K & L); [cbn; tauto|]; injection K as <-; exact L
             | destruct (D 5) as (? & K & L); [cbn; tauto|]; injection K as <-; exact L
             | destruct (D 6) as (? & K & L); [cbn; tauto|]; injection K as <-; exact L
             | destruct (D 8) as (? & K & L); [cbn; tauto|]; injection K as <-; exact L
             | destruct (D 9) as (? & K & L); [cbn; tauto|]; injection K as <-; exact L
             | destruct (D 11) as (? & K & L); [cbn; tauto|]; injection K as <-; exact L
             | destruct (D 12) as (? & K & L); [cbn; tauto|]; injection K as <-; exact L
             | destruct (D 14) as (? & K & L); [cbn; tauto|]; injection K as <-; exact L
             | destruct (D 15) as (? & K & L); [cbn; tauto|]; injection K as <-; exact L
             | destruct (D 17) as (? & K & L); [cbn; tauto|]; injection K as <-; exact L
             | destruct (D 18) as (? & K & L); [cbn; tauto|]; injection K as <-; exact L ]
      |rewrite X; clear X] end.
    reflexivity.
Qed.
Lemma stamp_text_false : forall s, stamp_text s = false <-> ~ written_stamp s.
Proof. intros s. rewrite <- stamp_text_iff. destruct (stamp_text s); split; congruence. Qed.
Lemma words_iff : forall s ws, words s = ws <-> words_of s ws.
Proof. intros s ws. split; [intros <-; apply words_exist|apply words_unique]. Qed.

(** ** First occurrences *)
Definition add_new (h : list string) (x : string) : list string := if mem_str x h then h else h ++ [x].
Lemma add_new_in : forall h x y, In y (add_new h x) <-> In y h \/ y = x.
Proof.
  intros h x y. unfold add_new. destruct (mem_str x h) eqn:E.
  - apply mem_str_iff in E. split; [auto|intros [H| ->]; assumption].
  - rewrite in_app_iff. cbn. intuition.
Qed.
Lemma firsts_add : forall l, firsts l (fold_left add_new l []) /\ forall x, In x (fold_left add_new l []) <-> In x l.
Proof.
  induction l as [|x l IH] using rev_ind; [split; [constructor|reflexivity]|].
  rewrite fold_left_app. cbn [fold_left]. destruct IH as [F I]. split.
  - unfold add_new at 1. destruct (mem_str x (fold_left add_new l [])) eqn:E.
    + apply mem_str_iff in E. apply I in E. constructor; assumption.
    + constructor; [exact F|]. intros H. apply I in H. apply mem_str_iff in H. congruence.
  - intros y. rewrite add_new_in, I, in_app_iff. cbn. intuition.
Qed.
Lemma firsts_unique : forall A (l : list A) a, firsts l a -> forall b, firsts l b -> a = b.
Proof.
  intros A l a X. induction X as [|x l out X IH I|x l out X IH I]; intros b Y; inversion Y as [E|x' l' out' Y' I' E|x' l' out' Y' I' E].
  - reflexivity.
  - destruct l'; discriminate.
  - destruct l'; discriminate.
  - symmetry in E. destruct l; discriminate.
  - apply app_inj_tail in E. destruct E as [-> ->]. subst. auto.
  - apply app_inj_tail in E. destruct E as [-> ->]. contradiction.
  - destruct l; discriminate.
  - apply app_inj_tail in E. destruct E as [-> ->]. contradiction.
  - apply app_inj_tail in E. destruct E as [-> ->]. f_equal. auto.
Qed.
Lemma forall2_nth : forall A B (R : A -> B -> Prop) l m, Forall2 R l m <->
  length l = length m /\ forall i a b, nth_error l i = Some a -> nth_error m i = Some b -> R a b.
Proof.
  intros A B R l m. split.
  - induction 1 as [|a b l m H F [L IH]]; [split; [reflexivity|intros [|i]; discriminate]|].
    split; [cbn; lia|]. intros [|i] a' b' Ha Hb; cbn in *; [congruence|eauto].
  - revert m. induction l as [|a l IH]; intros [|b m] [L H]; try discriminate; constructor.
    + apply (H 0); reflexivity.
    + apply IH. split; [cbn in L; lia|]. intros i a' b' Ha Hb. apply (H (S i)); assumption.
Qed.

Section Pal.
Context (to_num : string -> option (masked Q)) (to_stamp : string -> option stamp).
Notation frow := (line_row to_num to_stamp).
Lemma floats_iff : forall ws xs, floats to_num ws = Some xs <-> Forall2 (fun w x => to_num w = Some x) ws xs.
Proof.
  induction ws as [|w ws IH]; intros xs; cbn [floats].
  - split; [intros H; injection H as <-; constructor|intros H; inversion H; reflexivity].
  - split.
    + destruct (to_num w) as [x|] eqn:E; [|discriminate]. destruct (floats to_num ws) as [ys|] eqn:F; [|discriminate].
      intros H; injection H as <-. constructor; [exact E|apply IH; reflexivity].
    + intros H. inversion H as [|? x ? ys E F]; subst. rewrite E. apply IH in F. rewrite F. reflexivity.
Qed.
Lemma floats_none : forall ws, floats to_num ws = None <-> exists w, In w ws /\ to_num w = None.
Proof.
  induction ws as [|w ws IH]; cbn [floats].
  - split; [discriminate|intros (w & [] & _)].
  - destruct (to_num w) as [x|] eqn:E.
    + destruct (floats to_num ws) as [ys|] eqn:F.
      * split; [discriminate|]. intros (v & [<-|I] & N); [congruence|].
        assert (X : Some ys = None) by (apply IH; eauto). discriminate.
      * split; [|reflexivity]. intros _. destruct (proj1 IH eq_refl) as (v & I & N). exists v. split; [right; exact I|exact N].
    + split; [|reflexivity]. intros _. exists w. split; [left; reflexivity|exact E].
Qed.
Definition row_fun (n : nat) (line : string) : option (stamp * list (masked Q)) :=
  match words line with
  | c :: cs => if stamp_text c && (length cs =? n)
               then match to_stamp c, floats to_num cs with Some t, Some xs => Some (t, xs) | _, _ => None end
               else None
  | [] => None
  end.
Definition bad_fun (n : nat) (line : string) : bool :=
  match words line with
  | c :: cs => stamp_text c && (length cs =? n) &&
               match to_stamp c, floats to_num cs with Some _, Some _ => false | _, _ => true end
  | [] => false
  end.
Definition head_fun (line : string) : option string :=
  match words line with
  | c :: cs => if stamp_text c then None else Some (String.concat "" (c :: cs))
  | [] => None
  end.
Lemma row_fun_iff : forall n line r, row_fun n line = Some r <-> frow n line r.
Proof.
  intros n line [t xs]. unfold row_fun, line_row, data_line. split.
  - destruct (words line) as [|c cs] eqn:W; [discriminate|]. apply words_iff in W.
    destruct (stamp_text c) eqn:S; [|discriminate]. apply stamp_text_iff in S. cbn [andb].
    destruct (length cs =? n) eqn:L; [|discriminate]. apply Nat.eqb_eq in L.
    destruct (to_stamp c) as [t'|] eqn:T; [|discriminate]. destruct (floats to_num cs) as [ys|] eqn:F; [|discriminate].
    intros H; injection H as -> ->. apply floats_iff in F. exists c, cs. auto.
  - intros (c & cs & (W & S & L) & T & F). cbn [fst snd] in *. apply words_iff in W. rewrite W.
    apply stamp_text_iff in S. rewrite S, L, Nat.eqb_refl. cbn [andb]. rewrite T.
    apply floats_iff in F. rewrite F. reflexivity.
Qed.
Lemma bad_fun_iff : forall n line, bad_fun n line = true <-> bad_line to_num to_stamp n line.
Proof.
  intros n line. unfold bad_fun, bad_line, data_line. split.
  - destruct (words line) as [|c cs] eqn:W; [discriminate|]. apply words_iff in W.
    intros H. apply andb_true_iff in H. destruct H as [H B]. apply andb_true_iff in H. destruct H as [S L].
    apply stamp_text_iff in S. apply Nat.eqb_eq in L. exists c, cs. split; [auto|].
    destruct (to_stamp c) as [t|] eqn:T; [|left; reflexivity]. right. apply floats_none.
    destruct (floats to_num cs); [discriminate|reflexivity].
  - intros (c & cs & (W & S & L) & B). apply words_iff in W. rewrite W. apply stamp_text_iff in S.
    rewrite S, L, Nat.eqb_refl. cbn [andb]. destruct B as [B|B].
    + rewrite B. reflexivity.
    + apply floats_none in B. rewrite B. destruct (to_stamp c); reflexivity.
Qed.
Lemma head_fun_iff : forall line h, head_fun line = Some h <-> heading line h.
Proof.
  intros line h. unfold head_fun, heading. split.
  - destruct (words line) as [|c cs] eqn:W; [discriminate|]. apply words_iff in W.
    destruct (stamp_text c) eqn:S; [discriminate|]. apply stamp_text_false in S. intros H; injection H as <-. exists c, cs. auto.
  - intros (c & cs & W & S & ->). apply words_iff in W. rewrite W. apply stamp_text_false in S. rewrite S. reflexivity.
Qed.
Lemma pal_rows_eq : forall n lines rows header, pal_rows to_num to_stamp n lines rows header =
  if existsb (bad_fun n) lines then Raise ValueError
  else Ok (rows ++ flat_map (fun l => opt_list (row_fun n l)) lines,
           fold_left add_new (flat_map (fun l => opt_list (head_fun l)) lines) header).
Proof.
  intros n. induction lines as [|l lines IH]; intros rows header; cbn [pal_rows existsb flat_map].
  - cbn. rewrite app_nil_r. reflexivity.
  - unfold bad_fun at 1, row_fun at 1, head_fun at 1. destruct (words l) as [|c cs]; [cbn; apply IH|].
    destruct (stamp_text c).
    + cbn [length andb]. rewrite Nat.add_1_r. cbn [Nat.eqb]. destruct (length cs =? n); cbn [negb andb]; [|apply IH].
      destruct (to_stamp c) as [t|]; [|reflexivity]. destruct (floats to_num cs) as [xs|]; [|reflexivity].
      rewrite IH. cbn [opt_list app]. rewrite <- app_assoc. reflexivity.
    + cbn [andb orb opt_list app fold_left]. rewrite IH. reflexivity.
Qed.
Definition header_of (lines : list string) : list string :=
  fold_left add_new (flat_map (fun l => opt_list (head_fun l)) lines) [].
Lemma titles_spec : forall lines ts, column_titles lines ts <-> filter (contains "Col.") (header_of lines) = ts.
Proof.
  intros lines ts. split.
  - intros (hs & ds & C & F & K).
    assert (E : hs = flat_map (fun l => opt_list (head_fun l)) lines).
    { eapply collects_unique; [|exact C|apply collects_flat_map; intros; apply head_fun_iff].
      intros a b c X Y. apply head_fun_iff in X, Y. congruence. }
    subst hs. assert (E : ds = header_of lines) by (eapply firsts_unique; [exact F|apply firsts_add]). subst ds.
    eapply kept_unique; [apply kept_filter; intros x; apply contains_iff|exact K].
  - intros <-. exists (flat_map (fun l => opt_list (head_fun l)) lines), (header_of lines). split; [|split].
    + apply collects_flat_map. intros; apply head_fun_iff.
    + apply firsts_add.
    + apply kept_filter. intros x. apply contains_iff.
Qed.
Lemma valid_header_iff : forall ids lines, valid_header ids (header_of lines) = true <-> titles_fit lines ids.
Proof.
  intros ids lines. unfold valid_header, titles_fit.
  transitivity (Forall2 (fun t e => occurs e t) (filter (contains "Col.") (header_of lines)) ids).
  - generalize (filter (contains "Col.") (header_of lines)) as ts. intros ts. revert ids.
    induction ts as [|t ts IH]; intros [|e ids]; cbn [length Nat.eqb combine forallb andb]; split; intros H;
      try discriminate; try (constructor; fail); try (inversion H; fail); try reflexivity.
    + apply andb_true_iff in H. destruct H as [L H]. apply andb_true_iff in H. destruct H as [O H]. constructor.
      * apply contains_iff. exact O.
      * apply IH. rewrite L. exact H.
    + inversion H as [|? ? ? ? O F]; subst. apply IH in F. apply andb_true_iff in F. destruct F as [L F].
      rewrite L. cbn [fst snd]. rewrite (proj2 (contains_iff e t) O). exact F.
  - split.
    + intros F. eexists. split; [apply titles_spec; reflexivity|exact F].
    + intros (ts & T & F). apply titles_spec in T. subst ts. exact F.
Qed.
Lemma pal_columns_in : forall keys rows ind q col, In (q, col) (pal_columns ind keys rows) <->
  exists i, nth_error keys i = Some q /\ hidden q = false /\ col = map (fun r => nth (ind + i) (snd r) None) rows.
Proof.
  induction keys as [|k keys IH]; intros rows ind q col; cbn [pal_columns].
  - split; [intros []|intros (i & H & _); destruct i; discriminate].
  - assert (R : In (q, col) (pal_columns (S ind) keys rows) <->
      exists i, nth_error (k :: keys) (S i) = Some q /\ hidden q = false /\ col = map (fun r => nth (ind + S i) (snd r) None) rows).
    { rewrite IH. split; intros (i & A & B & C); exists i; (split; [exact A|]); (split; [exact B|]); rewrite C; apply map_ext;
        intros r; f_equal; lia. }
    destruct (hidden k) eqn:Hk.
    + rewrite R. split; [intros (i & H); exists (S i); exact H|]. intros ([|i] & A & B & C); [cbn in A; congruence|eauto].
    + cbn [In]. rewrite R. split.
      * intros [H|(i & H)]; [injection H as <- <-; exists 0; rewrite Nat.add_0_r; auto|exists (S i); exact H].
      * intros ([|i] & A & B & C); [left; cbn in A; rewrite Nat.add_0_r in C; congruence|right; eauto].
Qed.
Lemma row_length : forall n l r, frow n l r -> length (snd r) = n.
Proof. intros n l r (c & cs & (_ & _ & L) & _ & F). apply forall2_nth in F. destruct F as [F _]. congruence. Qed.
Lemma collects_in : forall A B (R : A -> B -> Prop) l bs, collects R l bs -> forall b, In b bs -> exists a, In a l /\ R a b.
Proof.
  intros A B R l bs C. induction C as [|a b l bs H C IH|a l bs H C IH]; intros x I; [destruct I| |].
  - destruct I as [<-|I]; [exists a; split; [left; reflexivity|exact H]|]. destruct (IH x I) as (y & Y & Z). exists y. split; [right; exact Y|exact Z].
  - destruct (IH x I) as (y & Y & Z). exists y. split; [right; exact Y|exact Z].
Qed.
Lemma nth_column : forall n (rows : list (stamp * list (masked Q))) i col, i < n -> (forall r, In r rows -> length (snd r) = n) ->
  (col = map (fun r => nth i (snd r) None) rows <-> Forall2 (fun r x => nth_error (snd r) i = Some x) rows col).
Proof.
  intros n rows i col L. revert col. induction rows as [|r rows IH]; intros col H; cbn [map].
  - split; [intros ->; constructor|intros X; inversion X; reflexivity].
  - assert (N : nth_error (snd r) i = Some (nth i (snd r) None)).
    { apply nth_error_nth'. rewrite (H r (or_introl eq_refl)). exact L. }
    split.
    + intros ->. constructor; [exact N|]. apply IH; [intros r' I; apply H; right; exact I|reflexivity].
    + intros X. inversion X as [|? x ? c E F]; subst. f_equal; [congruence|]. apply IH; [intros r' I; apply H; right; exact I|exact F].
Qed.

(** A reader for a table of titles and quantities. *)
Definition fits_table (ids keys : list string) (table : list (string * string)) : Prop :=
  ids = map fst table /\ length table = S (length keys) /\
  forall i k, nth_error keys i = Some k -> exists title q, nth_error table (S i) = Some (title, q) /\
    ((q = "" /\ hidden k = true) \/ (q <> "" /\ q = k /\ hidden k = false)).
Lemma pal_read_spec : forall ids keys table files, fits_table ids keys table ->
  (forall s, pal_read to_num to_stamp ids keys files = Ok s <->
     exists rows, collects (frow (length keys)) (List.concat files) rows /\ s_time s = map fst rows /\
       s_cols s = pal_columns 0 keys rows /\ titles_fit (List.concat files) (map fst table) /\
       forall l, In l (List.concat files) -> ~ bad_line to_num to_stamp (length keys) l) /\
  (forall rows, (forall r, In r rows -> length (snd r) = length keys) -> columns_follow table rows (pal_columns 0 keys rows)) /\
  (pal_read to_num to_stamp ids keys files = Raise ValueError <->
     (exists l, In l (List.concat files) /\ bad_line to_num to_stamp (length keys) l) \/ ~ titles_fit (List.concat files) (map fst table)) /\
  (forall e, pal_read to_num to_stamp ids keys files = Raise e -> e = ValueError).
Proof.
  intros ids keys table files (Ti & Tl & Tk). set (lines := List.concat files). set (n := length keys).
  assert (E : pal_read to_num to_stamp ids keys files =
    if existsb (bad_fun n) lines then Raise ValueError
    else if valid_header ids (header_of lines)
         then Ok {| s_time := map fst (flat_map (fun l => opt_list (row_fun n l)) lines);
                    s_cols := pal_columns 0 keys (flat_map (fun l => opt_list (row_fun n l)) lines) |}
         else Raise ValueError).
  { unfold pal_read. fold lines n. rewrite pal_rows_eq. destruct (existsb (bad_fun n) lines); cbn [bind]; reflexivity. }
  assert (B : existsb (bad_fun n) lines = true <-> exists l, In l lines /\ bad_line to_num to_stamp n l).
  { rewrite existsb_exists. split; intros (l & I & H); exists l; (split; [exact I|]); apply bad_fun_iff; exact H. }
  assert (V := valid_header_iff ids lines). rewrite <- Ti.
  assert (C : collects (frow n) lines (flat_map (fun l => opt_list (row_fun n l)) lines)).
  { apply collects_flat_map. intros; apply row_fun_iff. }
  rewrite E. clear E. split; [|split; [|split]].
  - intros s. split.
    + destruct (existsb (bad_fun n) lines) eqn:X; [discriminate|].
      destruct (valid_header ids (header_of lines)) eqn:Y; [|discriminate]. intros H; injection H as <-.
      exists (flat_map (fun l => opt_list (row_fun n l)) lines). cbn. split; [exact C|]. split; [reflexivity|].
      split; [reflexivity|]. split; [apply V; reflexivity|]. intros l I Bl. assert (false = true) by (apply B; eauto). discriminate.
    + intros (rows & C' & T & K & F & NB).
      assert (X : existsb (bad_fun n) lines = false).
      { destruct (existsb (bad_fun n) lines); [|reflexivity]. destruct (proj1 B eq_refl) as (l & I & Bl). exfalso. eapply NB; eauto. }
      rewrite X. apply V in F. rewrite F.
      assert (R : rows = flat_map (fun l => opt_list (row_fun n l)) lines).
      { eapply collects_unique; [|exact C'|exact C]. intros a b c P1 P2. apply row_fun_iff in P1, P2. congruence. }
      rewrite <- R. destruct s as [st sc]. cbn in T, K. subst. reflexivity.
  - intros rows L q col. rewrite pal_columns_in. split.
    + intros (i & A & H & Cc). destruct (Tk i q A) as (title & q' & N & [[_ X]|(X & Y & _)]); [congruence|]. subst q'.
      exists i, title. split; [exact N|]. split; [exact X|]. cbn [Nat.add] in Cc. eapply nth_column; [|exact L|exact Cc].
      apply nth_error_Some. congruence.
    + intros (i & title & N & X & F).
      assert (Li : i < length keys). { assert (S i < length table) by (apply nth_error_Some; congruence). lia. }
      destruct (nth_error keys i) as [k|] eqn:K; [|apply nth_error_None in K; lia].
      destruct (Tk i k K) as (title' & q' & N' & D). rewrite N in N'. injection N' as <- <-.
      destruct D as [[D _]|(_ & -> & Hk)]; [contradiction|]. exists i. split; [exact K|]. split; [exact Hk|].
      cbn [Nat.add]. eapply nth_column; [exact Li|exact L|exact F].
  - destruct (existsb (bad_fun n) lines).
    + split; [|reflexivity]. intros _. left. apply B. reflexivity.
    + destruct (valid_header ids (header_of lines)).
      * split; [discriminate|]. intros [X|X]; [apply B in X; discriminate|]. exfalso. apply X, V. reflexivity.
      * split; [|reflexivity]. intros _. right. intros X. apply V in X. discriminate.
  - intros e. destruct (existsb (bad_fun n) lines); [congruence|]. destruct (valid_header ids (header_of lines)); congruence.
Qed.
Ltac table_rows := let i := fresh in let k := fresh in intros i k;
  do 9 (destruct i as [|i]; [cbn; intros H; first [discriminate|injection H as <-; eexists; eexists; split; [reflexivity|];
     first [left; split; reflexivity|right; split; [discriminate|split; reflexivity]]]|]);
  cbn; destruct i; discriminate.
Lemma palaiseau_fits : fits_table palaiseau_identifiers palaiseau_keys palaiseau_table.
Proof. split; [reflexivity|]. split; [reflexivity|]. table_rows. Qed.
Lemma maido_fits : fits_table maido_identifiers maido_keys maido_table.
Proof. split; [reflexivity|]. split; [reflexivity|]. table_rows. Qed.
Lemma potenza_fits : fits_table potenza_identifiers potenza_keys potenza_table.
Proof. split; [reflexivity|]. split; [reflexivity|]. table_rows. Qed.
End Pal.

(** ** Loops over the items of a row *)
Definition times (ss : list step) : list stamp := flat_map (fun s => match s with Time t => [t] | _ => [] end) ss.
Definition nums (k : string) (ss : list step) : list (masked Q) :=
  flat_map (fun s => match s with Num k' x => if String.eqb k k' then [x] else [] | _ => [] end) ss.
Definition run (ss : list step) (d : raw) : raw :=
  {| r_time := option_map (fun ts => ts ++ times ss) (r_time d);
     r_cols := map (fun kc => (fst kc, snd kc ++ nums (fst kc) ss)) (r_cols d) |}.
Definition allowed (d : raw) (s : step) : Prop :=
  match s with Skip => True | Time _ => r_time d <> None | Num k _ => In k (map fst (r_cols d)) end.
Lemma run_nil : forall d, run [] d = d.
Proof.
  intros [t c]. unfold run. cbn. f_equal; [destruct t; cbn; [rewrite app_nil_r|]; reflexivity|].
  rewrite <- (map_id c) at 2. apply map_ext. intros [k x]. cbn. rewrite app_nil_r. reflexivity.
Qed.
Lemma nums_app : forall k a b, nums k (a ++ b) = nums k a ++ nums k b.
Proof. intros. apply flat_map_app. Qed.
Lemma times_app : forall a b, times (a ++ b) = times a ++ times b.
Proof. intros. apply flat_map_app. Qed.
Lemma run_app : forall a b d, run (a ++ b) d = run b (run a d).
Proof.
  intros a b [t c]. unfold run. cbn. f_equal.
  - destruct t; cbn; [rewrite times_app, app_assoc|]; reflexivity.
  - rewrite map_map. apply map_ext. intros [k x]. cbn. rewrite nums_app, app_assoc. reflexivity.
Qed.
Lemma run_keys : forall ss d, map fst (r_cols (run ss d)) = map fst (r_cols d).
Proof. intros. cbn. rewrite map_map. apply map_ext. intros [k c]. reflexivity. Qed.
Lemma run_allowed : forall ss d s, allowed (run ss d) s <-> allowed d s.
Proof.
  intros ss d [|t|k x]; unfold allowed; [tauto| |rewrite run_keys; tauto]. cbn. destruct (r_time d); cbn; split; congruence.
Qed.
Lemma append_num_eq : forall k x c, NoDup (map fst c) -> In k (map fst c) ->
  append_num k x c = Some (map (fun kc => (fst kc, snd kc ++ if String.eqb (fst kc) k then [x] else [])) c).
Proof.
  intros k x c. induction c as [|[k' v] c IH]; intros N I; [destruct I|]. cbn in N, I. inversion N as [|? ? NI N']; subst.
  cbn [append_num map fst snd]. destruct (String.eqb_spec k k') as [->|D].
  - rewrite String.eqb_refl. f_equal. f_equal. rewrite <- (map_id c) at 1. apply map_ext_in. intros [k2 v2] I2. cbn.
    destruct (String.eqb_spec k2 k') as [->|]; [exfalso; apply NI; change k' with (fst (k', v2)); apply in_map; exact I2|].
    rewrite app_nil_r. reflexivity.
  - destruct I as [I|I]; [congruence|]. rewrite (IH N' I). cbn [option_map].
    destruct (String.eqb_spec k' k) as [->|]; [congruence|]. rewrite app_nil_r. reflexivity.
Qed.
Lemma do_step_eq : forall s d, NoDup (map fst (r_cols d)) -> allowed d s -> do_step s d = Ok (run [s] d).
Proof.
  intros [|t|k x] [ts c] N A; cbn [allowed r_time r_cols] in *; cbn [do_step r_time r_cols].
  - change [Skip] with ([Skip] ++ []). unfold run. cbn. rewrite (map_ext _ (fun kc => kc)); [rewrite map_id|].
    + destruct ts; cbn; [rewrite app_nil_r|]; reflexivity.
    + intros [k v]. cbn. rewrite app_nil_r. reflexivity.
  - destruct ts as [ts|]; [|congruence]. unfold run. cbn. f_equal. f_equal. rewrite <- (map_id c) at 1. apply map_ext.
    intros [k v]. cbn. rewrite app_nil_r. reflexivity.
  - rewrite (append_num_eq k x c N A). unfold run. cbn. f_equal. f_equal.
    + destruct ts; cbn; [rewrite app_nil_r|]; reflexivity.
    + apply map_ext. intros [k' v]. cbn. rewrite app_nil_r. reflexivity.
Qed.
Fixpoint steps_of {V} (cell : string -> V -> result step) (items : list (string * V)) : result (list step) :=
  match items with
  | [] => Ok []
  | (k, v) :: r => bind (cell k v) (fun s => bind (steps_of cell r) (fun ss => Ok (s :: ss)))
  end.
Lemma do_items_eq : forall V (cell : string -> V -> result step) items d, NoDup (map fst (r_cols d)) ->
  (forall k v s, In (k, v) items -> cell k v = Ok s -> allowed d s) ->
  do_items cell items d = bind (steps_of cell items) (fun ss => Ok (run ss d)).
Proof.
  intros V cell items. induction items as [|[k v] items IH]; intros d N A; cbn [do_items steps_of bind].
  - rewrite run_nil. reflexivity.
  - destruct (cell k v) as [s|e] eqn:E; cbn [bind]; [|reflexivity].
    rewrite (do_step_eq s d N (A k v s (or_introl eq_refl) E)). cbn [bind]. rewrite IH.
    + destruct (steps_of cell items) as [ss|e]; cbn [bind]; [|reflexivity]. rewrite <- run_app. reflexivity.
    + rewrite run_keys. exact N.
    + intros k' v' s' I E'. apply run_allowed. apply (A k' v' s'); [right; exact I|exact E'].
Qed.
Lemma steps_map : forall V (cell : string -> V -> result step) (f : string -> V -> step) items,
  (forall k v, In (k, v) items -> cell k v = Ok (f k v)) -> steps_of cell items = Ok (map (fun kv => f (fst kv) (snd kv)) items).
Proof.
  intros V cell f items. induction items as [|[k v] items IH]; intros H; [reflexivity|]. cbn [steps_of].
  rewrite (H k v (or_introl eq_refl)). cbn [bind]. rewrite IH; [reflexivity|]. intros; apply H; right; assumption.
Qed.
Lemma steps_raise : forall V (cell : string -> V -> result step) items e, steps_of cell items = Raise e ->
  exists k v, In (k, v) items /\ cell k v = Raise e.
Proof.
  intros V cell items. induction items as [|[k v] items IH]; intros e H; [discriminate|]. cbn [steps_of] in H.
  destruct (cell k v) as [s|e'] eqn:E; cbn [bind] in H.
  - destruct (steps_of cell items) as [ss|e']; cbn [bind] in H; [discriminate|]. injection H as <-.
    destruct (IH e' eq_refl) as (k' & v' & I & X). exists k', v'. split; [right; exact I|exact X].
  - injection H as <-. exists k, v. split; [left; reflexivity|exact E].
Qed.
Lemma steps_fail : forall V (cell : string -> V -> result step) items k v e, In (k, v) items -> cell k v = Raise e ->
  exists e', steps_of cell items = Raise e'.
Proof.
  intros V cell items. induction items as [|[k' v'] items IH]; intros k v e I H; [destruct I|]. cbn [steps_of].
  destruct I as [I|I].
  - injection I as -> ->. rewrite H. eexists. reflexivity.
  - destruct (cell k' v') as [s|e'']; cbn [bind]; [|eexists; reflexivity]. destruct (IH k v e I H) as (e' & ->). eexists. reflexivity.
Qed.
(** Items that append to the column of their key. *)
Section Keyed.
Context {V : Type} (key : string -> option string) (tk : string) (h : V -> stamp) (g : V -> masked Q).
Definition keyed (k : string) (v : V) : step :=
  match key k with None => Skip | Some q => if String.eqb q tk then Time (h v) else Num q (g v) end.
Hypothesis inj : forall k k' q, key k = Some q -> key k' = Some q -> k = k'.
Notation mapped_steps items := (map (fun kv => keyed (fst kv) (snd kv)) items).
Lemma times_none : forall (items : list (string * V)), (forall k, In k (map fst items) -> key k <> Some tk) -> times (mapped_steps items) = [].
Proof.
  induction items as [|[k v] items IH]; intros H; [reflexivity|]. cbn [map times flat_map fst snd].
  fold (times (mapped_steps items)). rewrite IH; [|intros k' I; apply H; right; exact I].
  unfold keyed. destruct (key k) as [q|] eqn:E; [|reflexivity].
  destruct (String.eqb_spec q tk) as [->|]; [exfalso; apply (H k); [left; reflexivity|exact E]|reflexivity].
Qed.
Lemma times_one : forall (items : list (string * V)) k v, NoDup (map fst items) -> In (k, v) items -> key k = Some tk ->
  times (mapped_steps items) = [h v].
Proof.
  induction items as [|[k' v'] items IH]; intros k v N I E; [destruct I|]. cbn in N. inversion N as [|? ? NI N']; subst.
  cbn [map times flat_map fst snd]. fold (times (mapped_steps items)). destruct I as [I|I].
  - injection I as -> ->. rewrite times_none.
    + unfold keyed. rewrite E, String.eqb_refl. reflexivity.
    + intros k2 I2 E2. rewrite (inj k2 k tk E2 E) in I2. contradiction.
  - rewrite (IH k v N' I E). unfold keyed. destruct (key k') as [q|] eqn:E'; [|reflexivity].
    destruct (String.eqb_spec q tk) as [->|]; [|reflexivity]. exfalso. apply NI. rewrite (inj k' k tk E' E).
    change k with (fst (k, v)). apply in_map. exact I.
Qed.
Lemma nums_none : forall q (items : list (string * V)), (forall k, In k (map fst items) -> key k <> Some q) -> nums q (mapped_steps items) = [].
Proof.
  induction items as [|[k v] items IH]; intros H; [reflexivity|]. cbn [map nums flat_map fst snd].
  fold (nums q (mapped_steps items)). rewrite IH; [|intros k' I; apply H; right; exact I].
  unfold keyed. destruct (key k) as [q'|] eqn:E; [|reflexivity]. destruct (String.eqb q' tk); [reflexivity|].
  destruct (String.eqb_spec q q') as [->|]; [exfalso; apply (H k); [left; reflexivity|exact E]|reflexivity].
Qed.
Lemma nums_one : forall (items : list (string * V)) q k v, NoDup (map fst items) -> In (k, v) items -> key k = Some q -> q <> tk ->
  nums q (mapped_steps items) = [g v].
Proof.
  induction items as [|[k' v'] items IH]; intros q k v N I E D; [destruct I|]. cbn in N. inversion N as [|? ? NI N']; subst.
  cbn [map nums flat_map fst snd]. fold (nums q (mapped_steps items)). destruct I as [I|I].
  - injection I as -> ->. rewrite nums_none.
    + unfold keyed. rewrite E. destruct (String.eqb_spec q tk); [contradiction|]. rewrite String.eqb_refl. reflexivity.
    + intros k2 I2 E2. rewrite (inj k2 k q E2 E) in I2. contradiction.
  - rewrite (IH q k v N' I E D). unfold keyed. destruct (key k') as [q'|] eqn:E'; [|reflexivity].
    destruct (String.eqb q' tk); [reflexivity|].
    destruct (String.eqb_spec q q') as [<-|]; [|reflexivity]. exfalso. apply NI. rewrite (inj k' k q E' E).
    change k with (fst (k, v)). apply in_map. exact I.
Qed.
End Keyed.

(** ** Rows one after the other *)
Fixpoint each {A} (f : A -> result (list step)) (rows : list A) : result (list step) :=
  match rows with
  | [] => Ok []
  | r :: rs => bind (f r) (fun ss => bind (each f rs) (fun ss' => Ok (ss ++ ss')))
  end.
Lemma each_map : forall A (f : A -> result (list step)) (g : A -> list step) rows,
  (forall r, In r rows -> f r = Ok (g r)) -> each f rows = Ok (flat_map g rows).
Proof.
  intros A f g rows. induction rows as [|r rows IH]; intros H; [reflexivity|]. cbn [each flat_map].
  rewrite (H r (or_introl eq_refl)). cbn [bind]. rewrite IH; [reflexivity|]. intros; apply H; right; assumption.
Qed.
Lemma each_raise : forall A (f : A -> result (list step)) rows e, each f rows = Raise e -> exists r, In r rows /\ f r = Raise e.
Proof.
  intros A f rows. induction rows as [|r rows IH]; intros e H; [discriminate|]. cbn [each] in H.
  destruct (f r) as [ss|e'] eqn:E; cbn [bind] in H.
  - destruct (each f rows) as [ss'|e']; cbn [bind] in H; [discriminate|]. injection H as <-.
    destruct (IH e' eq_refl) as (r' & I & X). exists r'. split; [right; exact I|exact X].
  - injection H as <-. exists r. split; [left; reflexivity|exact E].
Qed.
Lemma each_fail : forall A (f : A -> result (list step)) rows r e, In r rows -> f r = Raise e -> exists e', each f rows = Raise e'.
Proof.
  intros A f rows. induction rows as [|r' rows IH]; intros r e I H; [destruct I|]. cbn [each]. destruct I as [->|I].
  - rewrite H. eexists. reflexivity.
  - destruct (f r') as [ss|e'']; cbn [bind]; [|eexists; reflexivity]. destruct (IH r e I H) as (e' & ->). eexists. reflexivity.
Qed.
Lemma flat_one : forall A B (f : A -> list B) (g : A -> B) l, (forall a, In a l -> f a = [g a]) -> flat_map f l = map g l.
Proof.
  intros A B f g l. induction l as [|a l IH]; intros H; [reflexivity|]. cbn. rewrite (H a (or_introl eq_refl)). cbn. f_equal.
  apply IH. intros; apply H; right; assumption.
Qed.
Lemma nums_flat : forall A (g : A -> list step) k l, nums k (flat_map g l) = flat_map (fun a => nums k (g a)) l.
Proof. intros A g k l. induction l as [|a l IH]; [reflexivity|]. cbn [flat_map]. rewrite nums_app, IH. reflexivity. Qed.
Lemma times_flat : forall A (g : A -> list step) l, times (flat_map g l) = flat_map (fun a => times (g a)) l.
Proof. intros A g l. induction l as [|a l IH]; [reflexivity|]. cbn [flat_map]. rewrite times_app, IH. reflexivity. Qed.
Lemma nonblank_kept : forall rows, nonblank_rows rows (filter nonblank rows).
Proof. intros rows. apply kept_filter. intros [|a x]; cbn; split; congruence. Qed.
Definition row_steps (cell : list (string * option string) -> string -> option string -> result step) (extra : option exn)
  (fields row : list string) : result (list step) :=
  bind (steps_of (cell (kitems fields row)) (kitems fields row)) (fun ss =>
    match length fields <? length row, extra with true, Some e => Raise e | _, _ => Ok ss end).
Lemma csv_rows_eq : forall cell extra fields rows d, NoDup fields -> NoDup (map fst (r_cols d)) ->
  (forall row k v s, In row rows -> In (k, v) (kitems fields row) -> cell (kitems fields row) k v = Ok s -> allowed d s) ->
  csv_rows cell extra fields rows d =
  bind (each (row_steps cell extra fields) (filter nonblank rows)) (fun ss => Ok (run ss d)).
Proof.
  intros cell extra fields rows d N. revert d. induction rows as [|row rows IH]; intros d Nd A; cbn [csv_rows filter].
  - cbn [each bind]. rewrite run_nil. reflexivity.
  - destruct row as [|w row].
    + cbn [nonblank]. apply IH; [exact Nd|]. intros r k v s I. apply A. right. exact I.
    + cbn [nonblank]. rewrite (dict_row_eq _ _ N). cbn [each]. unfold row_steps at 1.
      rewrite do_items_eq; [|exact Nd|intros k v s I E; eapply A; [left; reflexivity|exact I|exact E]].
      destruct (steps_of (cell (kitems fields (w :: row))) (kitems fields (w :: row))) as [ss|e]; cbn [bind]; [|reflexivity].
      assert (R : csv_rows cell extra fields rows (run ss d) =
        bind (each (row_steps cell extra fields) (filter nonblank rows)) (fun s => Ok (run (ss ++ s) d))).
      { rewrite IH; [|rewrite run_keys; exact Nd|intros r k v s I X Y; apply run_allowed; eapply A; [right; exact I|exact X|exact Y]].
        destruct (each (row_steps cell extra fields) (filter nonblank rows)); cbn [bind]; [rewrite run_app|]; reflexivity. }
      destruct (length fields <? length (w :: row)); [destruct extra|]; cbn [bind]; try reflexivity;
        rewrite R; match goal with |- context [each ?f ?l] => destruct (each f l) end; reflexivity.
Qed.
Lemma empty_cols_eq : forall fields, NoDup fields -> empty_cols fields = map (fun f => (f, [])) fields.
Proof.
  intros fields N. unfold empty_cols.
  assert (E : forall l d, fold_left (fun d (c : string) => put String.eqb c (@nil (masked Q)) d) l d =
    fold_left (fun d kv => put String.eqb (fst kv) (snd kv) d) (map (fun f => (f, [])) l) d).
  { induction l as [|x l IH]; intros d; [reflexivity|]. cbn. apply IH. }
  rewrite E, put_fresh; [reflexivity|]. cbn. rewrite map_map. cbn. rewrite map_id. exact N.
Qed.
Lemma empty_keys : forall fields, NoDup fields -> map fst (empty_cols fields) = fields.
Proof. intros fields N. rewrite (empty_cols_eq _ N), map_map. cbn. apply map_id. Qed.

(** ** CSV stations *)
Lemma each_ok : forall A (f : A -> result (list step)) rows ss, each f rows = Ok ss -> forall r, In r rows -> exists s, f r = Ok s.
Proof.
  intros A f rows ss H r I. destruct (f r) as [s|e] eqn:E; [eauto|]. destruct (each_fail A f rows r e I E) as (e' & X). congruence.
Qed.
Lemma steps_ok : forall V (cell : string -> V -> result step) items ss, steps_of cell items = Ok ss ->
  forall k v, In (k, v) items -> exists s, cell k v = Ok s.
Proof.
  intros V cell items ss H k v I. destruct (cell k v) as [s|e] eqn:E; [eauto|]. destruct (steps_fail V cell items k v e I E) as (e' & X). congruence.
Qed.
Lemma kitems_fst : forall fields row, map fst (kitems fields row) = fields.
Proof. intros fields row. unfold kitems. apply combine_fst. rewrite app_length, map_length, repeat_length. lia. Qed.
Lemma kitems_in : forall fields row k v, In (k, v) (kitems fields row) <-> exists i, nth_error fields i = Some k /\ nth_error row i = v.
Proof.
  intros fields row k v. split.
  - intros I. apply In_nth_error in I. destruct I as (i & I). exists i. apply nth_kitems. exact I.
  - intros (i & H). apply nth_kitems in H. eapply nth_error_In. exact H.
Qed.
Lemma get_in : forall A (l : list (string * A)) k v, NoDup (map fst l) -> (get String.eqb k l = Some v <-> In (k, v) l).
Proof.
  intros A l k v. induction l as [|[k' v'] l IH]; intros N; cbn [get]; [split; [discriminate|intros []]|].
  cbn in N. inversion N as [|? ? NI N']; subst. destruct (String.eqb_spec k k') as [->|D].
  - split; [intros H; injection H as <-; left; reflexivity|]. intros [H|H]; [congruence|]. exfalso. apply NI.
    change k' with (fst (k', v)). apply in_map. exact H.
  - rewrite (IH N'). split; [right; assumption|]. intros [H|H]; [congruence|exact H].
Qed.
Lemma kitems_get : forall fields row k v, NoDup fields ->
  (get String.eqb k (kitems fields row) = Some v <-> exists i, nth_error fields i = Some k /\ nth_error row i = v).
Proof. intros fields row k v N. rewrite get_in by (rewrite kitems_fst; exact N). apply kitems_in. Qed.
Lemma field_get : forall fields row k w, NoDup fields ->
  (get String.eqb k (kitems fields row) = Some (Some w) <-> field fields k row w).
Proof. intros. apply kitems_get. assumption. Qed.
Lemma missing_get : forall fields row k, NoDup fields ->
  (get String.eqb k (kitems fields row) = Some None <-> missing_field fields k row).
Proof.
  intros fields row k N. rewrite kitems_get by exact N. unfold missing_field. split; intros (i & A & B); exists i; (split; [exact A|]);
    apply nth_error_None; exact B.
Qed.
Lemma full_field : forall fields row k, NoDup fields -> In k fields -> length fields <= length row -> exists w, field fields k row w.
Proof.
  intros fields row k N I L. apply In_nth_error in I. destruct I as (i & I).
  assert (i < length fields) by (apply nth_error_Some; congruence).
  destruct (nth_error row i) as [w|] eqn:E; [exists w, i; auto|]. apply nth_error_None in E. lia.
Qed.
Lemma field_unique : forall fields k row w w', NoDup fields -> field fields k row w -> field fields k row w' -> w = w'.
Proof. intros fields k row w w' N A B. apply field_get in A, B; [congruence|exact N|exact N]. Qed.
(** The columns after the loop. *)
Definition value_of (g : option string -> masked Q) (fields : list string) (k : string) (row : list string) : masked Q :=
  match get String.eqb k (kitems fields row) with Some v => g v | None => None end.
Section Csv.
Context (cell : list (string * option string) -> string -> option string -> result step) (extra : option exn)
  (fields : list string) (tk : string) (h : list string -> stamp) (g : option string -> masked Q).
Hypothesis N : NoDup fields.
Notation key := (fun k : string => Some k).
Definition good_row (row : list string) : Prop :=
  (forall k v, In (k, v) (kitems fields row) -> cell (kitems fields row) k v = Ok (keyed key tk (fun _ => h row) g k v)) /\
  (extra = None \/ length row <= length fields).
Lemma key_inj : forall k k' q : string, Some k = Some q -> Some k' = Some q -> k = k'.
Proof. congruence. Qed.
Definition row_list (row : list string) : list step := map (fun kv => keyed key tk (fun _ => h row) g (fst kv) (snd kv)) (kitems fields row).
Lemma good_steps : forall row, good_row row -> row_steps cell extra fields row = Ok (row_list row).
Proof.
  intros row [A B]. unfold row_steps. rewrite (steps_map _ _ _ _ A). cbn [bind].
  destruct (length fields <? length row) eqn:E; [|reflexivity]. apply Nat.ltb_lt in E. destruct B as [->|B]; [reflexivity|lia].
Qed.
Lemma each_good : forall rs, (forall row, In row rs -> good_row row) ->
  each (row_steps cell extra fields) rs = Ok (flat_map row_list rs) /\
  (In tk fields -> times (flat_map row_list rs) = map h rs) /\
  forall k, In k fields -> k <> tk -> nums k (flat_map row_list rs) = map (value_of g fields k) rs.
Proof.
  intros rs G. split; [|split].
  - apply each_map. intros r I. apply good_steps, G, I.
  - intros I. rewrite times_flat. apply flat_one. intros row _.
    assert (K : In tk (map fst (kitems fields row))) by (rewrite kitems_fst; exact I). apply in_map_iff in K. destruct K as ([k v] & E & K).
    cbn in E. subst k. unfold row_list.
    apply (times_one key tk (fun _ => h row) g key_inj (kitems fields row) tk v); [rewrite kitems_fst; exact N|exact K|reflexivity].
  - intros k I D. rewrite nums_flat. apply flat_one. intros row _.
    assert (K : In k (map fst (kitems fields row))) by (rewrite kitems_fst; exact I). apply in_map_iff in K. destruct K as ([k' v] & E & K).
    cbn in E. subst k'. unfold row_list, value_of.
    rewrite (proj2 (get_in _ (kitems fields row) k v ltac:(rewrite kitems_fst; exact N)) K).
    apply (nums_one key tk (fun _ => h row) g key_inj (kitems fields row) k k v); [rewrite kitems_fst; exact N|exact K|reflexivity|exact D].
Qed.
End Csv.
(** The choice of the columns. *)
Lemma column_map : forall A (F : string -> list A) fields k, column_of String.eqb k (map (fun f => (f, F f)) fields) =
  if mem_str k fields then Some (F k) else None.
Proof.
  intros A F fields k. induction fields as [|f fields IH]; [reflexivity|]. cbn [map column_of mem_str existsb].
  destruct (String.eqb_spec k f) as [->|D]; [reflexivity|]. exact IH.
Qed.
Lemma first_column_map : forall (F : string -> list (masked Q)) fields names c,
  first_column names (map (fun f => (f, F f)) fields) = Some c <-> exists k, chosen names fields k /\ c = F k.
Proof.
  intros F fields names c. unfold chosen, first_with. induction names as [|n names IH]; cbn [first_column].
  - split; [discriminate|]. intros (k & (pre & post & E & _) & _). destruct pre; discriminate.
  - rewrite column_map. destruct (mem_str n fields) eqn:M.
    + apply mem_str_iff in M. split.
      * intros H; injection H as <-. exists n. split; [|reflexivity]. exists [], names. auto.
      * intros (k & (pre & post & E & I & A) & ->). destruct pre as [|p pre]; cbn in E; [congruence|].
        injection E as -> E. inversion A; contradiction.
    + assert (NM : ~ In n fields) by (intros X; apply mem_str_iff in X; congruence). rewrite IH. split.
      * intros (k & (pre & post & E & I & A) & ->). exists k. split; [|reflexivity]. exists (n :: pre), post.
        split; [cbn; congruence|]. split; [exact I|constructor; assumption].
      * intros (k & (pre & post & E & I & A) & ->). exists k. split; [|reflexivity]. destruct pre as [|p pre]; cbn in E.
        -- injection E as -> _. contradiction.
        -- injection E as -> E. exists pre, post. inversion A; auto.
Qed.
Definition column_rel (fields : list string) (F : string -> list (masked Q)) (qn : string * list string) (qc : string * list (masked Q)) : Prop :=
  fst qn = fst qc /\ exists k, chosen (snd qn) fields k /\ snd qc = F k.
Lemma pick_columns_iff : forall F fields keys t, pick_columns keys (map (fun f => (f, F f)) fields) = Ok t <->
  Forall2 (column_rel fields F) keys t.
Proof.
  intros F fields keys. induction keys as [|[q names] keys IH]; intros t; cbn [pick_columns].
  - split; [intros H; injection H as <-; constructor|intros H; inversion H; reflexivity].
  - destruct (first_column names (map (fun f => (f, F f)) fields)) as [c|] eqn:E.
    + assert (E' := E). apply first_column_map in E. split.
      * destruct (pick_columns keys (map (fun f => (f, F f)) fields)) as [t'|] eqn:P; cbn [bind]; [|discriminate].
        intros H; injection H as <-. constructor; [|apply IH; reflexivity]. split; [reflexivity|]. exact E.
      * intros H. inversion H as [|? [q' c'] ? t' [X Y] FF]; subst. cbn in X, Y. subst q'.
        assert (c' = c) by (apply first_column_map in Y; congruence). subst c'.
        apply IH in FF. rewrite FF. reflexivity.
    + split; [discriminate|]. intros H. inversion H as [|? [q' c'] ? t' [X Y] FF]; subst. cbn in Y. apply first_column_map in Y. congruence.
Qed.
Lemma pick_columns_error : forall keys d e, pick_columns keys d = Raise e -> e = KeyError.
Proof.
  induction keys as [|[q names] keys IH]; intros d e; cbn [pick_columns]; [discriminate|].
  destruct (first_column names d); [|congruence]. destruct (pick_columns keys d) eqn:P; cbn [bind]; [discriminate|].
  intros H. apply (IH d). congruence.
Qed.
Lemma run_empty : forall ss fields, NoDup fields ->
  r_cols (run ss {| r_time := Some []; r_cols := empty_cols fields |}) = map (fun f => (f, nums f ss)) fields.
Proof. intros ss fields N. cbn. rewrite (empty_cols_eq _ N), map_map. apply map_ext. reflexivity. Qed.
Lemma chosen_filter : forall tk names fields k, ~ In tk names ->
  (chosen names (filter (fun f => negb (String.eqb f tk)) fields) k <-> chosen names fields k).
Proof.
  intros tk names fields k NI. unfold chosen, first_with.
  assert (X : forall n, In n names -> (In n (filter (fun f => negb (String.eqb f tk)) fields) <-> In n fields)).
  { intros n I. rewrite filter_In. split; [tauto|]. intros H. split; [exact H|].
    destruct (String.eqb_spec n tk) as [->|]; [contradiction|reflexivity]. }
  split; intros (pre & post & E & I & A); exists pre, post; (split; [exact E|]);
    (assert (Y : forall n, In n (pre ++ k :: post) -> In n names) by (intros n H; rewrite E; exact H));
    (split; [apply X; [apply Y, in_or_app; right; left; reflexivity|exact I]|]);
    apply Forall_forall; intros n Hn J; rewrite Forall_forall in A; apply (A n Hn);
    apply X; try exact J; apply Y, in_or_app; left; exact Hn.
Qed.
Lemma nodup_filter : forall A (f : A -> bool) l, NoDup l -> NoDup (filter f l).
Proof. intros. apply NoDup_filter. assumption. Qed.

(** *** Galați *)
Section Galati.
Context (to_num : string -> option (masked Q)) (to_stamp : string -> option stamp).
Lemma number_or_nan_iff : forall w x, number_or_nan to_num w x <-> x = nan_or to_num w.
Proof.
  intros w x. unfold nan_or. split.
  - intros H. inversion H as [? ? E|? E]; subst; rewrite E; reflexivity.
  - intros ->. destruct (to_num w) as [y|] eqn:E; [apply NumberRead; exact E|apply NumberBad; exact E].
Qed.
Definition text_nan (v : option string) : masked Q := match v with Some s => nan_or to_num s | None => None end.
Definition time_of (conv : string -> option stamp) (tk : string) (fields row : list string) : stamp :=
  match get String.eqb tk (kitems fields row) with Some (Some w) => match conv w with Some t => t | None => (0, 0)%Z end | _ => (0, 0)%Z end.
(** A row that gives a time and a value for each column. *)
Definition full_row (conv : string -> option stamp) (tk : string) (fields row : list string) : Prop :=
  length row = length fields /\ exists w t, field fields tk row w /\ conv w = Some t.
Lemma forall2_map : forall A B (R : A -> B -> Prop) (f : A -> B) l, (forall a, In a l -> R a (f a)) -> Forall2 R l (map f l).
Proof. intros A B R f l. induction l as [|a l IH]; intros H; constructor; [apply H; left; reflexivity|apply IH; intros; apply H; right; assumption]. Qed.
Lemma forall2_is_map : forall A B (R : A -> B -> Prop) (f : A -> B) l m, (forall a b, In a l -> R a b -> b = f a) -> Forall2 R l m -> m = map f l.
Proof.
  intros A B R f l m H F. induction F as [|a b l m X F IH]; [reflexivity|]. cbn. f_equal; [apply H; [left; reflexivity|exact X]|].
  apply IH. intros; apply H; [right; assumption|assumption].
Qed.
(** A reader that needs full rows: [cell] for a table of titles. *)
Context (cell : list (string * option string) -> string -> option string -> result step) (bad : exn) (tk : string)
  (conv : string -> option stamp) (num : string -> masked Q).
Hypothesis cell_none : forall items k, cell items k None = Raise bad.
Hypothesis cell_time : forall items s, cell items tk (Some s) = match conv s with Some t => Ok (Time t) | None => Raise ValueError end.
Hypothesis cell_num : forall items k s, k <> tk -> cell items k (Some s) = Ok (Num k (num s)).
Context (fields : list string) (N : NoDup fields).
Notation gnum := (fun v : option string => match v with Some s => num s | None => None end).
Definition start : raw :=
  {| r_time := if mem_str tk fields then Some [] else None; r_cols := empty_cols (filter (fun f => negb (String.eqb f tk)) fields) |}.
Lemma full_good : forall row, full_row conv tk fields row -> good_row cell (Some bad) fields tk (time_of conv tk fields) gnum row.
Proof.
  intros row (L & w & t & F & C). split; [|right; lia]. intros k v I. unfold keyed. apply kitems_in in I. destruct I as (i & I1 & I2).
  destruct v as [s|].
  - destruct (String.eqb_spec k tk) as [->|D]; [|apply cell_num; exact D].
    rewrite cell_time. assert (s = w). { eapply field_unique; [exact N|exists i; split; [exact I1|exact I2]|exact F]. } subst s. rewrite C. unfold time_of.
    rewrite (proj2 (field_get fields row tk w N) F), C. reflexivity.
  - apply nth_error_None in I2. assert (i < length fields) by (apply nth_error_Some; congruence). lia.
Qed.
Lemma steps_full : forall row ss, In tk fields -> row_steps cell (Some bad) fields row = Ok ss -> full_row conv tk fields row.
Proof.
  intros row ss T H. unfold row_steps in H. destruct (steps_of (cell (kitems fields row)) (kitems fields row)) as [s|e] eqn:E; cbn [bind] in H; [|discriminate].
  destruct (length fields <? length row) eqn:L; [discriminate|]. apply Nat.ltb_ge in L.
  assert (A : forall k v, In (k, v) (kitems fields row) -> v <> None).
  { intros k v I ->. destruct (steps_ok _ _ _ _ E k None I) as (x & X). rewrite cell_none in X. discriminate. }
  assert (LL : length row = length fields).
  { destruct (Nat.eq_dec (length row) (length fields)) as [|D]; [assumption|]. exfalso.
    destruct (nth_error fields (length row)) as [k|] eqn:K; [|apply nth_error_None in K; lia].
    apply (A k None); [|reflexivity]. apply kitems_in. exists (length row). split; [exact K|]. apply nth_error_None. lia. }
  split; [exact LL|]. destruct (full_field fields row tk N T ltac:(lia)) as (w & F). exists w.
  destruct F as (i & F1 & F2). destruct (steps_ok _ _ _ _ E tk (Some w)) as (x & X); [apply kitems_in; eauto|].
  rewrite cell_time in X. destruct (conv w) as [t|] eqn:C; [|discriminate]. exists t. split; [exists i; auto|reflexivity].
Qed.
Lemma csv_full : forall rows, csv_rows cell (Some bad) fields rows start =
  bind (each (row_steps cell (Some bad) fields) (filter nonblank rows)) (fun ss => Ok (run ss start)).
Proof.
  intros rows. apply csv_rows_eq; [exact N| |].
  - unfold start. cbn [r_cols]. rewrite empty_keys; [|apply nodup_filter; exact N]. apply nodup_filter. exact N.
  - intros row k v s _ I C. assert (IF : In k fields). { apply kitems_in in I. destruct I as (i & I & _). eapply nth_error_In; exact I. }
    destruct v as [w|]; [|rewrite cell_none in C; discriminate]. destruct (String.eqb_spec k tk) as [->|D].
    + rewrite cell_time in C. destruct (conv w); [|discriminate]. injection C as <-. cbn. rewrite (proj2 (mem_str_iff _ _) IF). discriminate.
    + rewrite (cell_num _ _ _ D) in C. injection C as <-. cbn [allowed]. unfold start. cbn [r_cols].
      rewrite empty_keys; [|apply nodup_filter; exact N]. apply filter_In. split; [exact IF|]. destruct (String.eqb_spec k tk); [contradiction|reflexivity].
Qed.
(** What the reader returns. *)
Definition value_column (rs : list (list string)) (qn : string * list string) (qc : string * list (masked Q)) : Prop :=
  fst qn = fst qc /\ exists k, chosen (snd qn) fields k /\
    Forall2 (fun row x => exists w, field fields k row w /\ x = num w) rs (snd qc).
Definition station_of (keys : list (string * list string)) (rows : list (list string)) (s : station) : Prop :=
  exists rs, nonblank_rows rows rs /\ In tk fields /\ (forall row, In row rs -> length row = length fields) /\
    Forall2 (fun row t => exists w, field fields tk row w /\ conv w = Some t) rs (s_time s) /\
    Forall2 (value_column rs) keys (s_cols s).
Lemma csv_station : forall keys rows, (forall q names, In (q, names) keys -> ~ In tk names) ->
  forall s, bind (csv_rows cell (Some bad) fields rows start) (pick_station keys) = Ok s <-> station_of keys rows s.
Proof.
  intros keys rows NK s. rewrite csv_full. set (rs := filter nonblank rows).
  assert (KR : nonblank_rows rows rs) by apply nonblank_kept.
  assert (main : In tk fields -> (forall row, In row rs -> full_row conv tk fields row) ->
    exists ss, each (row_steps cell (Some bad) fields) rs = Ok ss /\ r_time (run ss start) = Some (map (time_of conv tk fields) rs) /\
      forall t, pick_columns keys (r_cols (run ss start)) = Ok t <-> Forall2 (value_column rs) keys t).
  { intros T G. destruct (each_good cell (Some bad) fields tk (time_of conv tk fields) gnum N rs) as (E & Et & En).
    { intros row I. apply full_good, G, I. }
    exists (flat_map (row_list fields tk (time_of conv tk fields) gnum) rs). split; [exact E|]. split.
    { cbn. rewrite (proj2 (mem_str_iff _ _) T). cbn. f_equal. apply Et, T. }
    intros t. change (r_cols (run ?a start)) with (r_cols (run a {| r_time := Some []; r_cols := empty_cols (filter (fun f => negb (String.eqb f tk)) fields) |})).
    rewrite run_empty by (apply nodup_filter; exact N). rewrite pick_columns_iff.
    assert (X : forall qn, In qn keys -> forall qc, column_rel (filter (fun f => negb (String.eqb f tk)) fields)
        (fun f => nums f (flat_map (row_list fields tk (time_of conv tk fields) gnum) rs)) qn qc <-> value_column rs qn qc).
    { intros [q names] IK [q' c]. unfold column_rel, value_column. cbn [fst snd].
      assert (NN : ~ In tk names) by (apply (NK q); exact IK).
      assert (Y : forall k, chosen names fields k -> (c = nums k (flat_map (row_list fields tk (time_of conv tk fields) gnum) rs) <->
          Forall2 (fun row x => exists w, field fields k row w /\ x = num w) rs c)).
      { intros k Ck. destruct Ck as (pre & post & Ek & IF & _).
        assert (D : k <> tk) by (intros ->; apply NN; rewrite Ek; apply in_or_app; right; left; reflexivity).
        rewrite (En k IF D).
        assert (Z : forall row, In row rs -> exists w, field fields k row w /\ value_of gnum fields k row = num w).
        { intros row I. destruct (G row I) as (L & _). destruct (full_field fields row k N IF ltac:(lia)) as (w & F).
          exists w. split; [exact F|]. unfold value_of. rewrite (proj2 (field_get fields row k w N) F). reflexivity. }
        split.
        - intros ->. apply forall2_map. intros row I. apply Z, I.
        - apply forall2_is_map. intros row x I (w & F & ->). destruct (Z row I) as (w' & F' & ->). f_equal. eapply field_unique; eassumption. }
      split.
      - intros (A & k & Ck & B). split; [exact A|]. exists k. apply (proj1 (chosen_filter tk names fields k NN)) in Ck. split; [exact Ck|]. apply Y; assumption.
      - intros (A & k & Ck & B). split; [exact A|]. exists k. split; [apply chosen_filter; [exact NN|exact Ck]|]. apply Y; assumption. }
    clear -X. revert t. induction keys as [|qn keys' IH]; intros t; split; intros F; inversion F; subst; constructor.
    - apply X; [left; reflexivity|assumption].
    - apply IH; [intros; apply X; right; assumption|assumption].
    - apply X; [left; reflexivity|assumption].
    - apply IH; [intros; apply X; right; assumption|assumption]. }
  split.
  - intros H. destruct (each (row_steps cell (Some bad) fields) rs) as [ss|e] eqn:E; cbn [bind] in H; [|discriminate].
    unfold pick_station in H. destruct (r_time (run ss start)) as [ts|] eqn:RT; [|discriminate].
    assert (T : In tk fields).
    { cbn in RT. destruct (mem_str tk fields) eqn:M; [apply mem_str_iff; exact M|discriminate]. }
    assert (G : forall row, In row rs -> full_row conv tk fields row).
    { intros row I. destruct (each_ok _ _ _ _ E row I) as (x & X). eapply steps_full; [exact T|exact X]. }
    destruct (main T G) as (ss' & E' & Ht & Hp). assert (ss' = ss) by congruence. subst ss'.
    destruct (pick_columns keys (r_cols (run ss start))) as [t|] eqn:P; cbn [bind] in H; [|discriminate]. injection H as <-.
    exists rs. cbn. split; [exact KR|]. split; [exact T|]. split; [intros row I; apply (G row I)|]. split; [|apply Hp; reflexivity].
    assert (ts = map (time_of conv tk fields) rs) by congruence. subst ts. apply forall2_map.
    intros row I. destruct (G row I) as (_ & w & t' & F & C). exists w. split; [exact F|]. unfold time_of.
    rewrite (proj2 (field_get fields row tk w N) F), C. reflexivity.
  - intros (rs' & K & T & L & Ft & Fc). assert (rs' = rs) by (eapply kept_unique; [exact K|exact KR]). subst rs'.
    assert (G : forall row, In row rs -> full_row conv tk fields row).
    { intros row I. split; [apply L, I|]. apply In_nth_error in I. destruct I as (i & I). apply forall2_nth in Ft. destruct Ft as [Le Ft].
      destruct (nth_error (s_time s) i) as [t|] eqn:Et; [|apply nth_error_None in Et; assert (i < length rs) by (apply nth_error_Some; congruence); lia].
      destruct (Ft i row t I Et) as (w & F & C). eauto. }
    destruct (main T G) as (ss & E & Ht & Hp). rewrite E. cbn [bind]. unfold pick_station. rewrite Ht. apply Hp in Fc. rewrite Fc. cbn [bind].
    f_equal. destruct s as [st sc]. cbn in *. f_equal. symmetry. eapply forall2_is_map; [|exact Ft].
    intros row t I (w & F & C). unfold time_of. rewrite (proj2 (field_get fields row tk w N) F), C. reflexivity.
Qed.
(** The exceptions. *)
Lemma csv_errors : forall keys rows rs e, nonblank_rows rows rs ->
  bind (csv_rows cell (Some bad) fields rows start) (pick_station keys) = Raise e ->
  (e = bad /\ exists row, In row rs /\ length row <> length fields) \/
  (e = ValueError /\ exists row w, In row rs /\ field fields tk row w /\ conv w = None) \/
  (e = KeyError /\ (~ In tk fields \/ exists q names, In (q, names) keys /\ forall k, ~ chosen names (filter (fun f => negb (String.eqb f tk)) fields) k)).
Proof.
  intros keys rows rs e K. assert (rs = filter nonblank rows) by (eapply kept_unique; [exact K|apply nonblank_kept]). subst rs.
  rewrite csv_full. destruct (each (row_steps cell (Some bad) fields) (filter nonblank rows)) as [ss|e'] eqn:E; cbn [bind].
  - unfold pick_station. destruct (r_time (run ss start)) as [ts|] eqn:RT.
    + intros H. right. right. destruct (pick_columns keys (r_cols (run ss start))) as [t|e'] eqn:P; cbn [bind] in H; [discriminate|].
      injection H as <-. split; [eapply pick_columns_error; exact P|]. right.
      change (r_cols (run ?a start)) with (r_cols (run a {| r_time := Some []; r_cols := empty_cols (filter (fun f => negb (String.eqb f tk)) fields) |})) in P.
      rewrite run_empty in P by (apply nodup_filter; exact N). clear -P. revert P.
      induction keys as [|[q names] keys' IH]; cbn [pick_columns]; [discriminate|].
      destruct (first_column names _) as [c|] eqn:F.
      * destruct (pick_columns keys' _) as [t|]; cbn [bind]; [discriminate|]. intros H.
        destruct (IH H) as (q' & n' & I & X). exists q', n'. split; [right; exact I|exact X].
      * intros _. exists q, names. split; [left; reflexivity|]. intros k Ck.
        assert (X : None = Some (nums k ss)) by (rewrite <- F; apply first_column_map; eauto). discriminate.
    + intros H; injection H as <-. right. right. split; [reflexivity|]. left. intros T. cbn in RT.
      rewrite (proj2 (mem_str_iff _ _) T) in RT. discriminate.
  - intros H; injection H as <-. destruct (each_raise _ _ _ _ E) as (row & I & X). unfold row_steps in X.
    destruct (steps_of (cell (kitems fields row)) (kitems fields row)) as [ss|e2] eqn:S; cbn [bind] in X.
    + destruct (length fields <? length row) eqn:L; [|discriminate]. apply Nat.ltb_lt in L. injection X as <-. left. split; [reflexivity|].
      exists row. split; [exact I|lia].
    + injection X as <-. destruct (steps_raise _ _ _ _ S) as (k & v & J & C). apply kitems_in in J. destruct J as (i & J1 & J2).
      destruct v as [w|].
      * destruct (String.eqb_spec k tk) as [->|D]; [|rewrite (cell_num _ _ _ D) in C; discriminate].
        rewrite cell_time in C. destruct (conv w) eqn:Cw; [discriminate|]. injection C as <-. right. left. split; [reflexivity|].
        exists row, w. split; [exact I|]. split; [exists i; auto|exact Cw].
      * rewrite cell_none in C. injection C as <-. left. split; [reflexivity|]. exists row. split; [exact I|].
        apply nth_error_None in J2. assert (i < length fields) by (apply nth_error_Some; congruence). lia.
Qed.
End Galati.

Lemma galati_iff : forall to_num to_stamp fields rows s, NoDup fields ->
  (galati to_num to_stamp fields rows = Ok s <->
   station_of "TimeStamp" to_stamp (nan_or to_num) fields galati_table rows s).
Proof.
  intros to_num to_stamp fields rows s N. unfold galati.
  apply (csv_station (galati_cell to_num to_stamp) TypeError "TimeStamp" to_stamp (nan_or to_num)); try exact N.
  - reflexivity.
  - reflexivity.
  - intros items k w D. cbn. destruct (String.eqb_spec k "TimeStamp"); [contradiction|reflexivity].
  - intros q names I. cbn in I. repeat (destruct I as [I|I]; [injection I as <- <-; cbn; intros X; repeat destruct X as [X|X]; discriminate || exact X|]).
    destruct I.
Qed.
Lemma galati_errors : forall to_num to_stamp fields rows rs e, NoDup fields -> nonblank_rows rows rs ->
  galati to_num to_stamp fields rows = Raise e ->
  (e = TypeError /\ exists row, In row rs /\ length row <> length fields) \/
  (e = ValueError /\ exists row w, In row rs /\ field fields "TimeStamp" row w /\ to_stamp w = None) \/
  (e = KeyError /\ (~ In "TimeStamp" fields \/ exists q names, In (q, names) galati_table /\ forall k, ~ chosen names fields k)).
Proof.
  intros to_num to_stamp fields rows rs e N K H.
  destruct (csv_errors (galati_cell to_num to_stamp) TypeError "TimeStamp" to_stamp (nan_or to_num)
    ltac:(reflexivity) ltac:(reflexivity)
    ltac:(intros items k w D; cbn; destruct (String.eqb_spec k "TimeStamp"); [contradiction|reflexivity]) fields N galati_keys rows rs e K H) as [X|[X|(X & Y)]];
    [left; exact X|right; left; exact X|].
  right. right. split; [exact X|]. destruct Y as [Y|(q & names & I & Y)]; [left; exact Y|]. right. exists q, names. split; [exact I|].
  intros k Ck. apply (Y k). apply chosen_filter; [|exact Ck]. clear -I. cbn in I.
  repeat (destruct I as [I|I]; [injection I as <- <-; cbn; intros X; repeat destruct X as [X|X]; discriminate || exact X|]). destruct I.
Qed.

(** *** Lampedusa *)
Lemma lstrip_char_spec : forall c s, exists a, s = (a ++ lstrip_char c s)%string /\ only_char c a /\ forall v, lstrip_char c s <> String c v.
Proof.
  intros c s. induction s as [|x s IH]; cbn [lstrip_char].
  - exists "". split; [reflexivity|]. split; [apply only_char_nil|discriminate].
  - destruct (Ascii.eqb_spec x c) as [->|D].
    + destruct IH as (a & E & O & H). exists (String c a). split; [cbn; congruence|]. split; [apply only_char_cons; auto|exact H].
    + exists "". split; [reflexivity|]. split; [apply only_char_nil|]. intros v H. congruence.
Qed.
Lemma lstrip_char_app : forall c a u, only_char c a -> (forall v, u <> String c v) -> lstrip_char c (a ++ u)%string = u.
Proof.
  intros c a u O H. induction a as [|x a IH]; cbn.
  - destruct u as [|y u]; [reflexivity|]. cbn. destruct (Ascii.eqb_spec y c) as [->|]; [exfalso; apply (H u); reflexivity|reflexivity].
  - apply only_char_cons in O. destruct O as [-> O]. rewrite Ascii.eqb_refl. apply IH, O.
Qed.
Lemma strip_nul_iff : forall s t, strip_nul s = t <-> without_nul s t.
Proof.
  intros s t. unfold strip_nul, without_nul. split.
  - intros <-. destruct (lstrip_char_spec zero s) as (a & E & O & H). exists a, (lstrip_char zero s).
    split; [exact E|]. split; [exact O|]. split; [exact H|apply rstrip_char_trimmed].
  - intros (a & u & -> & O & H & T). rewrite (lstrip_char_app _ _ _ O H). apply trimmed_unique, T.
Qed.
Lemma lampedusa_nodup : NoDup lampedusa_fields.
Proof. repeat (constructor; [cbn; intros X; repeat destruct X as [X|X]; discriminate || exact X|]). constructor. Qed.
Definition lamp_conv (to_stamp : string -> option stamp) (w : string) := to_stamp (strip_nul w).
Definition lamp_num (to_num : string -> option (masked Q)) (w : string) := nan_or to_num (strip_nul w).
Lemma lampedusa_iff : forall to_num to_stamp rows s,
  lampedusa to_num to_stamp rows = Ok s <->
   station_of "time" (lamp_conv to_stamp) (lamp_num to_num) lampedusa_fields lampedusa_keys rows s.
Proof.
  intros to_num to_stamp rows s. unfold lampedusa.
  apply (csv_station (lampedusa_cell to_num to_stamp) AttributeError "time" (lamp_conv to_stamp) (lamp_num to_num)).
  - reflexivity.
  - reflexivity.
  - intros items k w D. cbn. destruct (String.eqb_spec k "time"); [contradiction|reflexivity].
  - exact lampedusa_nodup.
  - intros q names I. cbn in I. repeat (destruct I as [I|I]; [injection I as <- <-; cbn; intros X; repeat destruct X as [X|X]; discriminate || exact X|]).
    destruct I.
Qed.
Lemma lampedusa_errors : forall to_num to_stamp rows rs e, nonblank_rows rows rs ->
  lampedusa to_num to_stamp rows = Raise e ->
  (e = AttributeError /\ exists row, In row rs /\ length row <> 14) \/
  (e = ValueError /\ exists row w, In row rs /\ field lampedusa_fields "time" row w /\ lamp_conv to_stamp w = None).
Proof.
  intros to_num to_stamp rows rs e K H.
  destruct (csv_errors (lampedusa_cell to_num to_stamp) AttributeError "time" (lamp_conv to_stamp) (lamp_num to_num)
    ltac:(reflexivity) ltac:(reflexivity)
    ltac:(intros items k w D; cbn; destruct (String.eqb_spec k "time"); [contradiction|reflexivity]) lampedusa_fields lampedusa_nodup
    lampedusa_keys rows rs e K H) as [X|[X|(X & Y)]];
    [left; exact X|right; exact X|].
  exfalso. destruct Y as [Y|(q & names & I & Y)]; [apply Y; left; reflexivity|].
  cbn in I. repeat (destruct I as [I|I]; [injection I as <- <-; eapply Y; exists [], []; split; [reflexivity|]; split; [cbn; auto 20|constructor]|]).
  destruct I.
Qed.
Lemma chosen_one : forall n fields k, chosen [n] fields k <-> k = n /\ In n fields.
Proof.
  intros n fields k. unfold chosen, first_with. split.
  - intros (pre & post & E & I & _). destruct pre as [|p [|p' pre]]; cbn in E; try discriminate. injection E as -> _. auto.
  - intros [-> I]. exists [], []. auto.
Qed.

(** *** Hyytiälä *)
Section Hyytiala.
Context (to_num : string -> option (masked Q)) (to_int : string -> option Z) (date_of : Z -> Z -> Z -> option Z).
Context (fields : list string) (N : NoDup fields) (NE : ~ In "" fields) (NT : ~ In "time" fields) (Y : In "y" fields).
Lemma row_int_ok : forall row k z, row_int to_int (kitems fields row) k = Ok z <-> exists w, field fields k row w /\ to_int w = Some z.
Proof.
  intros row k z. unfold row_int. split.
  - destruct (get String.eqb k (kitems fields row)) as [[w|]|] eqn:E; try discriminate. destruct (to_int w) as [z'|] eqn:T; [|discriminate].
    intros H; injection H as ->. apply field_get in E; [|exact N]. eauto.
  - intros (w & F & T). apply field_get in F; [|exact N]. rewrite F, T. reflexivity.
Qed.
Lemma minute_stamp_iff : forall y m d n t, minute_stamp date_of y m d n = Some t <->
  date_of y m d = Some (fst t) /\ (0 <= n < 1440)%Z /\ snd t = (n * 60000000)%Z.
Proof.
  intros y m d n [day us]. unfold minute_stamp. cbn [fst snd].
  assert (B : ((0 <=? n / 60) && (n / 60 <? 24))%Z = true <-> (0 <= n < 1440)%Z).
  { rewrite andb_true_iff, Z.leb_le, Z.ltb_lt. Z.to_euclidean_division_equations. lia. }
  split.
  - destruct (date_of y m d) as [day'|]; [|discriminate]. destruct ((0 <=? n / 60) && (n / 60 <? 24))%Z eqn:E; [|discriminate].
    intros H; injection H as -> <-. split; [reflexivity|]. split; [apply B; reflexivity|reflexivity].
  - intros (-> & R & ->). rewrite (proj2 B R). reflexivity.
Qed.
Lemma hy_y_iff : forall row v s, hy_cell to_num to_int date_of (kitems fields row) "y" v = Ok s <->
  exists t, hy_time to_int date_of fields row t /\ s = Time t.
Proof.
  intros row v s. unfold hy_cell. cbn [String.eqb]. change (String.eqb "y" "") with false. change (String.eqb "y" "y") with true. cbv iota.
  unfold hy_time. split.
  - destruct (row_int to_int (kitems fields row) "y") as [y|] eqn:Ey; cbn [bind]; [|discriminate].
    destruct (row_int to_int (kitems fields row) "m") as [m|] eqn:Em; cbn [bind]; [|discriminate].
    destruct (row_int to_int (kitems fields row) "d") as [d|] eqn:Ed; cbn [bind]; [|discriminate].
    destruct (row_int to_int (kitems fields row) "minute") as [n|] eqn:En; cbn [bind]; [|discriminate].
    destruct (minute_stamp date_of y m d n) as [t|] eqn:Mt; [|discriminate]. intros H; injection H as <-.
    apply row_int_ok in Ey, Em, Ed, En. destruct Ey as (wy & Fy & Ty), Em as (wm & Fm & Tm), Ed as (wd & Fd & Td), En as (wn & Fn & Tn).
    apply minute_stamp_iff in Mt. destruct Mt as (D1 & D2 & D3). exists t. split; [|reflexivity].
    exists wy, wm, wd, wn, y, m, d, n. auto 20.
  - intros (t & (wy & wm & wd & wn & y & m & d & n & Fy & Ty & Fm & Tm & Fd & Td & Fn & Tn & D1 & D2 & D3) & ->).
    rewrite (proj2 (row_int_ok row "y" y)) by eauto. cbn [bind]. rewrite (proj2 (row_int_ok row "m" m)) by eauto. cbn [bind].
    rewrite (proj2 (row_int_ok row "d" d)) by eauto. cbn [bind]. rewrite (proj2 (row_int_ok row "minute" n)) by eauto. cbn [bind].
    rewrite (proj2 (minute_stamp_iff y m d n t)) by auto. reflexivity.
Qed.
Lemma hy_code_iff : forall x, (Qeq_bool x (-(9999 # 100)) || Qeq_bool x (-(999 # 10)))%bool = true <-> hy_code x.
Proof. intros x. rewrite orb_true_iff, !Qeq_bool_iff. unfold hy_code. reflexivity. Qed.
Lemma hy_value_iff : forall k row x, In k fields ->
  (hy_value to_num fields k row x <-> x = value_of (hy_number to_num) fields k row).
Proof.
  intros k row x I. unfold value_of, hy_number. split.
  - intros H. inversion H as [w y F T C|w y F T C|w F T|F]; subst.
    + apply field_get in F; [|exact N]. rewrite F, T. destruct (_ || _)%bool eqn:E; [|reflexivity]. apply hy_code_iff in E. contradiction.
    + apply field_get in F; [|exact N]. rewrite F, T. apply hy_code_iff in C. rewrite C. reflexivity.
    + apply field_get in F; [|exact N]. rewrite F. destruct T as [-> | ->]; reflexivity.
    + apply missing_get in F; [|exact N]. rewrite F. reflexivity.
  - intros ->. destruct (get String.eqb k (kitems fields row)) as [[w|]|] eqn:E.
    + apply field_get in E; [|exact N]. destruct (to_num w) as [[y|]|] eqn:T.
      * destruct (_ || _)%bool eqn:C.
        -- apply hy_code_iff in C. eapply HyCode; eassumption.
        -- apply (HyNumber _ _ _ _ w); [exact E|exact T|]. intros X. apply hy_code_iff in X. congruence.
      * eapply HyBad; [exact E|right; exact T].
      * eapply HyBad; [exact E|left; exact T].
    + apply HyNone. apply missing_get; assumption.
    + exfalso. assert (K : In k (map fst (kitems fields row))) by (rewrite kitems_fst; exact I). apply in_map_iff in K.
      destruct K as ([k' v] & E' & K). cbn in E'. subst k'. apply get_in in K; [|rewrite kitems_fst; exact N]. congruence.
Qed.
Definition hy_time_fun (row : list string) : stamp :=
  match hy_cell to_num to_int date_of (kitems fields row) "y" None with Ok (Time t) => t | _ => (0, 0)%Z end.
Lemma hy_cell_y : forall items v, hy_cell to_num to_int date_of items "y" v = hy_cell to_num to_int date_of items "y" None.
Proof. reflexivity. Qed.
Lemma hy_good : forall row t, hy_time to_int date_of fields row t ->
  good_row (hy_cell to_num to_int date_of) None fields "y" hy_time_fun (hy_number to_num) row /\ hy_time_fun row = t.
Proof.
  intros row t H. assert (E : hy_cell to_num to_int date_of (kitems fields row) "y" None = Ok (Time t)) by (apply hy_y_iff; eauto).
  assert (F : hy_time_fun row = t) by (unfold hy_time_fun; rewrite E; reflexivity). split; [|exact F].
  split; [|left; reflexivity]. intros k v I. unfold keyed. destruct (String.eqb_spec k "y") as [->|D].
  - rewrite hy_cell_y, E, F. reflexivity.
  - unfold hy_cell. destruct (String.eqb_spec k "") as [->|D'].
    + exfalso. apply NE. apply kitems_in in I. destruct I as (i & I & _). eapply nth_error_In; exact I.
    + destruct (String.eqb_spec k "y"); [contradiction|reflexivity].
Qed.
Lemma hyytiala_iff : forall rows s, hyytiala to_num to_int date_of fields rows = Ok s <->
  exists rs, nonblank_rows rows rs /\ Forall2 (hy_time to_int date_of fields) rs (s_time s) /\
    Forall2 (fun qt qc => fst qt = fst qc /\ In (snd qt) fields /\ Forall2 (hy_value to_num fields (snd qt)) rs (snd qc)) hy_table (s_cols s).
Proof.
  intros rows s. unfold hyytiala. set (d0 := {| r_time := Some []; r_cols := empty_cols fields |}).
  rewrite csv_rows_eq; [|exact N|unfold d0; cbn [r_cols]; rewrite empty_keys; exact N|].
  2:{ intros row k v st _ I C. assert (IF : In k fields). { apply kitems_in in I. destruct I as (i & I & _). eapply nth_error_In; exact I. }
      destruct (String.eqb_spec k "y") as [->|D].
      - apply hy_y_iff in C. destruct C as (t & _ & ->). discriminate.
      - unfold hy_cell in C. destruct (String.eqb_spec k "") as [->|]; [contradiction|]. destruct (String.eqb_spec k "y"); [contradiction|].
        injection C as <-. cbn [allowed]. unfold d0. cbn [r_cols]. rewrite empty_keys by exact N. exact IF. }
  set (rs := filter nonblank rows). assert (KR : nonblank_rows rows rs) by apply nonblank_kept.
  assert (main : (forall row, In row rs -> exists t, hy_time to_int date_of fields row t) ->
    exists ss, each (row_steps (hy_cell to_num to_int date_of) None fields) rs = Ok ss /\ r_time (run ss d0) = Some (map hy_time_fun rs) /\
      forall t, pick_columns hy_keys (r_cols (run ss d0)) = Ok t <->
        Forall2 (fun qt qc => fst qt = fst qc /\ In (snd qt) fields /\ Forall2 (hy_value to_num fields (snd qt)) rs (snd qc)) hy_table t).
  { intros G. destruct (each_good (hy_cell to_num to_int date_of) None fields "y" hy_time_fun (hy_number to_num) N rs) as (E & Et & En).
    { intros row I. destruct (G row I) as (t & Ht). apply (hy_good row t Ht). }
    exists (flat_map (row_list fields "y" hy_time_fun (hy_number to_num)) rs). split; [exact E|]. split.
    { cbn. f_equal. apply Et, Y. }
    intros t. unfold d0. rewrite run_empty by exact N. rewrite pick_columns_iff.
    assert (X : forall q n qc, n <> "y" -> column_rel fields (fun f => nums f (flat_map (row_list fields "y" hy_time_fun (hy_number to_num)) rs)) (q, [n]) qc <->
       q = fst qc /\ In n fields /\ Forall2 (hy_value to_num fields n) rs (snd qc)).
    { intros q n [q' c] D. unfold column_rel. cbn [fst snd]. split.
      - intros (A & k & Ck & B). apply chosen_one in Ck. destruct Ck as [-> I]. split; [exact A|]. split; [exact I|].
        rewrite (En n I D) in B. subst c. apply forall2_map. intros row _. apply hy_value_iff; [exact I|reflexivity].
      - intros (A & I & B). split; [exact A|]. exists n. split; [apply chosen_one; auto|]. rewrite (En n I D).
        eapply forall2_is_map; [|exact B]. intros row x _ H. apply hy_value_iff in H; assumption. }
    unfold hy_keys, hy_table.
    assert (Z : forall l t, (forall q n, In (q, n) l -> n <> "y") -> (Forall2 (column_rel fields (fun f => nums f (flat_map (row_list fields "y" hy_time_fun (hy_number to_num)) rs)))
       (map (fun qn => (fst qn, [snd qn])) l) t <->
       Forall2 (fun qt qc => fst qt = fst qc /\ In (snd qt) fields /\ Forall2 (hy_value to_num fields (snd qt)) rs (snd qc)) l t)).
    { induction l as [|[q n] l IH]; intros t' H; split; intros F; inversion F; subst; constructor.
      - apply (X q n); [apply (H q n); left; reflexivity|assumption].
      - apply IH; [intros; eapply H; right; eassumption|assumption].
      - cbn [fst snd]. apply X; [apply (H q n); left; reflexivity|assumption].
      - apply IH; [intros; eapply H; right; eassumption|assumption]. }
    apply (Z hy_table). intros q n I. cbn in I. repeat (destruct I as [I|I]; [injection I as <- <-; discriminate|]). destruct I. }
  split.
  - intros H. destruct (each (row_steps (hy_cell to_num to_int date_of) None fields) rs) as [ss|] eqn:E; cbn [bind] in H; [|discriminate].
    assert (G : forall row, In row rs -> exists t, hy_time to_int date_of fields row t).
    { intros row I. destruct (each_ok _ _ _ _ E row I) as (x & X). unfold row_steps in X.
      destruct (steps_of _ (kitems fields row)) as [st|] eqn:S; cbn [bind] in X; [|discriminate].
      apply In_nth_error in Y. destruct Y as (i & Yi).
      destruct (steps_ok _ _ _ _ S "y" (nth_error row i)) as (x' & X'); [apply kitems_in; eauto|]. apply hy_y_iff in X'.
      destruct X' as (t & Ht & _). eauto. }
    destruct (main G) as (ss' & E' & Ht & Hp). assert (ss' = ss) by congruence. subst ss'.
    unfold pick_station in H. rewrite Ht in H. destruct (pick_columns hy_keys (r_cols (run ss d0))) as [t|] eqn:P; cbn [bind] in H; [|discriminate].
    injection H as <-. exists rs. cbn. split; [exact KR|]. split; [|apply Hp; reflexivity].
    apply forall2_map. intros row I. destruct (G row I) as (t' & Ht'). destruct (hy_good row t' Ht') as [_ ->]. exact Ht'.
  - intros (rs' & K & Ft & Fc). assert (rs' = rs) by (eapply kept_unique; [exact K|exact KR]). subst rs'.
    assert (G : forall row, In row rs -> exists t, hy_time to_int date_of fields row t).
    { intros row I. apply In_nth_error in I. destruct I as (i & I). apply forall2_nth in Ft. destruct Ft as [Le Ft].
      destruct (nth_error (s_time s) i) as [t|] eqn:Et; [|apply nth_error_None in Et; assert (i < length rs) by (apply nth_error_Some; congruence); lia].
      exists t. apply (Ft i row t I Et). }
    destruct (main G) as (ss & E & Ht & Hp). rewrite E. cbn [bind]. unfold pick_station. rewrite Ht. apply Hp in Fc. rewrite Fc. cbn [bind].
    f_equal. destruct s as [st sc]. cbn in *. f_equal. symmetry. eapply forall2_is_map; [|exact Ft].
    intros row t I H. symmetry. apply (hy_good row t H).
Qed.
End Hyytiala.

(** ** TOA5 stations *)
Section Toa5.
Context (to_num : string -> option (masked Q)) (to_stamp : string -> option stamp) (to_int : string -> option Z).
Definition tval_or (kw : string * string) : string * @tcell stamp :=
  (fst kw, match toa5_value to_stamp to_int (fst kw) (snd kw) with Some v => TVal v | None => TRef "" end).
Definition plain_row (header line : list string) : @trow stamp := map tval_or (combine header line).
Lemma toa5_row_plain : forall header line row heap, NoDup (map fst row ++ header) -> (forall k, In k header -> has_char "(" k = false) ->
  toa5_readable to_stamp to_int header line ->
  toa5_row to_stamp to_int header line row heap = Ok (row ++ plain_row header line, heap).
Proof.
  induction header as [|k header IH]; intros line row heap N P R; cbn [toa5_row].
  - cbn. rewrite app_nil_r. reflexivity.
  - destruct line as [|w line]; [cbn; rewrite app_nil_r; reflexivity|].
    destruct (R k w (or_introl eq_refl)) as (v & V). apply toa5_value_iff in V. rewrite V, (P k (or_introl eq_refl)).
    assert (E : put String.eqb k (TVal v) row = row ++ [(k, TVal v)]).
    { assert (NI : ~ In k (map fst row)). { intros I. apply NoDup_remove_2 in N. apply N. apply in_or_app. left. exact I. }
      clear -NI. induction row as [|[k' c] row IH]; cbn; [reflexivity|]. destruct (String.eqb_spec k k') as [->|D].
      - exfalso. apply NI. left. reflexivity.
      - rewrite IH; [reflexivity|]. intros I. apply NI. right. exact I. }
    rewrite E, IH.
    + unfold plain_row. cbn [combine map]. unfold tval_or at 2. cbn [fst snd]. rewrite V, <- app_assoc. reflexivity.
    + rewrite map_app. cbn. rewrite <- app_assoc. exact N.
    + intros k' I. apply P. right. exact I.
    + intros k' w' I. apply R. right. exact I.
Qed.
Lemma template_plain : forall header, (forall k, In k header -> has_char "(" k = false) -> @row_template stamp header = [].
Proof.
  intros header. unfold row_template. generalize (@nil (string * @tcell stamp)) as d. induction header as [|k header IH]; intros d P; [reflexivity|].
  cbn. rewrite (P k (or_introl eq_refl)). apply IH. intros; apply P; right; assumption.
Qed.
Lemma toa5_rows_plain : forall header lines rows heap, NoDup header -> (forall k, In k header -> has_char "(" k = false) ->
  (forall l, In l lines -> toa5_readable to_stamp to_int header l) ->
  toa5_rows to_stamp to_int header lines rows heap = Ok (rows ++ map (plain_row header) lines, heap).
Proof.
  intros header lines. induction lines as [|l lines IH]; intros rows heap N P R; cbn [toa5_rows].
  - rewrite app_nil_r. reflexivity.
  - rewrite (template_plain _ P), toa5_row_plain; [|exact N|exact P|apply R; left; reflexivity]. cbn [bind fst snd app].
    rewrite IH; [|exact N|exact P|intros; apply R; right; assumption]. rewrite <- app_assoc. reflexivity.
Qed.
(** The table of a station: title, quantity and unit. *)
Context (strict : bool) (table : list (string * string * string)).
Definition keymap_of : list (string * string) := ("TIMESTAMP", "time") :: map fst table.
Definition units_of : list (string * string) := map (fun kqu => (fst (fst kqu), snd kqu)) table.
Hypothesis T1 : NoDup ("TIMESTAMP" :: "RECORD" :: map (fun kqu => fst (fst kqu)) table).
Hypothesis T2 : NoDup ("time" :: map (fun kqu => snd (fst kqu)) table).
Lemma keymap_nodup : NoDup (map fst keymap_of).
Proof.
  unfold keymap_of. cbn. rewrite map_map. inversion T1 as [|? ? A B]; subst. inversion B as [|? ? C D]; subst.
  constructor; [intros I; apply A; right; exact I|exact D].
Qed.
Lemma keymap_in : forall k q, get String.eqb k keymap_of = Some q <-> (k = "TIMESTAMP" /\ q = "time") \/ exists u, In (k, q, u) table.
Proof.
  intros k q. rewrite get_in by exact keymap_nodup. unfold keymap_of. cbn [In]. rewrite in_map_iff. split.
  - intros [H|([[k' q'] u] & E & I)]; [left; injection H as <- <-; auto|right]. cbn in E. injection E as -> ->. eauto.
  - intros [[-> ->]|(u & I)]; [left; reflexivity|right]. exists (k, q, u). auto.
Qed.
Lemma table_q : forall k q u, In (k, q, u) table -> q <> "time" /\ k <> "TIMESTAMP" /\ k <> "RECORD".
Proof.
  intros k q u I. inversion T2 as [|? ? A B]; subst. inversion T1 as [|? ? C D]; subst. inversion D as [|? ? E F]; subst.
  split; [|split]; intros ->.
  - apply A. change "time" with (snd (fst (k, "time", u))). apply (in_map (fun kqu : string * string * string => snd (fst kqu))). exact I.
  - apply C. right. change "TIMESTAMP" with (fst (fst ("TIMESTAMP", q, u))). apply (in_map (fun kqu : string * string * string => fst (fst kqu))). exact I.
  - apply E. change "RECORD" with (fst (fst ("RECORD", q, u))). apply (in_map (fun kqu : string * string * string => fst (fst kqu))). exact I.
Qed.
Lemma nodup_map_in : forall A (f : A -> string) l a b, NoDup (map f l) -> In a l -> In b l -> f a = f b -> a = b.
Proof.
  intros A f l a b. induction l as [|x l IH]; intros N Ia Ib E; [destruct Ia|]. cbn in N. inversion N as [|? ? NI N']; subst.
  destruct Ia as [->|Ia], Ib as [->|Ib]; [reflexivity| | |auto].
  - exfalso. apply NI. rewrite E. apply in_map. exact Ib.
  - exfalso. apply NI. rewrite <- E. apply in_map. exact Ia.
Qed.
Lemma keymap_inj : forall k k' q, get String.eqb k keymap_of = Some q -> get String.eqb k' keymap_of = Some q -> k = k'.
Proof.
  intros k k' q A B. apply keymap_in in A, B. destruct A as [[-> ->]|(u & A)], B as [[-> B]|(u' & B)].
  - reflexivity.
  - exfalso. apply (proj1 (table_q _ _ _ B)). reflexivity.
  - subst. exfalso. apply (proj1 (table_q _ _ _ A)). reflexivity.
  - inversion T2 as [|? ? X Y]; subst.
    assert (E : (k, q, u) = (k', q, u')) by (apply (nodup_map_in _ (fun kqu : string * string * string => snd (fst kqu)) table); auto). congruence.
Qed.
Context (header units : list string).
Hypothesis N : NoDup header.
Hypothesis P : forall k, In k header -> plain k.
Hypothesis LU : length units = length header.
Lemma units_ok_iff : units_ok units_of (combine header units) = true <-> ~ wrong_unit table header units.
Proof.
  assert (NU : NoDup (map fst units_of)).
  { unfold units_of. rewrite map_map. cbn. inversion T1 as [|? ? A B]; subst. inversion B; assumption. }
  unfold units_ok. rewrite forallb_forall. unfold wrong_unit. split.
  - intros H (i & k & q & u & u' & A & B & C & D). apply D.
    assert (I : In (k, u') (combine header units)).
    { clear -A B. revert i units A B. induction header as [|x l IH]; intros [|i] [|y m] A B; cbn in *; try discriminate.
      - left. congruence.
      - right. eauto. }
    specialize (H _ I). cbn [fst snd] in H. assert (G : get String.eqb k units_of = Some u).
    { apply get_in; [exact NU|]. unfold units_of. apply in_map_iff. exists (k, q, u). auto. }
    rewrite G in H. apply String.eqb_eq in H. exact H.
  - intros H [k u'] I. cbn [fst snd]. destruct (get String.eqb k units_of) as [u|] eqn:G; [|reflexivity].
    apply get_in in G; [|exact NU]. unfold units_of in G. apply in_map_iff in G. destruct G as ([[k2 q] u2] & E & G). cbn in E. injection E as -> ->.
    apply String.eqb_eq. destruct (string_dec u u') as [|D]; [assumption|]. exfalso. apply H.
    apply In_nth_error in I. destruct I as (i & I). exists i, k, q, u, u'.
    assert (X : nth_error header i = Some k /\ nth_error units i = Some u').
    { clear -I. revert i units I. induction header as [|x l IH]; intros [|i] [|y m] I; cbn in *; try discriminate.
      - injection I as -> ->. auto.
      - apply IH. exact I. }
    destruct X. auto.
Qed.
Definition bad_number (line : list string) : Prop :=
  exists k q u w, In (k, q, u) table /\ field header k line w /\ to_num w = None.
Definition toa5_ok (line : list string) : Prop :=
  (forall w, field header "TIMESTAMP" line w -> to_stamp w <> None) /\ (forall w, field header "RECORD" line w -> to_int w <> None).
Lemma combine_field : forall line k w, In (k, w) (combine header line) <-> field header k line w.
Proof.
  intros line k w. unfold field. clear. revert line. induction header as [|x l IH]; intros line.
  - cbn. split; [intros []|]. intros ([|i] & A & _); discriminate.
  - destruct line as [|y m]; cbn [combine In].
    + split; [intros []|]. intros ([|i] & _ & B); discriminate.
    + rewrite IH. split.
      * intros [H|(i & A & B)]; [exists 0; cbn; split; congruence|exists (S i); auto].
      * intros ([|i] & A & B); cbn in A, B; [left; congruence|right; eauto].
Qed.
Lemma toa5_ok_iff : forall line, toa5_ok line <-> toa5_readable to_stamp to_int header line.
Proof.
  intros line. unfold toa5_ok, toa5_readable. split.
  - intros [A B] k w I. apply combine_field in I. destruct (string_dec k "TIMESTAMP") as [->|D1].
    + destruct (to_stamp w) as [t|] eqn:E; [|exfalso; apply (A w I E)]. exists (StationModel.VStamp t). apply tm_stamp; auto.
    + destruct (string_dec k "RECORD") as [->|D2].
      * destruct (to_int w) as [t|] eqn:E; [|exfalso; apply (B w I E)]. exists (StationModel.VInt t). apply tm_record; auto.
      * exists (StationModel.VText w). apply tm_text; assumption.
  - intros H. split; intros w F; apply combine_field in F; destruct (H _ _ F) as (v & V); inversion V; congruence.
Qed.
Definition hstamp (c : @tcell stamp) : stamp := match c with TVal (StationModel.VStamp t) => t | _ => (0, 0)%Z end.
Definition gnumber (c : @tcell stamp) : masked Q := match c with TVal (StationModel.VText s) => nan_or to_num s | _ => None end.
Notation key := (fun k => get String.eqb k keymap_of).
Lemma cell_good : forall line k c, toa5_ok line -> (strict = true -> ~ bad_number line) -> In (k, c) (plain_row header line) ->
  toa5_cell to_num strict keymap_of k c = Ok (keyed key "time" hstamp gnumber k c).
Proof.
  intros line k c R B I. unfold plain_row in I. apply in_map_iff in I. destruct I as ([k' w] & E & I). unfold tval_or in E. cbn [fst snd] in E. injection E as -> <-.
  apply toa5_ok_iff in R. destruct (R k w I) as (v & V). assert (V' := V). apply toa5_value_iff in V'. rewrite V'.
  unfold toa5_cell, keyed. destruct (get String.eqb k keymap_of) as [q|] eqn:G; [|reflexivity]. apply keymap_in in G.
  destruct G as [[-> ->]|(u & G)].
  - change (String.eqb "time" "time") with true. cbv iota. inversion V; try congruence. reflexivity.
  - destruct (table_q _ _ _ G) as (Q1 & Q2 & Q3). destruct (String.eqb_spec q "time"); [contradiction|].
    inversion V; try congruence. subst v. cbn. unfold nan_or. destruct (to_num w) eqn:Tn; [reflexivity|].
    destruct strict; [|reflexivity]. exfalso. apply B; [reflexivity|]. exists k, q, u, w. split; [exact G|]. split; [apply combine_field; exact I|exact Tn].
Qed.
Lemma cell_bad : forall line, toa5_ok line -> bad_number line -> strict = true ->
  exists k c, In (k, c) (plain_row header line) /\ toa5_cell to_num strict keymap_of k c = Raise ValueError.
Proof.
  intros line R (k & q & u & w & G & F & B) ->. destruct (table_q _ _ _ G) as (Q1 & Q2 & Q3).
  exists k, (TVal (StationModel.VText w)). split.
  - unfold plain_row. apply in_map_iff. exists (k, w). split; [|apply combine_field; exact F]. unfold tval_or. cbn [fst snd]. f_equal.
    rewrite (proj2 (toa5_value_iff to_stamp to_int k w (StationModel.VText w)) (tm_text to_stamp to_int k w Q2 Q3)). reflexivity.
  - unfold toa5_cell. rewrite (proj2 (keymap_in k q)) by eauto. destruct (String.eqb_spec q "time"); [contradiction|]. rewrite B. reflexivity.
Qed.
Definition names : list string := mapped keymap_of header.
Lemma names_in : forall q, In q names <-> exists k, In k header /\ get String.eqb k keymap_of = Some q.
Proof.
  intros q. unfold names, mapped. rewrite in_flat_map. split.
  - intros (k & I & H). exists k. split; [exact I|]. destruct (get String.eqb k keymap_of) as [q'|]; [|destruct H]. destruct H as [->|[]]. reflexivity.
  - intros (k & I & H). exists k. split; [exact I|]. rewrite H. left. reflexivity.
Qed.
Lemma names_nodup : NoDup names.
Proof.
  unfold names, mapped. clear P LU. induction header as [|k l IH]; [constructor|]. cbn [flat_map]. inversion N as [|? ? NI N']; subst.
  destruct (get String.eqb k keymap_of) as [q|] eqn:G; cbn [app]; [|apply IH, N']. constructor; [|apply IH, N'].
  intros I. apply in_flat_map in I. destruct I as (k' & I & H). destruct (get String.eqb k' keymap_of) as [q'|] eqn:G'; [|destruct H].
  destruct H as [->|[]]. rewrite (keymap_inj k k' q G G') in NI. contradiction.
Qed.
Definition d0 : raw := {| r_time := if mem_str "time" names then Some [] else None; r_cols := empty_cols (filter (fun f => negb (String.eqb f "time")) names) |}.
Lemma d0_nodup : NoDup (map fst (r_cols d0)).
Proof. cbn [d0 r_cols]. rewrite empty_keys; apply nodup_filter; exact names_nodup. Qed.
Lemma table_eq : forall rows d, NoDup (map fst (r_cols d)) ->
  (forall row k v s, In row rows -> In (k, v) row -> toa5_cell to_num strict keymap_of k v = Ok s -> allowed d s) ->
  toa5_table to_num strict keymap_of rows d = bind (each (steps_of (toa5_cell to_num strict keymap_of)) rows) (fun ss => Ok (run ss d)).
Proof.
  induction rows as [|row rows IH]; intros d Nd A; cbn [toa5_table each]; [cbn; rewrite run_nil; reflexivity|].
  rewrite do_items_eq; [|exact Nd|intros k v s I E; eapply A; [left; reflexivity|exact I|exact E]].
  destruct (steps_of (toa5_cell to_num strict keymap_of) row) as [ss|e]; cbn [bind]; [|reflexivity].
  rewrite IH; [|rewrite run_keys; exact Nd|intros r k v s I X Y; apply run_allowed; eapply A; [right; exact I|exact X|exact Y]].
  destruct (each (steps_of (toa5_cell to_num strict keymap_of)) rows) as [ss'|]; cbn [bind]; [rewrite run_app|]; reflexivity.
Qed.
Lemma cell_allowed : forall k v s, In k header -> toa5_cell to_num strict keymap_of k v = Ok s -> allowed d0 s.
Proof.
  intros k v s I. unfold toa5_cell. destruct (get String.eqb k keymap_of) as [q|] eqn:G; [|intros H; injection H as <-; exact Logic.I].
  assert (Iq : In q names) by (apply names_in; eauto). destruct (String.eqb_spec q "time") as [->|D].
  - destruct v as [[t|z|w]|r]; try discriminate. intros H; injection H as <-. cbn. rewrite (proj2 (mem_str_iff _ _) Iq). discriminate.
  - assert (Z : forall x, allowed d0 (Num q x)).
    { intros x. cbn [allowed d0 r_cols]. rewrite empty_keys by (apply nodup_filter; exact names_nodup). apply filter_In. split; [exact Iq|].
      destruct (String.eqb_spec q "time"); [contradiction|reflexivity]. }
    destruct v as [[t|z|w]|r]; try discriminate. destruct (to_num w); [intros H; injection H as <-; apply Z|]. destruct strict; [discriminate|].
    intros H; injection H as <-. apply Z.
Qed.
Lemma has_plain : forall k, In k header -> has_char "(" k = false.
Proof. intros k I. apply plain_iff, P, I. Qed.
Lemma row_fst : forall line, length header <= length line -> map fst (plain_row header line) = header.
Proof.
  intros line L. unfold plain_row. rewrite map_map.
  transitivity (map fst (combine header line)); [apply map_ext; reflexivity|apply combine_fst; exact L].
Qed.
Lemma row_fst_in : forall line k c, In (k, c) (plain_row header line) -> In k header.
Proof. intros line k c I. unfold plain_row in I. apply in_map_iff in I. destruct I as ([k' w] & E & I). injection E as -> _. apply in_combine_l in I. exact I. Qed.
Notation station_read := (toa5_station to_num to_stamp to_int strict keymap_of units_of header units).
Lemma station_eq : forall lines, (forall l, In l lines -> toa5_ok l) ->
  station_read lines = if units_ok units_of (combine header units)
    then bind (each (steps_of (toa5_cell to_num strict keymap_of)) (map (plain_row header) lines)) (fun ss =>
           match r_time (run ss d0) with Some ts => Ok {| s_time := ts; s_cols := r_cols (run ss d0) |} | None => Raise KeyError end)
    else Raise ValueError.
Proof.
  intros lines R. unfold toa5_station, read_toa5. rewrite toa5_rows_plain; [|exact N|exact has_plain|intros l I; apply toa5_ok_iff, R, I].
  cbn [bind fst]. rewrite combine_fst by lia. fold names. change {| r_time := _; r_cols := _ |} with d0. cbn [app].
  destruct (units_ok units_of (combine header units)); [|reflexivity].
  rewrite table_eq; [|exact d0_nodup|].
  - destruct (each _ _); reflexivity.
  - intros row k v s I J C. apply in_map_iff in I. destruct I as (line & <- & I). eapply cell_allowed; [eapply row_fst_in; exact J|exact C].
Qed.
Lemma unreadable : forall lines l, In l lines -> ~ toa5_ok l -> station_read lines = Raise ValueError.
Proof.
  intros lines l I H. unfold toa5_station.
  destruct (read_toa5_spec to_num to_stamp to_stamp to_int header lines N) as [_ B].
  { intros k key Ik _ Ikey (r & -> & _). apply (P _ Ikey). exists k, r. reflexivity. }
  rewrite B; [reflexivity|]. exists l. split; [exact I|]. intros X. apply H, toa5_ok_iff, X.
Qed.
Definition toa5_columns (lines : list (list string)) (cols : list (string * list (masked Q))) : Prop :=
  NoDup (map fst cols) /\
  forall q col, In (q, col) cols <-> exists k u, In (k, q, u) table /\ In k header /\
    Forall2 (fun line x => exists w, field header k line w /\ number_or_nan to_num w x) lines col.
Lemma ok_dec : forall lines, (forall l, In l lines -> toa5_ok l) \/ exists l, In l lines /\ ~ toa5_ok l.
Proof.
  induction lines as [|l lines [IH|(x & I & H)]]; [left; intros l []| |right; exists x; split; [right; exact I|exact H]].
  destruct (readable_dec to_stamp to_int header l) as [D|D].
  - left. intros x [<-|I]; [apply toa5_ok_iff; exact D|apply IH, I].
  - right. exists l. split; [left; reflexivity|]. intros X. apply D, toa5_ok_iff, X.
Qed.
Lemma each_value_error : forall lines e, (forall l, In l lines -> toa5_ok l) ->
  each (steps_of (toa5_cell to_num strict keymap_of)) (map (plain_row header) lines) = Raise e -> e = ValueError.
Proof.
  intros lines e R E. apply each_raise in E. destruct E as (row & I & E). apply in_map_iff in I. destruct I as (line & <- & I).
  apply steps_raise in E. destruct E as (k & c & J & E). unfold plain_row in J. apply in_map_iff in J. destruct J as ([k' w] & F & J).
  unfold tval_or in F. cbn [fst snd] in F. injection F as -> <-.
  destruct (proj1 (toa5_ok_iff line) (R line I) k w J) as (v & V). assert (V' := V). apply toa5_value_iff in V'. rewrite V' in E.
  unfold toa5_cell in E. destruct (get String.eqb k keymap_of) as [q|] eqn:G; [|discriminate]. apply keymap_in in G.
  destruct G as [[-> ->]|(u & G)].
  - change (String.eqb "time" "time") with true in E. cbv iota in E. inversion V; subst; try congruence; discriminate.
  - destruct (table_q _ _ _ G) as (Q1 & Q2 & Q3). destruct (String.eqb_spec q "time"); [contradiction|].
    inversion V; try congruence. subst v. destruct (to_num w); [discriminate|]. destruct strict; congruence.
Qed.
Lemma toa5_station_spec : forall lines, In "TIMESTAMP" header -> (forall l, In l lines -> length header <= length l) ->
  (wrong_unit table header units \/ (exists l, In l lines /\ (~ toa5_ok l \/ (strict = true /\ bad_number l))) -> station_read lines = Raise ValueError) /\
  (~ wrong_unit table header units -> (forall l, In l lines -> toa5_ok l /\ (strict = true -> ~ bad_number l)) ->
   exists s, station_read lines = Ok s /\
     Forall2 (fun line t => exists w, field header "TIMESTAMP" line w /\ to_stamp w = Some t) lines (s_time s) /\ toa5_columns lines (s_cols s)).
Proof.
  intros lines T L. split.
  - intros H. destruct (ok_dec lines) as [R|(l & I & R)]; [|eapply unreadable; eassumption]. rewrite (station_eq lines R).
    destruct (units_ok units_of (combine header units)) eqn:U; [|reflexivity]. apply units_ok_iff in U.
    destruct H as [H|(l & I & [H|(St & H)])]; [contradiction|exfalso; apply H, R, I|].
    destruct (cell_bad l (R l I) H St) as (k & c & J & E).
    destruct (steps_fail _ _ _ _ _ _ J E) as (e1 & E1). destruct (each_fail _ (steps_of (toa5_cell to_num strict keymap_of)) (map (plain_row header) lines) (plain_row header l) e1) as (e & E2);
      [apply in_map; exact I|exact E1|]. rewrite E2. cbn [bind]. f_equal. eapply each_value_error; eassumption.
  - intros U G. assert (R : forall l, In l lines -> toa5_ok l) by (intros l I; apply (G l I)). rewrite (station_eq lines R).
    apply units_ok_iff in U. rewrite U.
    set (g := fun row : @trow stamp => map (fun kv => keyed key "time" hstamp gnumber (fst kv) (snd kv)) row).
    assert (E : each (steps_of (toa5_cell to_num strict keymap_of)) (map (plain_row header) lines) = Ok (flat_map g (map (plain_row header) lines))).
    { apply each_map. intros row I. apply in_map_iff in I. destruct I as (line & <- & I). apply steps_map. intros k c J.
      destruct (G line I) as [G1 G2]. eapply cell_good; eassumption. }
    rewrite E. cbn [bind]. set (ss := flat_map g (map (plain_row header) lines)).
    assert (FF : forall line k, In line lines -> In k header -> exists w, field header k line w /\ In (tval_or (k, w)) (plain_row header line)).
    { intros line k I J. destruct (full_field header line k N J (L line I)) as (w & F). exists w. split; [exact F|]. unfold plain_row. apply in_map, combine_field, F. }
    assert (TI : In "time" names) by (apply names_in; exists "TIMESTAMP"; split; [exact T|reflexivity]).
    assert (RT : r_time (run ss d0) = Some (times ss)).
    { cbn [run d0 r_time]. rewrite (proj2 (mem_str_iff _ _) TI). reflexivity. }
    rewrite RT. eexists. split; [reflexivity|]. cbn [s_time s_cols].
    assert (VR : forall line, In line lines -> length header <= length line) by exact L.
    split.
    { unfold ss. rewrite times_flat. apply forall2_nth.
      assert (Et : flat_map (fun row => times (g row)) (map (plain_row header) lines) =
        map (fun line => hstamp (match get String.eqb "TIMESTAMP" (plain_row header line) with Some c => c | None => TRef "" end)) lines).
      { rewrite flat_map_concat_map, map_map, <- flat_map_concat_map. apply flat_one. intros line I.
        destruct (FF line "TIMESTAMP" I T) as (w & F & J). unfold tval_or in J. cbn [fst snd] in J.
        rewrite (proj2 (get_in _ (plain_row header line) "TIMESTAMP" _ ltac:(rewrite row_fst by (apply L, I); exact N)) J). unfold g.
        apply (times_one key "time" hstamp gnumber keymap_inj (plain_row header line) "TIMESTAMP"); [rewrite row_fst by (apply L, I); exact N|exact J|reflexivity]. }
      rewrite Et. split; [rewrite map_length; reflexivity|]. intros i line t A B. rewrite nth_error_map, A in B. cbn in B. injection B as <-.
      assert (I := nth_error_In _ _ A). destruct (FF line "TIMESTAMP" I T) as (w & F & J). exists w. split; [exact F|].
      unfold tval_or in J. cbn [fst snd] in J.
      rewrite (proj2 (get_in _ (plain_row header line) "TIMESTAMP" _ ltac:(rewrite row_fst by (apply L, I); exact N)) J).
      destruct (R line I) as [R1 _]. specialize (R1 w F). unfold toa5_value. cbn. destruct (to_stamp w); [reflexivity|contradiction]. }
    assert (CE : r_cols (run ss d0) = map (fun f => (f, nums f ss)) (filter (fun f => negb (String.eqb f "time")) names)).
    { unfold d0. cbn [run r_cols]. rewrite empty_cols_eq by (apply nodup_filter; exact names_nodup). rewrite map_map. apply map_ext. reflexivity. }
    rewrite CE. split; [rewrite map_map; cbn; rewrite map_id; apply nodup_filter, names_nodup|].
    assert (NV : forall k q u, In (k, q, u) table -> In k header ->
      nums q ss = map (fun line => gnumber (match get String.eqb k (plain_row header line) with Some c => c | None => TRef "" end)) lines).
    { intros k q u I J. unfold ss. rewrite nums_flat, flat_map_concat_map, map_map, <- flat_map_concat_map. apply flat_one. intros line Il.
      destruct (FF line k Il J) as (w & F & K). unfold tval_or in K. cbn [fst snd] in K.
      rewrite (proj2 (get_in _ (plain_row header line) k _ ltac:(rewrite row_fst by (apply L, Il); exact N)) K). unfold g.
      apply (nums_one key "time" hstamp gnumber keymap_inj (plain_row header line) q k); [rewrite row_fst by (apply L, Il); exact N|exact K| |].
      - apply keymap_in. right. eauto.
      - apply (table_q _ _ _ I). }
    assert (GV : forall k q u line, In (k, q, u) table -> In k header -> In line lines -> forall w, field header k line w ->
      gnumber (match get String.eqb k (plain_row header line) with Some c => c | None => TRef "" end) = nan_or to_num w).
    { intros k q u line I J Il w F. assert (K : In (tval_or (k, w)) (plain_row header line)) by (unfold plain_row; apply in_map, combine_field, F).
      unfold tval_or in K. cbn [fst snd] in K.
      rewrite (proj2 (get_in _ (plain_row header line) k _ ltac:(rewrite row_fst by (apply L, Il); exact N)) K).
      destruct (table_q _ _ _ I) as (Q1 & Q2 & Q3).
      rewrite (proj2 (toa5_value_iff to_stamp to_int k w (StationModel.VText w)) (tm_text to_stamp to_int k w Q2 Q3)). reflexivity. }
    intros q col. rewrite in_map_iff. split.
    + intros (f & H & I). injection H as -> <-. apply filter_In in I. destruct I as [I D]. apply names_in in I. destruct I as (k & Ik & Gk).
      apply keymap_in in Gk. destruct Gk as [[-> ->]|(u & Gk)]; [discriminate|]. exists k, u. split; [exact Gk|]. split; [exact Ik|].
      rewrite (NV k q u Gk Ik). apply forall2_map. intros line Il. destruct (FF line k Il Ik) as (w & F & _). exists w. split; [exact F|].
      apply number_or_nan_iff. eapply GV; eassumption.
    + intros (k & u & Gk & Ik & F). exists q. split.
      * f_equal. rewrite (NV k q u Gk Ik). symmetry. eapply forall2_is_map; [|exact F]. intros line x Il (w & Fw & X). apply number_or_nan_iff in X.
        subst x. symmetry. eapply GV; eassumption.
      * apply filter_In. split; [apply names_in; exists k; split; [exact Ik|apply keymap_in; right; eauto]|].
        destruct (String.eqb_spec q "time") as [->|]; [exfalso; apply (proj1 (table_q _ _ _ Gk)); reflexivity|reflexivity].
Qed.
End Toa5.

(** The tables of the three stations. *)
Ltac distinct := repeat (constructor; [cbn; intros X; repeat destruct X as [X|X]; discriminate || exact X|]); constructor.
Lemma granada_table_ok : NoDup ("TIMESTAMP" :: "RECORD" :: map (fun kqu => fst (fst kqu)) granada_table) /\
  NoDup ("time" :: map (fun kqu => snd (fst kqu)) granada_table).
Proof. split; cbn; distinct. Qed.
Lemma juelich_table_ok : NoDup ("TIMESTAMP" :: "RECORD" :: map (fun kqu => fst (fst kqu)) juelich_table) /\
  NoDup ("time" :: map (fun kqu => snd (fst kqu)) juelich_table).
Proof. split; cbn; distinct. Qed.
Lemma falkenberg_table_ok : NoDup ("TIMESTAMP" :: "RECORD" :: map (fun kqu => fst (fst kqu)) falkenberg_table) /\
  NoDup ("time" :: map (fun kqu => snd (fst kqu)) falkenberg_table).
Proof. split; cbn; distinct. Qed.

(** ** Index arrays *)
Lemma picks_unique : forall A (l : list A) ind a b, picks l ind a -> picks l ind b -> a = b.
Proof.
  intros A l ind a b X. revert b. induction X as [|i x ind a H X IH]; intros b Y; inversion Y as [|? y ? b' H' Y']; subst; [reflexivity|].
  f_equal; [congruence|auto].
Qed.
Lemma take_picks : forall A (l : list A) ind, (forall i, In i ind -> i < length l) -> picks l ind (take l ind).
Proof.
  intros A l ind. induction ind as [|i ind IH]; intros H; [constructor|]. unfold take. cbn [flat_map].
  destruct (nth_error l i) as [x|] eqn:E; [|apply nth_error_None in E; specialize (H i (or_introl eq_refl)); lia].
  cbn [app]. constructor; [exact E|]. apply IH. intros j J. apply H. right. exact J.
Qed.
Lemma take_map : forall A B (f : A -> B) l ind, take (map f l) ind = map f (take l ind).
Proof.
  intros A B f l ind. unfold take. induction ind as [|i ind IH]; [reflexivity|]. cbn [flat_map]. rewrite map_app, IH, nth_error_map.
  destruct (nth_error l i); reflexivity.
Qed.
Lemma first_occurrence_lt : forall l i, first_occurrence l i -> i < length l.
Proof. intros l i (x & H & _). apply nth_error_Some. congruence. Qed.
Lemma sorted_take : forall l ind out, StronglySorted (times_lt l) ind -> picks l ind out -> strictly_increasing out.
Proof.
  intros l ind out S P. induction P as [|i x ind out H P IH]; [constructor|]. inversion S as [|? ? S' F]; subst. constructor; [apply IH, S'|].
  apply Forall_forall. intros y Hy. apply In_nth_error in Hy. destruct Hy as (j & Hy). apply forall2_nth in P. destruct P as [L P].
  destruct (nth_error ind j) as [i'|] eqn:E; [|apply nth_error_None in E; assert (j < length out) by (apply nth_error_Some; congruence); lia].
  specialize (P j i' y E Hy). rewrite Forall_forall in F. specialize (F i' (nth_error_In _ _ E)). unfold times_lt in F. eapply F; eassumption.
Qed.

(** ** L'Aquila *)
Section Laquila.
Context (to_num : string -> option (masked Q)) (to_stamp : string -> option stamp).
Lemma stripped_iff : forall s t, strip s = t <-> stripped s t.
Proof. intros s t. split; [intros <-; apply strip_stripped|apply stripped_unique]. Qed.
Lemma parse_value_iff : forall s x, parse_value to_num s = Some x <-> plain_value to_num s x.
Proof.
  intros s x. unfold parse_value. destruct (String.eqb_spec (strip s) "") as [E|E].
  - apply stripped_iff in E. split.
    + intros H; injection H as <-. apply PlainEmpty. exact E.
    + intros H. inversion H as [? S|? t ? S D T]; subst; [reflexivity|]. apply stripped_iff in S, E. congruence.
  - split.
    + intros H. eapply PlainNumber; [apply stripped_iff; reflexivity|exact E|exact H].
    + intros H. inversion H as [? S|? t ? S D T]; subst; apply stripped_iff in S; [congruence|]. rewrite S. exact T.
Qed.
Lemma parse_values_iff : forall ws xs, parse_values to_num ws = Some xs <-> Forall2 (plain_value to_num) ws xs.
Proof.
  induction ws as [|w ws IH]; intros xs; cbn [parse_values].
  - split; [intros H; injection H as <-; constructor|intros H; inversion H; reflexivity].
  - split.
    + destruct (parse_value to_num w) as [x|] eqn:E; [|discriminate]. destruct (parse_values to_num ws) as [ys|] eqn:F; [|discriminate].
      intros H; injection H as <-. constructor; [apply parse_value_iff; exact E|apply IH; reflexivity].
    + intros H. inversion H as [|? x ? ys E F]; subst. apply parse_value_iff in E. rewrite E. apply IH in F. rewrite F. reflexivity.
Qed.
Lemma parse_values_none : forall ws, parse_values to_num ws = None <-> exists w, In w ws /\ forall x, ~ plain_value to_num w x.
Proof.
  induction ws as [|w ws IH]; cbn [parse_values].
  - split; [discriminate|intros (w & [] & _)].
  - destruct (parse_value to_num w) as [x|] eqn:E.
    + destruct (parse_values to_num ws) as [ys|].
      * split; [discriminate|]. intros (v & [<-|I] & H); [exfalso; apply (H x), parse_value_iff, E|].
        assert (X : Some ys = None) by (apply IH; eauto). discriminate.
      * split; [|reflexivity]. intros _. destruct (proj1 IH eq_refl) as (v & I & H). exists v. split; [right; exact I|exact H].
    + split; [|reflexivity]. intros _. exists w. split; [left; reflexivity|]. intros x H. apply parse_value_iff in H. congruence.
Qed.
Definition comma_fun (line : string) : option (result (stamp * list (masked Q))) :=
  if prefix "#" line then None
  else match split_on "," line with
       | c :: cs => if length cs =? 6
                    then Some (match to_stamp c, parse_values to_num cs with Some t, Some xs => Ok (t, xs) | _, _ => Raise ValueError end)
                    else None
       | [] => None
       end.
Lemma comma_line_iff : forall line c cs, comma_line line c cs <-> prefix "#" line = false /\ split_on "," line = c :: cs /\ length cs = 6.
Proof.
  intros line c cs. unfold comma_line. rewrite <- split_on_iff.
  assert (X : prefix "#" line = true <-> starts_with "#" line).
  { rewrite prefix_iff. unfold starts_with. split; intros (r & E); exists r; exact E. }
  destruct (prefix "#" line); split; intros (A & B & C); (split; [|auto]); try discriminate.
  - exfalso. apply A, X. reflexivity.
  - reflexivity.
  - intros H. apply X in H. discriminate.
Qed.
Lemma comma_ok_iff : forall line r, comma_fun line = Some (Ok r) <-> comma_row to_num to_stamp line r.
Proof.
  intros line [t xs]. unfold comma_row. split.
  - unfold comma_fun. intros H. destruct (prefix "#" line) eqn:P; [discriminate|]. destruct (split_on "," line) as [|c cs] eqn:S; [discriminate|].
    destruct (length cs =? 6) eqn:L; [|discriminate]. apply Nat.eqb_eq in L. exists c, cs. split; [apply comma_line_iff; auto|].
    destruct (to_stamp c) as [t'|]; [|discriminate]. destruct (parse_values to_num cs) as [ys|] eqn:V; [|discriminate]. injection H as -> ->.
    split; [reflexivity|]. apply parse_values_iff. exact V.
  - intros (c & cs & C & T & F). cbn [fst snd] in *. apply comma_line_iff in C. destruct C as (P & S & L). unfold comma_fun. rewrite P, S, L. cbn [Nat.eqb].
    rewrite T. apply parse_values_iff in F. rewrite F. reflexivity.
Qed.
Lemma comma_bad_iff : forall line, (exists e, comma_fun line = Some (Raise e)) <-> bad_comma to_num to_stamp line.
Proof.
  intros line. unfold bad_comma. split.
  - unfold comma_fun. intros (e & H). destruct (prefix "#" line) eqn:P; [discriminate|]. destruct (split_on "," line) as [|c cs] eqn:S; [discriminate|].
    destruct (length cs =? 6) eqn:L; [|discriminate]. apply Nat.eqb_eq in L. exists c, cs. split; [apply comma_line_iff; auto|].
    destruct (to_stamp c) as [t'|]; [|left; reflexivity]. right. apply parse_values_none. destruct (parse_values to_num cs); [discriminate|reflexivity].
  - intros (c & cs & C & B). apply comma_line_iff in C. destruct C as (P & S & L). exists ValueError. unfold comma_fun. rewrite P, S, L. cbn [Nat.eqb].
    destruct B as [B|B]; [rewrite B; reflexivity|]. apply parse_values_none in B. rewrite B. destruct (to_stamp c); reflexivity.
Qed.
Definition comma_row_fun (line : string) := match comma_fun line with Some (Ok r) => Some r | _ => None end.
Definition comma_bad (line : string) := match comma_fun line with Some (Raise _) => true | _ => false end.
Lemma laquila_rows_eq : forall lines rows, laquila_rows to_num to_stamp lines rows =
  if existsb comma_bad lines then Raise ValueError else Ok (rows ++ flat_map (fun l => opt_list (comma_row_fun l)) lines).
Proof.
  induction lines as [|l lines IH]; intros rows; cbn [laquila_rows existsb flat_map]; [rewrite app_nil_r; reflexivity|].
  unfold comma_bad at 1, comma_row_fun at 1, comma_fun. destruct (prefix "#" l); [apply IH|]. destruct (split_on "," l) as [|c cs]; [apply IH|].
  cbn [length Nat.eqb]. destruct (length cs =? 6); cbn [negb]; [|apply IH]. destruct (to_stamp c) as [t|]; [|reflexivity].
  destruct (parse_values to_num cs) as [xs|]; [|reflexivity]. rewrite IH. cbn [orb opt_list app]. rewrite <- app_assoc. reflexivity.
Qed.
Hypothesis proper_stamps : forall w t, to_stamp w = Some t -> proper t.
Lemma instant_lt : forall a b, proper a -> proper b -> ((instant a < instant b)%Q <-> earlier a b).
Proof.
  intros [d u] [d' u'] A B. unfold instant, earlier, proper in *. cbn [fst snd] in *. rewrite <- Zlt_Qlt. nia.
Qed.
Lemma instant_eq : forall a b, proper a -> proper b -> ((instant a == instant b)%Q <-> a = b).
Proof.
  intros [d u] [d' u'] A B. unfold instant, proper in *. cbn [fst snd] in *. rewrite inject_Z_injective. split; [|congruence].
  intros H. assert (d = d') by nia. subst. f_equal. lia.
Qed.
Definition picked_columns (ind : list nat) (cols out : list (string * list (masked Q))) : Prop :=
  Forall2 (fun a b => fst a = fst b /\ picks (snd a) ind (snd b)) cols out.
Lemma laquila_columns_ok : forall rows, (forall r, In r rows -> length (snd r) = 6) -> columns_follow laquila_table rows (pal_columns 0 laquila_keys rows).
Proof.
  intros rows L q col. rewrite pal_columns_in. split.
  - intros (i & A & H & C). exists i, "". split; [|split].
    + do 6 (destruct i as [|i]; [cbn in *; congruence|]). cbn in A. destruct i; discriminate.
    + intros ->. do 6 (destruct i as [|i]; [discriminate|]). destruct i; discriminate.
    + cbn [Nat.add] in C. eapply nth_column; [|exact L|exact C]. change 6 with (length laquila_keys). apply nth_error_Some. congruence.
  - intros (i & title & A & D & F). assert (Li : i < 6).
    { assert (S i < length laquila_table) by (apply nth_error_Some; congruence). cbn in H. lia. }
    exists i. split; [|split].
    + do 6 (destruct i as [|i]; [cbn in *; congruence|]). lia.
    + do 6 (destruct i as [|i]; [cbn in A; injection A as _ <-; reflexivity|]). lia.
    + cbn [Nat.add]. eapply nth_column; [exact Li|exact L|exact F].
Qed.
Lemma laquila_spec : forall files,
  ((exists l, In l (List.concat files) /\ bad_comma to_num to_stamp l) -> laquila to_num to_stamp files = Raise ValueError) /\
  ((forall l, In l (List.concat files) -> ~ bad_comma to_num to_stamp l) ->
   exists s rows ind cols, laquila to_num to_stamp files = Ok s /\ collects (comma_row to_num to_stamp) (List.concat files) rows /\
     (forall i, In i ind <-> first_stamp (map fst rows) i) /\ picks (map fst rows) ind (s_time s) /\ StronglySorted earlier (s_time s) /\
     columns_follow laquila_table rows cols /\ picked_columns ind cols (s_cols s)).
Proof.
  intros files. set (lines := List.concat files). unfold laquila. fold lines. rewrite laquila_rows_eq. cbn [app].
  assert (B : existsb comma_bad lines = true <-> exists l, In l lines /\ bad_comma to_num to_stamp l).
  { rewrite existsb_exists. split; intros (l & I & H); exists l; (split; [exact I|]).
    - apply comma_bad_iff. unfold comma_bad in H. destruct (comma_fun l) as [[r|e]|]; try discriminate. eauto.
    - apply comma_bad_iff in H. destruct H as (e & H). unfold comma_bad. rewrite H. reflexivity. }
  split; [intros H; apply B in H; rewrite H; reflexivity|]. intros H.
  assert (X : existsb comma_bad lines = false).
  { destruct (existsb comma_bad lines); [|reflexivity]. destruct (proj1 B eq_refl) as (l & I & Bl). exfalso. eapply H; eassumption. }
  rewrite X. cbn [bind]. set (rows := flat_map (fun l => opt_list (comma_row_fun l)) lines).
  set (ind := unique_index (map (fun r => instant (fst r)) rows)).
  assert (C : collects (comma_row to_num to_stamp) lines rows).
  { apply collects_flat_map. intros a b _. rewrite <- comma_ok_iff. unfold comma_row_fun. destruct (comma_fun a) as [[r|e]|]; split; congruence. }
  assert (RI : forall r, In r rows -> proper (fst r) /\ length (snd r) = 6).
  { intros r I. destruct (collects_in _ _ _ _ _ C r I) as (l & _ & c & cs & (_ & _ & L) & T & F). split; [eapply proper_stamps; exact T|].
    apply forall2_nth in F. destruct F as [F _]. lia. }
  destruct (unique_spec (map (fun r => instant (fst r)) rows)) as [U1 U2]. fold ind in U1, U2.
  assert (LI : forall i, In i ind -> i < length rows).
  { intros i I. apply U1 in I. apply first_occurrence_lt in I. rewrite map_length in I. exact I. }
  exists {| s_time := take (map fst rows) ind; s_cols := map (fun kc => (fst kc, take (snd kc) ind)) (pal_columns 0 laquila_keys rows) |}, rows, ind, (pal_columns 0 laquila_keys rows).
  split; [reflexivity|]. split; [exact C|]. cbn [s_time s_cols]. assert (PK : picks (map fst rows) ind (take (map fst rows) ind)).
  { apply take_picks. intros i I. rewrite map_length. apply LI, I. }
  split; [|split; [exact PK|split; [|split; [apply laquila_columns_ok; intros r I; apply (RI r I)|]]]].
  - intros i. rewrite U1. unfold first_occurrence, first_stamp. split.
    + intros (x & E & F). rewrite nth_error_map in E. destruct (nth_error rows i) as [r|] eqn:Er; [|discriminate]. cbn in E. injection E as <-.
      exists (fst r). split; [rewrite nth_error_map, Er; reflexivity|]. intros j J Hj. rewrite nth_error_map in Hj.
      destruct (nth_error rows j) as [r'|] eqn:Ej; [|discriminate]. cbn in Hj. injection Hj as Hj.
      apply (F j (instant (fst r')) J); [rewrite nth_error_map, Ej; reflexivity|]. rewrite Hj. reflexivity.
    + intros (t & E & F). rewrite nth_error_map in E. destruct (nth_error rows i) as [r|] eqn:Er; [|discriminate]. cbn in E. injection E as <-.
      exists (instant (fst r)). split; [rewrite nth_error_map, Er; reflexivity|]. intros j y J Hj Hy. rewrite nth_error_map in Hj.
      destruct (nth_error rows j) as [r'|] eqn:Ej; [|discriminate]. cbn in Hj. injection Hj as <-.
      apply (F j J). rewrite nth_error_map, Ej. cbn. f_equal. symmetry.
      apply instant_eq; [apply (RI r (nth_error_In _ _ Er))|apply (RI r' (nth_error_In _ _ Ej))|exact Hy].
  - assert (Z : strictly_increasing (take (map (fun r => instant (fst r)) rows) ind)).
    { eapply sorted_take; [exact U2|]. apply take_picks. intros i I. rewrite map_length. apply LI, I. }
    rewrite <- (map_map fst instant) in Z. rewrite take_map in Z.
    assert (PP : forall t, In t (take (map fst rows) ind) -> proper t).
    { intros t I. unfold take in I. apply in_flat_map in I. destruct I as (i & _ & I). rewrite nth_error_map in I.
      destruct (nth_error rows i) as [r|] eqn:Er; cbn in I; [|destruct I]. destruct I as [<-|[]]. apply (RI r (nth_error_In _ _ Er)). }
    clear -Z PP. induction (take (map fst rows) ind) as [|t l IH]; [constructor|]. cbn in Z. inversion Z as [|? ? Z' F]; subst. constructor.
    + apply IH; [exact Z'|]. intros; apply PP; right; assumption.
    + apply Forall_forall. intros x I. rewrite Forall_forall in F. apply instant_lt; [apply PP; left; reflexivity|apply PP; right; exact I|].
      apply F. apply in_map. exact I.
  - unfold picked_columns. apply forall2_map. intros [k c] I. cbn [fst snd]. split; [reflexivity|]. apply take_picks.
    intros i J. apply pal_columns_in in I. destruct I as (n & _ & _ & ->). rewrite map_length. apply LI, J.
Qed.
End Laquila.

(** ** Cluj-Napoca *)
Section Cluj.
Context (to_num : string -> option (masked Q)) (to_stamp : string -> option stamp).
Lemma tab_fields_iff : forall line ws, tab_fields line ws <-> split_on tab (strip line) = ws.
Proof.
  intros line ws. unfold tab_fields. change (Ascii true false false true false false false false) with tab. split.
  - intros (t & S & P). apply stripped_iff in S. rewrite S. apply split_on_iff. exact P.
  - intros H. exists (strip line). split; [apply strip_stripped|]. apply split_on_iff. exact H.
Qed.
Notation tcol := (@col string string String.eqb).
Lemma cluj_row_eq : forall headers columns d, cluj_row headers columns d =
  if length columns =? length headers then Ok (fold_left (fun d kv => push String.eqb (fst kv) (snd kv) d) (combine headers columns) d) else Raise ValueError.
Proof.
  induction headers as [|h hs IH]; intros [|c cs] d; try reflexivity. cbn [cluj_row length Nat.eqb combine fold_left fst snd]. apply IH.
Qed.
Lemma push_all_col : forall hs cs d k, NoDup hs -> length cs = length hs ->
  tcol (fold_left (fun d kv => push String.eqb (fst kv) (snd kv) d) (combine hs cs) d) k =
  (tcol d k ++ match get String.eqb k (combine hs cs) with Some w => [w] | None => [] end)%list.
Proof.
  induction hs as [|h hs IH]; intros [|c cs] d k N L; try discriminate; cbn [combine fold_left fst snd get]; [rewrite app_nil_r; reflexivity|].
  inversion N as [|? ? NI N']; subst. rewrite IH; [|exact N'|cbn in L; lia]. rewrite (col_push _ string_spec).
  destruct (String.eqb_spec h k) as [->|D].
  - rewrite String.eqb_refl. assert (G : get String.eqb k (combine hs cs) = None).
    { destruct (get String.eqb k (combine hs cs)) as [w|] eqn:G; [|reflexivity]. exfalso. apply NI.
      apply get_in in G; [apply in_combine_l in G; exact G|]. rewrite combine_fst; [exact N'|cbn in L; lia]. }
    rewrite G, app_nil_r. reflexivity.
  - destruct (String.eqb_spec k h); [congruence|]. reflexivity.
Qed.
Lemma push_all_keys : forall hs cs (d : list (string * list string)), (forall h, In h hs -> In h (map fst d)) ->
  map fst (fold_left (fun d kv => push String.eqb (fst kv) (snd kv) d) (combine hs cs) d) = map fst d.
Proof.
  induction hs as [|h hs IH]; intros [|c cs] d H; try reflexivity. cbn [combine fold_left fst snd].
  assert (E : map fst (push String.eqb h c d) = map fst d).
  { assert (I := H h (or_introl eq_refl)). clear -I. induction d as [|[k v] d IH]; [destruct I|]. cbn. destruct (String.eqb_spec h k) as [->|D]; [reflexivity|].
    cbn. f_equal. apply IH. destruct I as [I|I]; [cbn in I; congruence|exact I]. }
  rewrite IH; [exact E|]. intros x I. rewrite E. apply H. right. exact I.
Qed.
Definition cell_at (hs : list string) (k line : string) : list string :=
  match get String.eqb k (combine hs (split_on tab (strip line))) with Some w => [w] | None => [] end.
Lemma cluj_rows_eq : forall hs lines d, NoDup hs -> (forall h, In h hs -> In h (map fst d)) ->
  (forall l, In l lines -> length (split_on tab (strip l)) = length hs) ->
  exists d', cluj_rows hs lines d = Ok d' /\ map fst d' = map fst d /\ forall k, tcol d' k = (tcol d k ++ flat_map (cell_at hs k) lines)%list.
Proof.
  intros hs lines. induction lines as [|l lines IH]; intros d N H L; cbn [cluj_rows].
  - exists d. split; [reflexivity|]. split; [reflexivity|]. intros k. cbn. rewrite app_nil_r. reflexivity.
  - rewrite cluj_row_eq. rewrite (L l (or_introl eq_refl)), Nat.eqb_refl. cbn [bind].
    set (d1 := fold_left _ _ d). assert (K : map fst d1 = map fst d) by (apply push_all_keys; exact H).
    destruct (IH d1 N) as (d' & E1 & E2 & E3); [rewrite K; exact H|intros; apply L; right; assumption|].
    exists d'. split; [exact E1|]. split; [rewrite E2; exact K|]. intros k. rewrite E3. unfold d1. rewrite push_all_col; [|exact N|apply L; left; reflexivity].
    cbn [flat_map]. rewrite <- app_assoc. reflexivity.
Qed.
Lemma cluj_rows_bad : forall hs lines d l, In l lines -> length (split_on tab (strip l)) <> length hs -> cluj_rows hs lines d = Raise ValueError.
Proof.
  intros hs lines. induction lines as [|l lines IH]; intros d l' I D; [destruct I|]. cbn [cluj_rows]. rewrite cluj_row_eq.
  destruct (Nat.eqb_spec (length (split_on tab (strip l))) (length hs)) as [E|E]; [|reflexivity]. cbn [bind].
  destruct I as [->|I]; [contradiction|]. eapply IH; eassumption.
Qed.
Lemma stamps_iff : forall ws ts, stamps to_stamp ws = Some ts <-> Forall2 (fun w t => to_stamp w = Some t) ws ts.
Proof.
  induction ws as [|w ws IH]; intros xs; cbn [stamps].
  - split; [intros H; injection H as <-; constructor|intros H; inversion H; reflexivity].
  - split.
    + destruct (to_stamp w) as [x|] eqn:E; [|discriminate]. destruct (stamps to_stamp ws) as [ys|] eqn:F; [|discriminate].
      intros H; injection H as <-. constructor; [exact E|apply IH; reflexivity].
    + intros H. inversion H as [|? x ? ys E F]; subst. rewrite E. apply IH in F. rewrite F. reflexivity.
Qed.
Lemma cluj_columns_iff : forall keys d t, cluj_columns to_num keys d = Ok t <->
  Forall2 (fun qh qc => fst qh = fst qc /\ exists ws, column_of String.eqb (snd qh) d = Some ws /\ Forall2 (plain_value to_num) ws (snd qc)) keys t.
Proof.
  induction keys as [|[q h] keys IH]; intros d t; cbn [cluj_columns].
  - split; [intros H; injection H as <-; constructor|intros H; inversion H; reflexivity].
  - split.
    + destruct (column_of String.eqb h d) as [ws|] eqn:C; [|discriminate]. destruct (parse_values to_num ws) as [xs|] eqn:V; [|discriminate].
      destruct (cluj_columns to_num keys d) as [t'|] eqn:K; cbn [bind]; [|discriminate]. intros H; injection H as <-. constructor; [|apply IH; exact K].
      cbn [fst snd]. split; [reflexivity|]. exists ws. split; [exact C|apply parse_values_iff; exact V].
    + intros H. inversion H as [|? [q' c] ? t' (A & ws & C & V) F]; subst. cbn [fst snd] in *. subst q'. rewrite C. apply parse_values_iff in V. rewrite V.
      apply IH in F. rewrite F. reflexivity.
Qed.
(** The text under a title. *)
Definition tab_field (headers : list string) (k line w : string) : Prop := exists ws, tab_fields line ws /\ field headers k ws w.
Lemma forall2_trans_iff : forall A B C (R : A -> B -> Prop) (f : B -> C -> Prop) l m n, Forall2 R l m -> Forall2 f m n ->
  Forall2 (fun a c => exists b, R a b /\ f b c) l n.
Proof.
  intros A B C R f l m n X. revert n. induction X as [|a b l m H X IH]; intros n Y; inversion Y as [|? c ? n' H' Y']; subst; constructor; eauto.
Qed.
Lemma column_some : forall A (d : list (string * list A)) k, In k (map fst d) <-> exists c, column_of String.eqb k d = Some c.
Proof.
  intros A d k. induction d as [|[k' v] d IH]; [split; [intros []|intros (c & H); discriminate]|]. cbn [map fst In]. rewrite IH. clear IH. cbn.
  destruct (String.eqb_spec k k') as [E|D].
  - split; [eauto|]. intros _. left. congruence.
  - split; [intros [E|H]; [congruence|exact H]|auto].
Qed.
Lemma cluj_iff : forall first rest headers s, tab_fields first headers -> NoDup headers ->
  (cluj to_num to_stamp (first :: rest) = Ok s <->
   (forall l ws, In l rest -> tab_fields l ws -> length ws = length headers) /\ In "DateTime" headers /\
   Forall2 (fun l t => exists w, tab_field headers "DateTime" l w /\ to_stamp w = Some t) rest (s_time s) /\
   Forall2 (fun qh qc => fst qh = fst qc /\ In (snd qh) headers /\
     Forall2 (fun l x => exists w, tab_field headers (snd qh) l w /\ plain_value to_num w x) rest (snd qc)) cluj_table (s_cols s)).
Proof.
  intros first rest headers s TF N. unfold cluj. apply tab_fields_iff in TF. rewrite TF.
  set (d0' := fold_left (fun d h => put String.eqb h [] d) headers []).
  assert (D0 : d0' = map (fun h => (h, @nil string)) headers).
  { unfold d0'. assert (E : forall l d, fold_left (fun d (c : string) => put String.eqb c (@nil string) d) l d =
      fold_left (fun d kv => put String.eqb (fst kv) (snd kv) d) (map (fun f => (f, [])) l) d).
    { induction l as [|x l IH]; intros d; [reflexivity|]. cbn. apply IH. }
    rewrite E, put_fresh; [reflexivity|]. cbn. rewrite map_map. cbn. rewrite map_id. exact N. }
  assert (K0 : map fst d0' = headers) by (rewrite D0, map_map; cbn; apply map_id).
  assert (main : (forall l, In l rest -> length (split_on tab (strip l)) = length headers) ->
    exists d', cluj_rows headers rest d0' = Ok d' /\ forall k ws, column_of String.eqb k d' = Some ws <-> In k headers /\ Forall2 (tab_field headers k) rest ws).
  { intros L. destruct (cluj_rows_eq headers rest d0' N) as (d' & E1 & E2 & E3); [intros h I; rewrite K0; exact I|exact L|].
    exists d'. split; [exact E1|].
    assert (CC : forall k, In k headers -> column_of String.eqb k d' = Some (flat_map (cell_at headers k) rest)).
    { intros k I. specialize (E3 k). assert (Z : tcol d0' k = []).
      { rewrite D0. unfold col. rewrite column_map. destruct (mem_str k headers); reflexivity. }
      rewrite Z in E3. cbn [app] in E3. unfold col in E3. destruct (column_of String.eqb k d') as [c|] eqn:C; [f_equal; exact E3|].
      exfalso. rewrite K0 in E2. rewrite <- E2 in I. apply (column_some _ d' k) in I. destruct I as (c & I). congruence. }
    assert (FF : forall k, In k headers -> Forall2 (tab_field headers k) rest (flat_map (cell_at headers k) rest)).
    { intros k I. clear -I L N. induction rest as [|l rest' IH]; [constructor|]. cbn [flat_map].
      destruct (full_field headers (split_on tab (strip l)) k N I) as (w & F); [rewrite (L l (or_introl eq_refl)); lia|].
      assert (G : cell_at headers k l = [w]).
      { unfold cell_at. rewrite (proj2 (get_in _ (combine headers (split_on tab (strip l))) k w ltac:(rewrite combine_fst; [exact N|rewrite (L l (or_introl eq_refl)); lia]))); [reflexivity|].
        apply combine_field. exact F. }
      rewrite G. cbn [app]. constructor; [|apply IH; intros; apply L; right; assumption]. exists (split_on tab (strip l)). split; [apply tab_fields_iff; reflexivity|exact F]. }
    intros k ws. split.
    - intros C. assert (I : In k headers).
      { rewrite K0 in E2. rewrite <- E2. apply column_some. eauto. }
      split; [exact I|]. rewrite (CC k I) in C. injection C as <-. apply FF, I.
    - intros (I & F). rewrite (CC k I). f_equal. specialize (FF k I). revert FF. generalize (flat_map (cell_at headers k) rest). intros l0 FF. clear -F FF N. revert ws F.
      induction FF as [|l w rest l0 H FF IH]; intros ws F; inversion F as [|? w' ? ws' H' F']; subst; [reflexivity|]. f_equal; [|auto].
      destruct H as (a & Ta & Fa), H' as (b & Tb & Fb). apply tab_fields_iff in Ta, Tb. rewrite <- Ta in Fa. rewrite <- Tb in Fb. eapply field_unique; eassumption. }
  assert (LL : forall l, (forall ws, tab_fields l ws -> length ws = length headers) <-> length (split_on tab (strip l)) = length headers).
  { intros l. split; [intros H; apply H, tab_fields_iff; reflexivity|]. intros H ws T. apply tab_fields_iff in T. congruence. }
  split.
  - intros H.
    assert (L : forall l, In l rest -> length (split_on tab (strip l)) = length headers).
    { intros l I. destruct (Nat.eq_dec (length (split_on tab (strip l))) (length headers)) as [|D]; [assumption|].
      rewrite (cluj_rows_bad headers rest d0' l I D) in H. discriminate. }
    destruct (main L) as (d' & E & M). rewrite E in H. cbn [bind] in H.
    destruct (column_of String.eqb "DateTime" d') as [ws|] eqn:C; [|discriminate]. apply M in C. destruct C as [C1 C2].
    destruct (stamps to_stamp ws) as [ts|] eqn:St; [|discriminate]. apply stamps_iff in St.
    destruct (cluj_columns to_num cluj_keys d') as [cs|] eqn:CK; cbn [bind] in H; [|discriminate]. injection H as <-. cbn [s_time s_cols].
    split; [intros l ws' I; apply LL, L, I|]. split; [exact C1|]. split; [eapply forall2_trans_iff; eassumption|].
    apply cluj_columns_iff in CK. clear -CK M. change cluj_keys with cluj_table in CK. induction CK as [|[q h] [q' c] ks cs (A & ws & B & V) F IH]; constructor; [|exact IH].
    cbn [fst snd] in *. split; [exact A|]. apply M in B. destruct B as [B1 B2]. split; [exact B1|]. eapply forall2_trans_iff; eassumption.
  - intros (L & T & Ft & Fc).
    destruct main as (d' & E & M); [intros l I; apply LL; intros ws; apply L, I|]. rewrite E. cbn [bind].
    assert (split2 : forall B C (R : string -> B -> Prop) (f : B -> C -> Prop) l n, Forall2 (fun a c => exists b, R a b /\ f b c) l n ->
      exists m, Forall2 R l m /\ Forall2 f m n).
    { intros B C R f l n X. induction X as [|a c l n (b & H1 & H2) X (m & IH1 & IH2)]; [exists []; split; constructor|]. exists (b :: m). split; constructor; assumption. }
    destruct (split2 _ _ _ _ _ _ Ft) as (ws & W1 & W2).
    rewrite (proj2 (M "DateTime" ws)) by auto. rewrite (proj2 (stamps_iff ws (s_time s)) W2).
    assert (CK : cluj_columns to_num cluj_keys d' = Ok (s_cols s)).
    { apply cluj_columns_iff. change cluj_keys with cluj_table. clear -Fc M split2. induction Fc as [|[q h] [q' c] ks cs (A & B & V) F IH]; constructor; [|exact IH].
      cbn [fst snd] in *. split; [exact A|]. destruct (split2 _ _ _ _ _ _ V) as (ws & W1 & W2). exists ws. split; [apply M; auto|exact W2]. }
    rewrite CK. cbn [bind]. destruct s. reflexivity.
Qed.
End Cluj.

(** ** Processing *)
Definition places (mask : list bool) : list nat := filter (fun i => nth i mask false) (seq 0 (length mask)).
Lemma places_cons : forall b mask, places (b :: mask) = (if b then [0] else []) ++ map S (places mask).
Proof.
  intros b mask. unfold places. cbn [length seq filter nth]. rewrite <- seq_shift.
  assert (E : forall l, filter (fun i => nth i (b :: mask) false) (map S l) = map S (filter (fun i => nth i mask false) l)).
  { induction l as [|i l IH]; [reflexivity|]. cbn [map filter]. change (nth (S i) (b :: mask) false) with (nth i mask false).
    destruct (nth i mask false); cbn [map]; rewrite IH; reflexivity. }
  rewrite E. destruct b; reflexivity.
Qed.
Lemma take_shift : forall A (x : A) l ind, take (x :: l) (map S ind) = take l ind.
Proof. intros A x l ind. unfold take. induction ind as [|i ind IH]; [reflexivity|]. cbn [map flat_map nth_error]. rewrite IH. reflexivity. Qed.
Lemma keep_take : forall A mask (l : list A), length l = length mask -> keep mask l = take l (places mask).
Proof.
  intros A. induction mask as [|b mask IH]; intros [|x l] L; try discriminate; [reflexivity|]. rewrite places_cons. cbn in L. unfold keep. cbn [combine filter fst].
  unfold take. rewrite flat_map_app. fold (take (x :: l) (map S (places mask))). rewrite take_shift, <- IH by lia. destruct b; reflexivity.
Qed.
Lemma places_sorted : forall mask, StronglySorted lt (places mask).
Proof.
  induction mask as [|b mask IH]; [constructor|]. rewrite places_cons.
  assert (X : StronglySorted lt (map S (places mask))).
  { induction IH as [|a l F IH' G]; cbn; constructor; [exact IH'|]. apply Forall_forall. intros y Y. apply in_map_iff in Y. destruct Y as (z & <- & Z).
    rewrite Forall_forall in G. specialize (G z Z). lia. }
  destruct b; [|exact X]. cbn [app]. constructor; [exact X|]. apply Forall_forall. intros y Y. apply in_map_iff in Y. destruct Y as (z & <- & _). lia.
Qed.
Lemma places_in : forall mask i, In i (places mask) <-> nth_error mask i = Some true.
Proof.
  intros mask i. unfold places. rewrite filter_In, in_seq. split.
  - intros [L E]. destruct (nth_error mask i) as [b|] eqn:N; [|apply nth_error_None in N; lia]. rewrite (nth_error_nth _ _ _ N) in E. congruence.
  - intros H. split; [|apply nth_error_nth; exact H]. assert (i < length mask) by (apply nth_error_Some; congruence). lia.
Qed.
Lemma take_nth : forall A (l : list A) ind k, (forall i, In i ind -> i < length l) ->
  nth_error (take l ind) k = match nth_error ind k with Some i => nth_error l i | None => None end.
Proof.
  intros A l ind. induction ind as [|i ind IH]; intros k H; [destruct k; reflexivity|]. unfold take. cbn [flat_map].
  destruct (nth_error l i) as [x|] eqn:E; [|apply nth_error_None in E; specialize (H i (or_introl eq_refl)); lia]. cbn [app].
  destruct k as [|k]; [cbn; congruence|]. cbn [nth_error]. apply IH. intros j J. apply H. right. exact J.
Qed.
Lemma take_take : forall A (l : list A) p ind, (forall i, In i p -> i < length l) -> take (take l p) ind = take l (take p ind).
Proof.
  intros A l p ind H. induction ind as [|i ind IH]; [reflexivity|].
  assert (E : forall B (m : list B) j js, take m (j :: js) = (match nth_error m j with Some x => [x] | None => [] end ++ take m js)%list) by reflexivity.
  rewrite !E, IH, take_nth by exact H. destruct (nth_error p i) as [j|]; [|reflexivity]. cbn [app]. rewrite E. reflexivity.
Qed.
Lemma keep_cols_ok : forall arrays mask cols, (forall k c, In (k, c) cols -> length c = length mask) ->
  keep_cols arrays mask cols = Ok (map (fun kc => (fst kc, take (snd kc) (places mask))) cols).
Proof.
  intros arrays mask. induction cols as [|[k c] cols IH]; intros H; [reflexivity|]. cbn [keep_cols].
  rewrite (H k c (or_introl eq_refl)), Nat.eqb_refl, orb_true_r. rewrite IH by (intros k' c' I; eapply H; right; exact I). cbn [bind map fst snd].
  rewrite keep_take by (apply (H k c (or_introl eq_refl))). reflexivity.
Qed.
Lemma hours_of_eq : forall t, (hours_of t == inject_Z (snd t / 1000000) / 3600)%Q.
Proof.
  intros t. unfold hours_of. set (s := (snd t / 1000000)%Z). assert (E : (s = (s / 3600) * 3600 + ((s / 60) mod 60) * 60 + s mod 60)%Z).
  { assert (A := Z.div_mod s 60 ltac:(lia)). assert (B := Z.div_mod (s / 60) 60 ltac:(lia)). assert (C : (s / 60 / 60 = s / 3600)%Z) by (rewrite Z.div_div by lia; reflexivity). lia. }
  rewrite E at 4. rewrite !inject_Z_plus, !inject_Z_mult. field.
Qed.
Lemma hours_whole : forall t, whole_second t -> hours t (hours_of t).
Proof.
  intros t (n & E). unfold hours. rewrite hours_of_eq, E, Z.div_mul by lia. rewrite inject_Z_mult. field.
Qed.
Lemma hours_same : forall a b, whole_second a -> whole_second b -> ((hours_of a == hours_of b)%Q <-> snd a = snd b).
Proof.
  intros a b A B. apply hours_whole in A, B. unfold hours in *. rewrite <- inject_Z_injective, <- A, <- B. split; intros H.
  - rewrite H. reflexivity.
  - apply (Qmult_inj_r _ _ 3600000000); [discriminate|exact H].
Qed.
(** *** The columns of the two sites that change them *)
Lemma truncate_cut : forall x y, truncate x = y <-> cut x y.
Proof.
  intros x y. unfold cut, truncate. split.
  - intros <-. destruct (Qle_bool 0 x) eqn:E.
    + apply Qle_bool_iff in E. exists (Qfloor x). split; [reflexivity|]. left. split; [exact E|]. split; [apply Qfloor_le|].
      assert (F := Qlt_floor x). rewrite inject_Z_plus in F. exact F.
    + exists (Qceiling x). split; [reflexivity|]. right. assert (N : (x < 0)%Q).
      { apply Qnot_le_lt. intros H. apply Qle_bool_iff in H. congruence. }
      split; [exact N|]. split; [apply Qle_ceiling|]. assert (F := Qceiling_lt x). unfold Z.sub in F. rewrite inject_Z_plus in F.
      change (inject_Z (- (1))) with (- (1))%Q in F. lra.
  - intros (z & -> & [(A & B & C)|(A & B & C)]).
    + rewrite (proj2 (Qle_bool_iff 0 x)) by exact A. f_equal. assert (F := Qfloor_le x). assert (G := Qlt_floor x). rewrite inject_Z_plus in G.
      change 1%Q with (inject_Z 1) in C. rewrite <- inject_Z_plus in *.
      assert (P : (inject_Z z < inject_Z (Qfloor x + 1))%Q) by lra. assert (R : (inject_Z (Qfloor x) < inject_Z (z + 1))%Q) by lra.
      rewrite <- Zlt_Qlt in P, R. lia.
    + destruct (Qle_bool 0 x) eqn:E; [apply Qle_bool_iff in E; lra|]. f_equal. assert (F := Qle_ceiling x). assert (G := Qceiling_lt x).
      assert (P : (inject_Z (Qceiling x - 1) < inject_Z z)%Q) by lra.
      change 1%Q with (inject_Z 1) in C.
      assert (R : (inject_Z z < inject_Z (Qceiling x + 1))%Q) by (rewrite inject_Z_plus; lra). rewrite <- Zlt_Qlt in P, R. lia.
Qed.
Lemma values_as_map : forall A B (R : A -> B -> Prop) f, (forall x y, f x = y <-> R x y) -> forall a b, values_as R a b <-> b = option_map f a.
Proof.
  intros A B R f H a b. split.
  - intros X. destruct X as [x y X|]; [|reflexivity]. apply H in X. cbn. congruence.
  - intros ->. destruct a as [x|]; cbn; constructor. apply H. reflexivity.
Qed.
Lemma galati_add_iff : forall day0 day cols out, galati_add day0 day cols = out <-> galati_columns day0 day cols out.
Proof.
  intros day0 day cols out. unfold galati_columns, galati_add.
  set (f := fun kc : string * list (masked Q) => negb ((day <? day0)%Z && (String.eqb (fst kc) "wind_speed" || String.eqb (fst kc) "wind_direction"))).
  assert (P : forall kc, (f kc = true <-> ~ ((day < day0)%Z /\ In (fst kc) ["wind_speed"; "wind_direction"]))).
  { intros kc. unfold f. rewrite negb_true_iff, <- not_true_iff_false, andb_true_iff, orb_true_iff, Z.ltb_lt, !String.eqb_eq. cbn [In].
    split; intros H X; apply H; destruct X as [X Y]; (split; [exact X|]); destruct Y as [Y|Y]; auto. destruct Y as [Y|[]]; auto. }
  assert (K : kept (fun kc => ~ ((day < day0)%Z /\ In (fst kc) ["wind_speed"; "wind_direction"])) cols (filter f cols)) by (apply kept_filter; exact P).
  assert (G : forall ks, Forall2 (fun a b : string * list (masked Q) => fst a = fst b /\
      (fst a = "visibility" -> Forall2 (values_as cut) (snd a) (snd b)) /\ (fst a <> "visibility" -> snd a = snd b)) ks out <->
      map (fun kc => if String.eqb (fst kc) "visibility" then (fst kc, map (option_map truncate) (snd kc)) else kc) ks = out).
  { intros ks. split.
    - intros F. symmetry. eapply forall2_is_map; [|exact F]. intros [k c] [k' c'] _ (E & V & N). cbn [fst snd] in *. subst k'.
      destruct (String.eqb_spec k "visibility") as [->|D]; [|rewrite (N D); reflexivity]. f_equal. specialize (V eq_refl).
      eapply forall2_is_map; [|exact V]. intros a b _ X. apply (values_as_map _ _ cut truncate truncate_cut). exact X.
    - intros <-. apply forall2_map. intros [k c] _. cbn [fst snd]. destruct (String.eqb_spec k "visibility") as [->|D]; cbn [fst snd].
      + split; [reflexivity|]. split; [intros _|intros X; congruence]. apply forall2_map. intros a _. apply (values_as_map _ _ cut truncate truncate_cut). reflexivity.
      + split; [reflexivity|]. split; [intros X; congruence|reflexivity]. }
  split.
  - intros E. exists (filter f cols). split; [exact K|]. apply G. exact E.
  - intros (ks & K' & F). assert (ks = filter f cols) by (eapply kept_unique; eassumption). subst ks. apply G. exact F.
Qed.
Lemma default_column_in : forall k d c, NoDup (map fst d) -> In (k, c) d -> default_column k d = c.
Proof.
  intros k d c N I. unfold default_column. assert (E : column_of String.eqb k d = Some c).
  { induction d as [|[k' v] d IH]; [destruct I|]. inversion N as [|? ? A B]; subst. cbn. destruct I as [I|I].
    - injection I as -> ->. rewrite String.eqb_refl. reflexivity.
    - destruct (String.eqb_spec k k') as [E|D]; [|apply IH; assumption]. exfalso. apply A. rewrite <- E. apply (in_map fst) in I. exact I. }
  rewrite E. reflexivity.
Qed.
Lemma limassol_add_eq : forall d out, NoDup (map fst d) -> limassol_columns d out -> limassol_add d = out.
Proof.
  intros d out N (table & T & F). unfold limassol_add.
  assert (HB : forall k, match column_of String.eqb k d with Some _ => true | None => false end = true <-> In k (map fst d)).
  { intros k. rewrite column_some. destruct (column_of String.eqb k d); split; eauto; [discriminate|]. intros (c & X). discriminate. }
  assert (two : forall t o, Forall2 (fun qt qc : string * _ => fst qt = fst qc /\ In (snd qt, snd qc) d) t o ->
    map (fun qt => (fst qt, default_column (snd qt) d)) t = o).
  { intros t o X. symmetry. eapply forall2_is_map; [|exact X]. intros [q k] [q' c] _ [E I]. cbn [fst snd] in *. subst q'. f_equal. symmetry. apply default_column_in; assumption. }
  destruct T as [(A & B & ->)|(A & ->)].
  - apply HB in A, B. rewrite A, B. cbn [andb]. apply two in F. rewrite <- F. reflexivity.
  - match goal with |- context [if ?b then _ else _] => destruct b eqn:E end.
    + exfalso. apply A. apply andb_true_iff in E. destruct E as [E1 E2]. apply HB in E1, E2. auto.
    + apply two in F. rewrite <- F. reflexivity.
Qed.
Definition map_cols (f : list (masked Q) -> list (masked Q)) (cols : list (string * list (masked Q))) : list (string * list (masked Q)) :=
  map (fun kc => (fst kc, f (snd kc))) cols.
Lemma galati_take : forall day0 day cols p, galati_add day0 day (map_cols (fun c => take c p) cols) = map_cols (fun c => take c p) (galati_add day0 day cols).
Proof.
  intros day0 day cols p. unfold galati_add, map_cols. induction cols as [|[k c] cols IH]; [reflexivity|]. cbn [map filter fst snd].
  match goal with |- context [if ?b then _ else _] => destruct b end; [|exact IH]. cbn [map fst snd]. rewrite IH. f_equal.
  destruct (String.eqb k "visibility"); cbn [fst snd]; [|reflexivity]. rewrite take_map. reflexivity.
Qed.
Lemma column_take : forall d p k, column_of String.eqb k (map_cols (fun c => take c p) d) = option_map (fun c => take c p) (column_of String.eqb k d).
Proof. intros d p k. induction d as [|[k' c] d IH]; [reflexivity|]. cbn. destruct (String.eqb k k'); [reflexivity|exact IH]. Qed.
Lemma take_nil : forall A p, @take A [] p = [].
Proof. intros A p. unfold take. induction p as [|i p IH]; [reflexivity|]. cbn [flat_map]. destruct i; exact IH. Qed.
Lemma default_take : forall d p k, default_column k (map_cols (fun c => take c p) d) = take (default_column k d) p.
Proof. intros d p k. unfold default_column. rewrite column_take. destruct (column_of String.eqb k d); [reflexivity|]. cbn. rewrite take_nil. reflexivity. Qed.
Lemma limassol_take : forall d p, limassol_add (map_cols (fun c => take c p) d) = map_cols (fun c => take c p) (limassol_add d).
Proof.
  intros d p. unfold limassol_add. rewrite !default_take, !column_take.
  destruct (column_of String.eqb "Wind speed at 10m (m/s)" d), (column_of String.eqb "Wind direction at 10m (degrees)" d); reflexivity.
Qed.
Definition add_cols (day0 : Z) (s : site) (day : Z) (cols : list (string * list (masked Q))) : list (string * list (masked Q)) :=
  match s with Galati => galati_add day0 day cols | Limassol => limassol_add cols | _ => cols end.
Lemma add_cols_take : forall day0 s day cols p, add_cols day0 s day (map_cols (fun c => take c p) cols) = map_cols (fun c => take c p) (add_cols day0 s day cols).
Proof. intros day0 s day cols p. destruct s; try reflexivity; [apply galati_take|apply limassol_take]. Qed.
Lemma add_cols_eq : forall day0 s day cols out, NoDup (map fst cols) -> site_columns day0 s day cols out -> add_cols day0 s day cols = out.
Proof.
  intros day0 s day cols out N H. destruct s; cbn in *; try (symmetry; exact H); [apply galati_add_iff; exact H|apply limassol_add_eq; assumption].
Qed.
Lemma required_iff : forall s q, In q (required s) <-> needed s q.
Proof.
  intros s q. unfold needed, required. destruct s; cbn [app In]; split; intros H;
    repeat match goal with
    | H : _ \/ _ |- _ => destruct H as [H|H]
    | H : _ /\ _ |- _ => destruct H as [? H]
    | H : False |- _ => destruct H
    | H : ?a = ?b |- _ => discriminate H
    end; subst; auto 10; try (right; left; split; [reflexivity|auto 10]); try (right; right; left; split; [reflexivity|auto 10]); try (right; right; right; split; [reflexivity|auto 10]).
Qed.
Lemma convert_si : forall s q x, converted s q x (convert s q x).
Proof.
  intros s q x. unfold converted, in_si, convert.
  destruct (String.eqb_spec q "air_temperature") as [->|D1]; [left; do 2 eexists; split; [left; reflexivity|ring]|].
  destruct (String.eqb_spec q "relative_humidity") as [->|D2]; [left; do 2 eexists; split; [right; left; reflexivity|field]|].
  destruct (String.eqb_spec q "air_pressure") as [->|D3]; [left; do 2 eexists; split; [right; right; left; reflexivity|unfold pressure_factor; destruct s; ring]|].
  destruct (String.eqb_spec q "rainfall_rate") as [->|D4]; [left; do 2 eexists; split; [do 3 right; left; reflexivity|unfold convert_rate; destruct s; field]|].
  destruct (String.eqb_spec q "rainfall_amount") as [->|D5]; [left; do 2 eexists; split; [do 4 right; left; reflexivity|unfold convert_amount; destruct s; field]|].
  destruct (String.eqb_spec q "wind_speed") as [->|D6]; [left; do 2 eexists; split; [do 5 right; left; reflexivity|ring]|].
  destruct (String.eqb_spec q "wind_direction") as [->|D7]; [left; do 2 eexists; split; [do 6 right; left; reflexivity|ring]|].
  destruct (String.eqb_spec q "visibility") as [->|D8]; [left; do 2 eexists; split; [do 7 right; left; reflexivity|ring]|].
  right. split; [|reflexivity]. cbn. intros H. repeat destruct H as [H|H]; congruence || exact H.
Qed.
Definition mask_of (d : Z) (times : list stamp) : list bool := map (fun t => Z.eqb (fst t) d) times.
Lemma mask_nth : forall d times i, nth_error (mask_of d times) i = Some true <-> exists t, nth_error times i = Some t /\ fst t = d.
Proof.
  intros d ts. induction ts as [|t ts IH]; intros [|i]; cbn.
  - split; [discriminate|intros (t & H & _); discriminate].
  - split; [discriminate|intros (t & H & _); discriminate].
  - destruct (Z.eqb_spec (fst t) d) as [E|E]; split; intros H; eauto; [discriminate|]. destruct H as (u & U & D). congruence.
  - apply IH.
Qed.
Lemma mask_length : forall d times, length (mask_of d times) = length times.
Proof. intros d times. apply map_length. Qed.
Lemma process_eq : forall day0 s d data, aligned data ->
  let mask := mask_of d (s_time data) in
  process day0 s (Some d) data =
  if existsb (fun b => b) mask
  then process day0 s None {| s_time := take (s_time data) (places mask); s_cols := map_cols (fun c => take c (places mask)) (s_cols data) |}
  else Raise ValidTimeStampError.
Proof.
  intros day0 s d data A mask. unfold process at 1, screen_day. change (map _ (s_time data)) with mask. destruct (existsb (fun b => b) mask); [|reflexivity].
  assert (L : length (s_time data) = length mask) by (symmetry; apply mask_length).
  rewrite keep_cols_ok by (intros k c I; rewrite <- L; exact (A k c I)). cbn [bind]. rewrite keep_take by exact L. reflexivity.
Qed.
Lemma sorted_nth : forall p a b i j, StronglySorted lt p -> nth_error p a = Some i -> nth_error p b = Some j -> a < b -> i < j.
Proof.
  intros p. induction p as [|x p IH]; intros a b i j S A B L; [destruct a; discriminate|]. inversion S as [|? ? S' F]; subst. destruct b as [|b]; [lia|]. cbn in B.
  destruct a as [|a]; [|cbn in A; eapply IH; try eassumption; lia]. cbn in A. injection A as <-. rewrite Forall_forall in F. apply F. eapply nth_error_In. exact B.
Qed.
Lemma day_unique : forall times d p, (forall t, In t times -> whole_second t) -> p = places (mask_of d times) ->
  let ind := unique_index (map hours_of (take times p)) in
  day_rows times d (take p ind) /\ (forall k, In k ind -> k < length p).
Proof.
  intros times d p W P ind.
  assert (R : forall i, In i p <-> exists t, nth_error times i = Some t /\ fst t = d).
  { intros i. rewrite P, places_in. apply mask_nth. }
  assert (LT : forall i, In i p -> i < length times).
  { intros i I. apply R in I. destruct I as (t & E & _). apply nth_error_Some. congruence. }
  assert (S : StronglySorted lt p) by (rewrite P; apply places_sorted).
  assert (L : length (take times p) = length p).
  { pose proof (take_picks _ times p LT) as X. apply forall2_nth in X. destruct X as [X _]. symmetry. exact X. }
  destruct (unique_spec (map hours_of (take times p))) as [U _]. fold ind in U.
  assert (K : forall k, In k ind -> k < length p).
  { intros k I. apply U in I. apply first_occurrence_lt in I. rewrite map_length, L in I. exact I. }
  assert (H : forall k i t, nth_error p k = Some i -> nth_error times i = Some t -> nth_error (map hours_of (take times p)) k = Some (hours_of t)).
  { intros k i t A B. rewrite nth_error_map, take_nth by exact LT. rewrite A, B. reflexivity. }
  split; [|exact K]. intros i.
  assert (I1 : In i (take p ind) <-> exists k, In k ind /\ nth_error p k = Some i).
  { unfold take. rewrite in_flat_map. split; intros (k & I & E); exists k; (split; [exact I|]).
    - destruct (nth_error p k) as [j|]; [|destruct E]. destruct E as [->|[]]. reflexivity.
    - rewrite E. left. reflexivity. }
  rewrite I1. split.
  - intros (k & I & E). apply U in I. destruct I as (x & X & F). assert (Ip : In i p) by (eapply nth_error_In; exact E).
    destruct (proj1 (R i) Ip) as (t & T & D). split; [|eauto]. exists t. split; [exact T|]. intros j J C.
    assert (Jp : In j p) by (apply R; eauto). apply In_nth_error in Jp. destruct Jp as (k' & E').
    assert (k' < k).
    { destruct (Nat.lt_trichotomy k' k) as [|[->|G]]; [assumption|assert (i = j) by congruence; lia|]. assert (i < j) by (eapply sorted_nth; eassumption). lia. }
    rewrite (H k i t E T) in X. injection X as <-. eapply F; [eassumption|apply (H k' j t E' C)|reflexivity].
  - intros ((t & T & F) & (t' & T' & D)). assert (t' = t) by congruence. subst t'. assert (Ip : In i p) by (apply R; eauto).
    apply In_nth_error in Ip. destruct Ip as (k & E). exists k. split; [|exact E]. apply U. exists (hours_of t). split; [apply (H k i t E T)|].
    intros k' y G Y Q'. rewrite nth_error_map, take_nth in Y by exact LT. destruct (nth_error p k') as [j|] eqn:E'; [|discriminate].
    destruct (nth_error times j) as [u|] eqn:Tj; [|discriminate]. cbn in Y. injection Y as <-.
    assert (J : j < i) by (eapply sorted_nth; eassumption). apply (F j J). rewrite Tj. f_equal.
    assert (Du : fst u = d). { assert (Ij : In j p) by (eapply nth_error_In; exact E'). apply R in Ij. destruct Ij as (u' & Tu & Du). congruence. }
    assert (Su : snd u = snd t). { apply hours_same; [apply W; eapply nth_error_In; eassumption|apply W; eapply nth_error_In; eassumption|]. first [exact Q'|symmetry; exact Q']. }
    destruct u, t. cbn [fst snd] in *. congruence.
Qed.
Lemma map_cols_fst : forall f cols, map fst (map_cols f cols) = map fst cols.
Proof. intros f cols. unfold map_cols. rewrite map_map. reflexivity. Qed.
Definition out_rows (s : site) (data : station) (ind : list nat) (cols : list (string * list (masked Q))) (o : ws_out) : Prop :=
  Forall2 (fun i h => exists t, nth_error (s_time data) i = Some t /\ hours t h) ind (o_hours o) /\
  Forall2 (fun a b => fst a = fst b /\
    Forall2 (fun i y => exists x, nth_error (snd a) i = Some x /\ values_as (converted s (fst a)) x y) ind (snd b)) cols (o_cols o).
Lemma process_spec : forall day0 s d data cols, aligned data -> NoDup (map fst (s_cols data)) -> (forall t, In t (s_time data) -> whole_second t) ->
  site_columns day0 s d (s_cols data) cols -> (forall k c, In (k, c) cols -> length c = length (s_time data)) ->
  ((forall t, In t (s_time data) -> fst t <> d) -> process day0 s (Some d) data = Raise ValidTimeStampError) /\
  ((exists t, In t (s_time data) /\ fst t = d) ->
   ((exists q, needed s q /\ ~ In q (map fst cols)) -> process day0 s (Some d) data = Raise KeyError) /\
   ((forall q, needed s q -> In q (map fst cols)) ->
    exists o ind, process day0 s (Some d) data = Ok o /\ o_day o = d /\ day_rows (s_time data) d ind /\ strictly_increasing (o_hours o) /\
      out_rows s data ind cols o)).
Proof.
  intros day0 s d data cols A N W SC AL. rewrite process_eq by exact A. set (mask := mask_of d (s_time data)).
  assert (E : existsb (fun b => b) mask = true <-> exists t, In t (s_time data) /\ fst t = d).
  { unfold mask. rewrite existsb_exists. split.
    - intros (b & I & ->). apply in_map_iff in I. destruct I as (t & H & I). apply Z.eqb_eq in H. eauto.
    - intros (t & I & H). exists true. split; [|reflexivity]. apply in_map_iff. exists t. split; [apply Z.eqb_eq; exact H|exact I]. }
  split.
  - intros H. destruct (existsb (fun b => b) mask); [|reflexivity]. destruct (proj1 E eq_refl) as (t & I & D). exfalso. exact (H t I D).
  - intros H. rewrite (proj2 E H). clear E. set (p := places mask). destruct (day_unique (s_time data) d p W eq_refl) as [DR KP].
    assert (LT : forall i, In i p -> i < length (s_time data)).
    { intros i I. apply places_in in I. assert (X : i < length mask) by (apply nth_error_Some; congruence). unfold mask in X. rewrite mask_length in X. exact X. }
    set (times := take (s_time data) p) in *.
    assert (TD : forall t, In t times -> fst t = d).
    { intros t I. unfold times, take in I. apply in_flat_map in I. destruct I as (i & I & J). apply places_in in I. apply mask_nth in I. destruct I as (u & U & D).
      rewrite U in J. destruct J as [<-|[]]. exact D. }
    unfold process. cbn [bind s_time s_cols]. destruct times as [|t0 times'] eqn:ET.
    + exfalso. destruct H as (t & I & D). apply In_nth_error in I. destruct I as (i & I).
      assert (Ip : In i p) by (apply places_in, mask_nth; eauto).
      assert (X : In t times). { unfold times, take. apply in_flat_map. exists i. split; [exact Ip|]. rewrite I. left. reflexivity. }
      rewrite ET in X. destruct X.
    + rewrite <- ET in *. assert (F0 : fst t0 = d) by (apply TD; rewrite ET; left; reflexivity). rewrite F0.
      fold (add_cols day0 s d (map_cols (fun c => take c p) (s_cols data))). rewrite add_cols_take, (add_cols_eq day0 s d _ cols N SC).
      set (ind := unique_index (map hours_of times)) in *.
      assert (LP : length times = length p).
      { pose proof (take_picks _ (s_time data) p LT) as X. apply forall2_nth in X. destruct X as [X _]. symmetry. exact X. }
      assert (C1 : map (fun kc => (fst kc, if length (snd kc) =? length (map hours_of times) then take (snd kc) ind else snd kc)) (map_cols (fun c => take c p) cols) =
        map_cols (fun c => take c (take p ind)) cols).
      { unfold map_cols. rewrite map_map. apply map_ext_in. intros [k c] I. cbn [fst snd]. f_equal.
        assert (LC : forall i, In i p -> i < length c) by (intros i J; rewrite (AL k c I); apply LT, J).
        pose proof (take_picks _ c p LC) as X. apply forall2_nth in X. destruct X as [X _]. rewrite map_length, LP, X, Nat.eqb_refl. apply take_take. exact LC. }
      rewrite C1, map_cols_fst.
      assert (RB : forallb (fun k => mem_str k (map fst cols)) (required s) = true <-> forall q, needed s q -> In q (map fst cols)).
      { rewrite forallb_forall. split; intros X q I.
        - apply mem_str_iff, X, required_iff, I.
        - apply mem_str_iff, X, required_iff, I. }
      split.
      * intros (q & Nq & NI). destruct (forallb _ (required s)); [|reflexivity]. exfalso. apply NI. apply RB; [reflexivity|exact Nq].
      * intros R. rewrite (proj2 RB R). eexists. exists (take p ind). split; [reflexivity|]. cbn [o_day o_hours o_cols].
        split; [reflexivity|]. split; [exact DR|]. split.
        { destruct (unique_spec (map hours_of times)) as [U1 U2]. eapply sorted_take; [exact U2|]. apply take_picks. intros i I. apply U1 in I. apply first_occurrence_lt in I. exact I. }
        assert (TI : forall i, In i (take p ind) -> In i p).
        { intros i I. unfold take in I. apply in_flat_map in I. destruct I as (k & _ & I). destruct (nth_error p k) as [j|] eqn:X; [|destruct I]. destruct I as [<-|[]]. eapply nth_error_In. exact X. }
        unfold out_rows. cbn [o_hours o_cols]. split.
        { rewrite take_map. unfold times. rewrite take_take by exact LT.
          pose proof (take_picks _ (s_time data) (take p ind) (fun i I => LT i (TI i I))) as X.
          clear -X W. induction X as [|i t l m Ei X IH]; cbn; constructor; [|exact IH]. exists t. split; [exact Ei|]. apply hours_whole, W. eapply nth_error_In. exact Ei. }
        { unfold map_cols. rewrite map_map. apply forall2_map. intros [k c] I. cbn [fst snd]. split; [reflexivity|].
          pose proof (take_picks _ c (take p ind)) as X. specialize (X ltac:(intros i J; rewrite (AL k c I); apply LT, TI, J)).
          clear -X. induction X as [|i x l m Ei X IH]; cbn; constructor; [|exact IH]. exists x. split; [exact Ei|]. destruct x as [x|]; constructor. apply convert_si. }
Qed.
Lemma forall2_impl : forall A B (R R' : A -> B -> Prop) l m, (forall a b, R a b -> R' a b) -> Forall2 R l m -> Forall2 R' l m.
Proof. intros A B R R' l m H F. induction F; constructor; auto. Qed.
