(** Proofs about the readers of weather stations and present weather sensors. *)
From Verif Require Import Base ArrayModel GridModel OutputModel OutputSpec OutputProofs SiteModel SiteSpec SiteProofs
  ReaderModel ReaderSpec ReaderProofs StationModel StationSpec.
From Coq Require Import Lqa.
Local Open Scope string_scope.
Local Open Scope nat_scope.
Local Notation length := List.length (only parsing).

Lemma has_char_iff : forall c s, has_char c s = true <-> exists a b, s = a ++ String c b.
Proof.
  intros c s. induction s as [|x s IH]; cbn.
  - split; [discriminate|]. intros [a [b H]]. destruct a; discriminate.
  - rewrite Bool.orb_true_iff, IH. split.
    + intros [H|[a [b H]]].
      * apply Ascii.eqb_eq in H. subst x. exists "", s. reflexivity.
      * exists (String x a), b. rewrite H. reflexivity.
    + intros [a [b H]]. destruct a as [|y a].
      * left. cbn in H. injection H as -> _. apply Ascii.eqb_eq. reflexivity.
      * right. cbn in H. injection H as _ H. exists a, b. exact H.
Qed.
Lemma has_char_false : forall c s, has_char c s = false <-> ~ exists a b, s = a ++ String c b.
Proof.
  intros c s. rewrite <- has_char_iff. destruct (has_char c s); split; congruence.
Qed.

(** ** FD12P *)
Section FD12P.
Context {D T : Type} (date_eqb : D -> D -> bool) (to_int : string -> option Z)
  (to_num : string -> option (masked Q)) (to_date : string -> option D) (to_time : string -> option T).
Hypothesis date_spec : forall a b, date_eqb a b = true <-> a = b.
Notation line_row := (fd_line to_int to_num to_date to_time).
Notation reading := (fd_reading to_int to_num to_date to_time).
Notation fdread := (fd_read date_eqb to_int to_num to_date to_time).

Lemma fd_int_iff : forall w x, fd_int to_int w = Some x <-> whole_field to_int w x.
Proof.
  intros w x. unfold fd_int. destruct (has_char "/" w) eqn:E.
  - pose proof (proj1 (has_char_iff _ _) E) as S. split.
    + intros H. injection H as <-. constructor. exact S.
    + intros H. destruct H as [w S'|w z N _]; [reflexivity|]. destruct (N S).
  - pose proof (proj1 (has_char_false _ _) E) as S. destruct (to_int w) as [z|] eqn:Z; cbn; split.
    + intros H. injection H as <-. constructor; assumption.
    + intros H. destruct H as [w S'|w z' N Z']; [destruct (S S')|]. congruence.
    + discriminate.
    + intros H. destruct H as [w S'|w z' N Z']; [destruct (S S')|]. congruence.
Qed.
Lemma fd_float_iff : forall w x, fd_float to_num w = Some x <-> decimal_field to_num w x.
Proof.
  intros w x. unfold fd_float. destruct (has_char "/" w) eqn:E.
  - pose proof (proj1 (has_char_iff _ _) E) as S. split.
    + intros H. injection H as <-. constructor. exact S.
    + intros H. destruct H as [w S'|w z N _]; [reflexivity|]. destruct (N S).
  - pose proof (proj1 (has_char_false _ _) E) as S. split.
    + intros H. constructor; assumption.
    + intros H. destruct H as [w S'|w z' N Z']; [destruct (S S')|]. assumption.
Qed.
Lemma fd_line_iff : forall line r, line_row line = Some r <-> reading line r.
Proof.
  intros line r. unfold fd_line. split.
  - destruct (words line) as [|c0 [|c1 [|c2 [|c3 [|c4 [|c5 [|c6 [|c7 [|c8 [|c9 [|c10 [|c11 [|c12 [|c13 ws]]]]]]]]]]]]]] eqn:W;
      try discriminate.
    destruct (to_date c0) as [d|] eqn:E0; [|discriminate].
    destruct (to_time c1) as [t|] eqn:E1; [|discriminate].
    destruct (fd_int to_int c4) as [v|] eqn:E4; [|discriminate].
    destruct (fd_int to_int c7) as [s|] eqn:E7; [|discriminate].
    destruct (fd_float to_num c10) as [p|] eqn:E10; [|discriminate].
    destruct (fd_float to_num c11) as [a|] eqn:E11; [|discriminate].
    destruct (fd_int to_int c12) as [n|] eqn:E12; [|discriminate].
    intros H. injection H as <-. constructor.
    exists [c0; c1; c2; c3; c4; c5; c6; c7; c8; c9; c10; c11; c12].
    split; [rewrite <- W; apply words_exist|]. split; [reflexivity|].
    cbn [f_time f_vis f_synop f_rate f_amount f_snow fst snd].
    repeat split; eexists; (split; [reflexivity|]); try assumption;
      try (apply fd_int_iff; assumption); apply fd_float_iff; assumption.
  - intros [[ws [W [L [[w0 [H0 E0]] [[w1 [H1 E1]] [[w4 [H4 E4]] [[w7 [H7 E7]] [[w10 [H10 E10]] [[w11 [H11 E11]] [w12 [H12 E12]]]]]]]]]]]].
    apply words_unique in W. rewrite W.
    destruct ws as [|c0 [|c1 [|c2 [|c3 [|c4 [|c5 [|c6 [|c7 [|c8 [|c9 [|c10 [|c11 [|c12 [|c13 ws]]]]]]]]]]]]]];
      try discriminate L.
    cbn in H0, H1, H4, H7, H10, H11, H12.
    injection H0 as ->. injection H1 as ->. injection H4 as ->. injection H7 as ->.
    injection H10 as ->. injection H11 as ->. injection H12 as ->.
    apply fd_int_iff in E4, E7, E12. apply fd_float_iff in E10, E11.
    rewrite E0, E1, E4, E7, E10, E11, E12. destruct r as [[d t] v s p a n]. reflexivity.
Qed.
Definition fd_rows (lines : list string) : list (@fd_row D T) := flat_map (fun l => opt_list (line_row l)) lines.
Lemma fd_rows_spec : forall lines, collects reading lines (fd_rows lines).
Proof. intros lines. apply collects_flat_map. intros a b _. apply fd_line_iff. Qed.
Lemma fd_rows_in : forall lines r, In r (fd_rows lines) <-> exists l, In l lines /\ reading l r.
Proof.
  intros lines r. unfold fd_rows. rewrite in_flat_map. split.
  - intros [l [I H]]. exists l. split; [exact I|]. apply fd_line_iff.
    destruct (line_row l) as [r'|]; cbn in H; [destruct H as [->|[]]; reflexivity|destruct H].
  - intros [l [I H]]. exists l. split; [exact I|]. apply fd_line_iff in H. rewrite H. left. reflexivity.
Qed.
Definition cols_of (rows : list (@fd_row D T)) : @fd_cols D T :=
  {| fc_time := map f_time rows; fc_vis := map f_vis rows; fc_synop := map f_synop rows;
     fc_rate := map f_rate rows; fc_amount := map f_amount rows; fc_snow := map f_snow rows |}.
Lemma fd_append_rows : forall lines rows,
  fold_left (fd_append to_int to_num to_date to_time) lines (cols_of rows) = cols_of (rows ++ fd_rows lines)%list.
Proof.
  intros lines. induction lines as [|l lines IH]; intros rows; cbn [fold_left].
  - cbn. rewrite app_nil_r. reflexivity.
  - assert (fd_append to_int to_num to_date to_time (cols_of rows) l = cols_of (rows ++ opt_list (line_row l))%list) as ->.
    { unfold fd_append. destruct (line_row l) as [r|]; cbn [opt_list].
      - unfold cols_of; cbn. rewrite !map_app. reflexivity.
      - rewrite app_nil_r. reflexivity. }
    rewrite IH. cbn [fd_rows flat_map]. rewrite app_assoc. reflexivity.
Qed.
Definition on_dayb (expected : option D) (r : @fd_row D T) : bool :=
  match expected with Some d => date_eqb (fst (f_time r)) d | None => true end.
Lemma on_dayb_iff : forall e r, on_dayb e r = true <-> on_day e r.
Proof.
  intros [d|] r; unfold on_dayb, on_day.
  - rewrite date_spec. split; [intros H d' E; congruence|intros H; apply H; reflexivity].
  - split; [intros _ d E; discriminate|reflexivity].
Qed.
Definition emptyb (r : @fd_row D T) : bool :=
  is_masked (f_vis r) && is_masked (f_synop r) && is_masked (f_rate r) && is_masked (f_amount r) && is_masked (f_snow r).
Lemma emptyb_iff : forall r, emptyb r = false <-> has_value r.
Proof.
  intros [t v s p a n]. unfold emptyb, has_value; cbn.
  destruct v, s, p, a, n; cbn; split; intros H; try reflexivity; try discriminate H;
    try (now left; discriminate); try (now right; left; discriminate);
    try (now right; right; left; discriminate); try (now right; right; right; left; discriminate);
    try (now right; right; right; right; discriminate).
  exfalso. repeat (destruct H as [H|H]); congruence.
Qed.
Lemma fd_parse_rows : forall e lines, fd_parse date_eqb to_int to_num to_date to_time e lines =
  match filter (on_dayb e) (fd_rows lines) with
  | [] => Raise ValidTimeStampError
  | on => Ok {| fc_time := map f_time on; fc_vis := map f_vis (fd_rows lines); fc_synop := map f_synop (fd_rows lines);
     fc_rate := map f_rate (fd_rows lines); fc_amount := map f_amount (fd_rows lines); fc_snow := map f_snow (fd_rows lines) |}
  end.
Proof.
  intros e lines. unfold fd_parse.
  change {| fc_time := []; fc_vis := []; fc_synop := []; fc_rate := []; fc_amount := []; fc_snow := [] |} with (cols_of []).
  rewrite fd_append_rows. cbn [app]. set (rows := fd_rows lines). clearbody rows.
  cbn [cols_of fc_time fc_vis fc_synop fc_rate fc_amount fc_snow].
  assert (match e with Some d => filter (fun t => date_eqb (fst t) d) (map f_time rows) | None => map f_time rows end
          = map f_time (filter (on_dayb e) rows)) as ->.
  { destruct e as [d|]; cbn.
    - induction rows as [|r rows IH]; cbn; [reflexivity|]. destruct (date_eqb (fst (f_time r)) d); cbn; rewrite IH; reflexivity.
    - induction rows as [|r rows IH]; cbn; [reflexivity|]. rewrite <- IH. reflexivity. }
  destruct (filter (on_dayb e) rows); reflexivity.
Qed.
Lemma map_filter_cut : forall A (f : @fd_row D T -> A) rows, 2 <= length rows \/ existsb (fun b => b) (map (fun r => negb (emptyb r)) rows) = true ->
  cut_time (length rows) (map (fun r => negb (emptyb r)) rows) (map f rows) =
  map f (filter (fun r => negb (emptyb r)) rows).
Proof.
  intros A f rows H. unfold cut_time. rewrite map_length, Nat.eqb_refl. cbn [andb].
  destruct (length rows =? 1) eqn:E; cbn [negb].
  - destruct H as [H|H]; [apply Nat.eqb_eq in E; lia|].
    destruct rows as [|r [|r' rows]]; try discriminate E. cbn in H. cbn.
    destruct (negb (emptyb r)); [reflexivity|discriminate].
  - clear. induction rows as [|r rows IH]; cbn; [reflexivity|]. destruct (negb (emptyb r)); cbn; rewrite IH; reflexivity.
Qed.
Lemma band_same : forall (rows : list (@fd_row D T)) f g, band (map f rows) (map g rows) = Ok (map (fun r => f r && g r) rows).
Proof.
  intros rows f g. unfold band. rewrite !map_length, Nat.eqb_refl. f_equal.
  induction rows as [|r rows IH]; cbn; [reflexivity|]. rewrite IH. reflexivity.
Qed.
Lemma fd_screen_same : forall rows, fd_screen (cols_of rows) =
  match filter (fun r => negb (emptyb r)) rows with
  | [] => Raise ValidTimeStampError
  | keep => Ok (cols_of keep)
  end.
Proof.
  intros rows. unfold fd_screen. cbn [cols_of fc_time fc_vis fc_synop fc_rate fc_amount fc_snow].
  rewrite !map_map. rewrite band_same. cbn [bind]. rewrite band_same. cbn [bind]. rewrite band_same. cbn [bind].
  rewrite band_same. cbn [bind]. rewrite band_same. cbn [bind]. rewrite map_map, map_length.
  change (map (fun x => negb (true && is_masked (f_vis x) && is_masked (f_synop x) && is_masked (f_rate x) &&
     is_masked (f_amount x) && is_masked (f_snow x))) rows) with (map (fun x => negb (emptyb x)) rows).
  destruct (existsb (fun b => b) (map (fun x => negb (emptyb x)) rows)) eqn:E.
  - rewrite !map_filter_cut by (right; exact E).
    destruct (filter (fun r => negb (emptyb r)) rows) as [|k ks] eqn:F; [|reflexivity].
    exfalso. apply existsb_exists in E. destruct E as [b [I B]]. apply in_map_iff in I. destruct I as [r [<- I]].
    assert (X : In r (filter (fun r => negb (emptyb r)) rows)) by (apply filter_In; auto). rewrite F in X. destruct X.
  - destruct (filter (fun r => negb (emptyb r)) rows) as [|k ks] eqn:F; [reflexivity|].
    exfalso. assert (X : In k (filter (fun r => negb (emptyb r)) rows)) by (rewrite F; left; reflexivity).
    apply filter_In in X. destruct X as [I B].
    assert (existsb (fun b => b) (map (fun x => negb (emptyb x)) rows) = true); [|congruence].
    apply existsb_exists. exists true. split; [|reflexivity]. apply in_map_iff. exists k. auto.
Qed.
Lemma filter_all : forall A (p : A -> bool) l, (forall x, In x l -> p x = true) -> filter p l = l.
Proof.
  intros A p l. induction l as [|x l IH]; intros H; cbn; [reflexivity|].
  rewrite (H x (or_introl eq_refl)). rewrite IH; [reflexivity|]. intros; apply H; right; assumption.
Qed.
Lemma filter_le : forall A (p : A -> bool) l, length (filter p l) <= length l.
Proof. intros A p l. induction l as [|x l IH]; cbn; [lia|]. destruct (p x); cbn; lia. Qed.
Lemma filter_less : forall A (p : A -> bool) l, (exists x, In x l /\ p x = false) -> length (filter p l) < length l.
Proof.
  intros A p l. induction l as [|x l IH]; intros [y [I Y]]; [destruct I|].
  cbn. pose proof (filter_le _ p l). destruct I as [->|I].
  - rewrite Y. lia.
  - specialize (IH (ex_intro _ y (conj I Y))). destruct (p x); cbn; lia.
Qed.
Definition all_on_day (e : option D) (lines : list string) : Prop :=
  forall l r, In l lines -> reading l r -> on_day e r.
Lemma fd_read_same : forall e lines, all_on_day e lines -> fdread e lines =
  match filter (fun r => negb (emptyb r)) (fd_rows lines) with
  | [] => Raise ValidTimeStampError
  | keep => Ok (cols_of keep)
  end.
Proof.
  intros e lines H. unfold fd_read. rewrite fd_parse_rows. rewrite filter_all.
  2:{ intros r I. apply fd_rows_in in I. destruct I as [l [I R]]. apply on_dayb_iff. eapply H; eassumption. }
  rewrite <- fd_screen_same. destruct (fd_rows lines) as [|r rows]; reflexivity.
Qed.
Lemma wanted_rows : forall e lines, all_on_day e lines ->
  fd_wanted to_int to_num to_date to_time e lines (filter (fun r => negb (emptyb r)) (fd_rows lines)).
Proof.
  intros e lines H. unfold fd_wanted, fd_rows. induction lines as [|l lines IH]; cbn; [constructor|].
  assert (IH' := IH (fun l r I R => H l r (or_intror I) R)).
  destruct (line_row l) as [r|] eqn:E; cbn.
  - apply fd_line_iff in E. destruct (negb (emptyb r)) eqn:F.
    + apply collects_take; [|exact IH']. split; [exact E|]. split; [eapply H; [left; reflexivity|exact E]|].
      apply emptyb_iff. destruct (emptyb r); [discriminate|reflexivity].
    + apply collects_skip; [|exact IH']. intros b [R [_ V]]. apply fd_line_iff in R, E.
      assert (b = r) by congruence. subst b. apply emptyb_iff in V. rewrite V in F. discriminate.
  - apply collects_skip; [|exact IH']. intros b [R _]. apply fd_line_iff in R. congruence.
Qed.
Lemma collects_unique : forall A B (R : A -> B -> Prop) l bs cs,
  (forall a b c, R a b -> R a c -> b = c) -> collects R l bs -> collects R l cs -> bs = cs.
Proof.
  intros A B R l bs cs U X. revert cs. induction X as [|a b l bs r X IH|a l bs n X IH]; intros cs Y;
    inversion Y as [|? c ? ? r' Y'|? ? ? n' Y']; subst.
  - reflexivity.
  - f_equal; [eapply U; eassumption|apply IH; assumption].
  - exfalso. eapply n'. exact r.
  - exfalso. eapply n. exact r'.
  - apply IH. assumption.
Qed.
Lemma reading_unique : forall l r r', reading l r -> reading l r' -> r = r'.
Proof. intros l r r' A B. apply fd_line_iff in A, B. congruence. Qed.
Lemma fd_read_partial : forall e lines rows, all_on_day e lines ->
  fd_wanted to_int to_num to_date to_time e lines rows ->
  (rows = [] -> fdread e lines = Raise ValidTimeStampError) /\
  (rows <> [] -> exists c, fdread e lines = Ok c /\ fd_columns rows c).
Proof.
  intros e lines rows H W. rewrite (fd_read_same e lines H).
  assert (E : rows = filter (fun r => negb (emptyb r)) (fd_rows lines)).
  { eapply collects_unique; [|exact W|apply wanted_rows; exact H].
    intros a b c [X _] [Y _]. eapply reading_unique; eassumption. }
  rewrite <- E. split.
  - intros ->. reflexivity.
  - intros N. destruct rows as [|r rows]; [congruence|]. eexists. split; [reflexivity|]. unfold fd_columns; cbn. auto 10.
Qed.
Lemma fd_read_other_day : forall e lines,
  (exists l r, In l lines /\ reading l r /\ on_day e r) ->
  (exists l r, In l lines /\ reading l r /\ ~ on_day e r) ->
  fdread e lines = Raise ValueError.
Proof.
  intros e lines [l1 [r1 [I1 [R1 O1]]]] [l2 [r2 [I2 [R2 O2]]]]. unfold fd_read. rewrite fd_parse_rows.
  assert (J1 : In r1 (fd_rows lines)) by (apply fd_rows_in; eauto).
  assert (J2 : In r2 (fd_rows lines)) by (apply fd_rows_in; eauto).
  set (rows := fd_rows lines) in *. clearbody rows.
  assert (K1 : In r1 (filter (on_dayb e) rows)) by (apply filter_In; split; [|apply on_dayb_iff]; assumption).
  assert (L : length (filter (on_dayb e) rows) < length rows).
  { apply filter_less. exists r2. split; [exact J2|]. destruct (on_dayb e r2) eqn:E; [|reflexivity].
    apply on_dayb_iff in E. contradiction. }
  destruct (filter (on_dayb e) rows) as [|x on]; [destruct K1|].
  cbn [bind]. unfold fd_screen; cbn [fc_time fc_vis fc_synop fc_rate fc_amount fc_snow].
  assert (band (map (fun _ => true) (map f_time (x :: on))) (map is_masked (map f_vis rows)) = Raise ValueError) as ->; [|reflexivity].
  unfold band. rewrite !map_length. cbn in L |- *.
  destruct (length rows =? S (length on)) eqn:E; [apply Nat.eqb_eq in E; lia|].
  destruct rows as [|a [|b rows]]; cbn in *; try lia. reflexivity.
Qed.
Lemma fd_read_no_day : forall e lines,
  (forall l r, In l lines -> reading l r -> ~ on_day e r) -> fdread e lines = Raise ValidTimeStampError.
Proof.
  intros e lines H. unfold fd_read. rewrite fd_parse_rows.
  destruct (filter (on_dayb e) (fd_rows lines)) as [|x on] eqn:E; [reflexivity|]. exfalso.
  assert (I : In x (filter (on_dayb e) (fd_rows lines))) by (rewrite E; left; reflexivity).
  apply filter_In in I. destruct I as [I O]. apply fd_rows_in in I. destruct I as [l [I R]].
  apply on_dayb_iff in O. exact (H l x I R O).
Qed.
End FD12P.

(** ** SIRTA files *)
Lemma collects_app : forall A B (R : A -> B -> Prop) l1 l2 b1 b2,
  collects R l1 b1 -> collects R l2 b2 -> collects R (l1 ++ l2)%list (b1 ++ b2)%list.
Proof.
  intros A B R l1 l2 b1 b2 H K. induction H; cbn; [exact K| |].
  - apply collects_take; assumption.
  - apply collects_skip; assumption.
Qed.
Lemma string_spec : forall a b, String.eqb a b = true <-> a = b. Proof. apply String.eqb_eq. Qed.
Lemma get_nth : forall A (ps : list (string * A)) k x, NoDup (map fst ps) ->
  get String.eqb k ps = Some x <-> exists i, nth_error ps i = Some (k, x).
Proof.
  intros A ps k x. induction ps as [|[k' y] ps IH]; cbn; intros N.
  - split; [discriminate|]. intros [[|i] H]; discriminate.
  - inversion N as [|? ? NI N']; subst. destruct (String.eqb k k') eqn:E.
    + apply String.eqb_eq in E. subst k'. split.
      * intros H. injection H as ->. exists 0. reflexivity.
      * intros [[|i] H]; cbn in H; [injection H as ->; reflexivity|].
        exfalso. apply NI. apply nth_error_In in H. apply in_map_iff. exists (k, x). auto.
    + rewrite (IH N'). split.
      * intros [i H]. exists (S i). exact H.
      * intros [[|i] H]; cbn in H; [injection H as -> ->; rewrite String.eqb_refl in E; discriminate|]. exists i. exact H.
Qed.
Lemma has_column_unique : forall K A (d : list (K * list A)) k c c', has_column d k c -> has_column d k c' -> c = c'.
Proof.
  intros K A d k c c' [[I N]|[-> I]] [[I' _]|[-> I']]; try reflexivity.
  - revert I I'. induction d as [|[k2 c2] d IH]; cbn in *; [intros []|].
    inversion N as [|? ? NI N']; subst. intros [E|I] [E'|I'].
    + congruence.
    + injection E as -> ->. exfalso. apply NI. apply in_map_iff. exists (k, c'). auto.
    + injection E' as -> ->. exfalso. apply NI. apply in_map_iff. exists (k, c). auto.
    + apply IH; assumption.
  - exfalso. apply I'. apply in_map_iff. exists (k, c). auto.
  - exfalso. apply I. apply in_map_iff. exists (k, c'). auto.
Qed.
Section Stations.
Context {X : Type} (to_num : string -> option (masked Q)) (to_stamp to_stamp_z : string -> option X).
Notation table := (@wtable X).
Notation value := (sirta_value to_num to_stamp to_stamp_z).
Notation meaning := (sirta_meaning to_num to_stamp to_stamp_z).
Notation parse := (parse_sirta to_num to_stamp to_stamp_z).
Notation at_ := (sirta_at to_num to_stamp to_stamp_z).
Notation scol := (@col string (@wcell X) String.eqb).

Lemma number_iff : forall w x, num_or_nan to_num w = x <-> @number X to_num w x.
Proof.
  intros w x. unfold num_or_nan. destruct (to_num w) as [y|] eqn:E; split.
  - intros <-. constructor. exact E.
  - intros H. destruct H; congruence.
  - intros <-. apply number_bad. exact E.
  - intros H. destruct H; congruence.
Qed.
Lemma sirta_value_iff : forall c w x, value c w = Some x <-> meaning c w x.
Proof.
  intros c w x. unfold sirta_value.
  destruct (String.eqb c date_title) eqn:E; [|destruct (String.eqb c date_title_z) eqn:F].
  - apply String.eqb_eq in E. subst c. destruct (to_stamp w) as [t|] eqn:G; cbn; split.
    + intros H. injection H as <-. constructor. exact G.
    + intros H. inversion H; subst; [congruence|exfalso; apply H0; reflexivity].
    + discriminate.
    + intros H. inversion H; subst; [congruence|exfalso; apply H0; reflexivity].
  - apply String.eqb_eq in F. subst c. destruct (to_stamp_z w) as [t|] eqn:G; cbn; split.
    + intros H. injection H as <-. apply sm_date_z. exact G.
    + intros H. inversion H; subst; [congruence|exfalso; apply H1; reflexivity].
    + discriminate.
    + intros H. inversion H; subst; [congruence|exfalso; apply H1; reflexivity].
  - split.
    + intros H. assert (num_or_nan to_num w = x) by congruence. apply number_iff in H0.
      apply sm_number; [intros ->; discriminate|intros ->; discriminate|exact H0].
    + intros H. destruct H as [w t|w t|c w x _ _ H]; [discriminate|discriminate|]. apply number_iff in H. rewrite H. reflexivity.
Qed.
Definition title_list (lines : list sirta_line) : list (option nat * string) :=
  flat_map (fun l => opt_list (match l with STitle no t => Some (no, t) | _ => None end)) lines.
Lemma titles_iff : forall lines ts, titles lines ts <-> ts = title_list lines.
Proof.
  intros lines ts.
  assert (T : titles lines (title_list lines)).
  { apply collects_flat_map. intros a [no t] _. destruct a as [no' t'|vs|]; cbn; split; congruence. }
  split; [|intros ->; exact T].
  intros H. eapply collects_unique; [|exact H|exact T]. intros a [n t] [n' t'] -> E. cbn in E. congruence.
Qed.
Fixpoint number_ok (n : nat) (ts : list (option nat * string)) : bool :=
  match ts with
  | [] => true
  | (Some k, _) :: r => (k =? n) && number_ok (S n) r
  | (None, _) :: _ => false
  end.
Lemma number_ok_iff : forall ts n, number_ok n ts = true <->
  forall i no t, nth_error ts i = Some (no, t) -> no = Some (i + n).
Proof.
  induction ts as [|[no t] ts IH]; intros n; cbn.
  - split; [intros _ [|i] no t H; discriminate|reflexivity].
  - destruct no as [k|].
    + rewrite Bool.andb_true_iff, Nat.eqb_eq, IH. split.
      * intros [-> H] [|i] no t' E; cbn in E; [cbn; congruence|]. rewrite (H i no t' E). f_equal. lia.
      * intros H. split.
        -- specialize (H 0 (Some k) t eq_refl). cbn in H. congruence.
        -- intros i no t' E. rewrite (H (S i) no t' E). f_equal. lia.
    + split; [discriminate|]. intros H. specialize (H 0 None t eq_refl). discriminate.
Qed.
Lemma numbered_iff : forall ts, number_ok 1 ts = true <-> numbered ts.
Proof. intros ts. unfold numbered. apply number_ok_iff. Qed.
Lemma sirta_titles_spec : forall lines cs, sirta_titles lines cs =
  if number_ok (length cs + 1) (title_list lines) then Ok (cs ++ map snd (title_list lines))%list else Raise ValueError.
Proof.
  induction lines as [|l lines IH]; intros cs; cbn.
  - rewrite app_nil_r. reflexivity.
  - destruct l as [no t|vs|]; cbn [title_list flat_map opt_list app].
    + change (flat_map _ lines) with (title_list lines). cbn [number_ok map snd].
      destruct no as [k|]; [|reflexivity]. destruct (k =? length cs + 1); cbn [andb]; [|reflexivity].
      rewrite IH. rewrite app_length. cbn [length]. replace (S (length cs + 1)) with (length cs + 1 + 1) by lia.
      destruct (number_ok _ _); [|reflexivity]. rewrite <- app_assoc. reflexivity.
    + apply IH.
    + apply IH.
Qed.
Definition pairs (cs vs : list string) : option (list (string * @wcell X)) :=
  all_read (fun cv => option_map (pair (fst cv)) (value (fst cv) (snd cv))) (combine cs vs).
Lemma sirta_row_pairs : forall cs vs (out : table), sirta_row to_num to_stamp to_stamp_z cs vs out =
  match pairs cs vs with
  | Some ps => Ok (fold_left (fun d kv => push String.eqb (fst kv) (snd kv) d) ps out)
  | None => Raise ValueError
  end.
Proof.
  unfold pairs. induction cs as [|c cs IH]; intros vs out; [reflexivity|].
  destruct vs as [|v vs]; [reflexivity|]. cbn [sirta_row combine all_read fst snd].
  destruct (value c v) as [x|]; cbn [option_map]; [|reflexivity].
  rewrite IH. destruct (all_read _ (combine cs vs)); reflexivity.
Qed.
Lemma pairs_spec : forall cs vs ps, length cs = length vs -> pairs cs vs = Some ps ->
  map fst ps = cs /\ forall i k x, nth_error ps i = Some (k, x) <->
    exists v, nth_error cs i = Some k /\ nth_error vs i = Some v /\ meaning k v x.
Proof.
  unfold pairs. induction cs as [|c cs IH]; intros vs ps L; destruct vs as [|v vs]; try discriminate L.
  - cbn. intros H. injection H as <-. split; [reflexivity|]. intros i k x. destruct i; cbn; split; try discriminate;
      intros [v [E _]]; discriminate.
  - cbn [combine all_read fst snd]. destruct (value c v) as [x0|] eqn:E; [|discriminate]. cbn [option_map].
    destruct (all_read _ (combine cs vs)) as [ps'|] eqn:F; [|discriminate].
    intros H. injection H as <-. cbn in L. injection L as L. destruct (IH vs ps' L F) as [A B].
    split; [cbn; rewrite A; reflexivity|]. intros i k x. destruct i as [|i]; [|apply B]. cbn. split.
    + intros H. injection H as -> ->. exists v. split; [reflexivity|]. split; [reflexivity|]. apply sirta_value_iff. exact E.
    + intros [v' [H1 [H2 H3]]]. injection H1 as ->. injection H2 as ->. apply sirta_value_iff in H3. congruence.
Qed.
Lemma pairs_none : forall cs vs, pairs cs vs = None <->
  exists i c v, nth_error cs i = Some c /\ nth_error vs i = Some v /\ forall x, ~ meaning c v x.
Proof.
  unfold pairs. induction cs as [|c cs IH]; intros vs; destruct vs as [|v vs].
  1-3: cbn; split; [discriminate|]; intros [i [c' [v' [H1 [H2 _]]]]]; destruct i; discriminate.
  cbn [combine all_read fst snd]. destruct (value c v) as [x0|] eqn:E; cbn [option_map].
  - assert (E' := proj1 (sirta_value_iff _ _ _) E).
    specialize (IH vs). destruct (all_read _ (combine cs vs)) as [ps'|] eqn:F.
    + split; [discriminate|]. intros [i [c' [v' [H1 [H2 H3]]]]]. destruct i as [|i]; cbn in H1, H2.
      * injection H1 as ->. injection H2 as ->. destruct (H3 x0 E').
      * exfalso. assert (Some ps' = None) by (apply IH; exists i, c', v'; auto). discriminate.
    + split; [|reflexivity]. intros _. destruct (proj1 IH eq_refl) as [i [c' [v' H]]]. exists (S i), c', v'. exact H.
  - split; [|reflexivity]. intros _. exists 0, c, v. split; [reflexivity|]. split; [reflexivity|].
    intros x H. apply sirta_value_iff in H. congruence.
Qed.
Definition line_pairs (cs : list string) (l : sirta_line) : option (list (string * @wcell X)) :=
  match l with SValues vs => if length cs =? length vs then pairs cs vs else Some [] | _ => Some [] end.
Lemma line_pairs_none : forall cs l, line_pairs cs l = None <-> bad_stamp to_num to_stamp to_stamp_z cs l.
Proof.
  intros cs l. unfold line_pairs, bad_stamp. destruct l as [no t|vs|].
  1,3: split; [discriminate|]; intros [vs [i [c [v [H _]]]]]; discriminate.
  destruct (length cs =? length vs) eqn:E.
  - apply Nat.eqb_eq in E. rewrite pairs_none. split.
    + intros [i [c [v H]]]. exists vs, i, c, v. auto.
    + intros [vs' [i [c [v [H1 [H2 H3]]]]]]. injection H1 as <-. exists i, c, v. exact H3.
  - apply Nat.eqb_neq in E. split; [discriminate|]. intros [vs' [i [c [v [H1 [H2 H3]]]]]]. injection H1 as <-. lia.
Qed.
Lemma sirta_rows_spec : forall cs lines (out : table), NoDup cs ->
  sirta_rows to_num to_stamp to_stamp_z cs lines out =
  match all_read (line_pairs cs) lines with
  | Some pss => Ok (fold_left (fun d ps => fold_left (fun d kv => push String.eqb (fst kv) (snd kv) d) ps d) pss out)
  | None => Raise ValueError
  end.
Proof.
  intros cs lines. induction lines as [|l lines IH]; intros out N; [reflexivity|].
  cbn [sirta_rows all_read]. destruct l as [no t|vs|]; cbn [line_pairs].
  - rewrite (IH out N). destruct (all_read _ lines); reflexivity.
  - destruct (length cs =? length vs).
    + rewrite sirta_row_pairs. destruct (pairs cs vs) as [ps|]; cbn [bind]; [|reflexivity].
      rewrite (IH _ N). destruct (all_read _ lines); reflexivity.
    + rewrite (IH out N). destruct (all_read _ lines); reflexivity.
  - rewrite (IH out N). destruct (all_read _ lines); reflexivity.
Qed.
Lemma line_pairs_keys : forall cs l ps, NoDup cs -> line_pairs cs l = Some ps -> NoDup (map fst ps).
Proof.
  intros cs l ps N. unfold line_pairs. destruct l as [no t|vs|].
  1,3: intros H; injection H as <-; constructor.
  destruct (length cs =? length vs) eqn:E; [|intros H; injection H as <-; constructor].
  apply Nat.eqb_eq in E. intros H. destruct (pairs_spec _ _ _ E H) as [-> _]. exact N.
Qed.
Lemma nodup_nth : forall A (l : list A) i j x, NoDup l -> nth_error l i = Some x -> nth_error l j = Some x -> i = j.
Proof.
  intros A l i j x N H K. eapply NoDup_nth_error; [exact N| |congruence].
  apply nth_error_Some. congruence.
Qed.
Lemma line_pairs_get : forall cs l ps i t x, NoDup cs -> line_pairs cs l = Some ps -> nth_error cs i = Some t ->
  get String.eqb t ps = Some x <-> at_ (length cs) i t l x.
Proof.
  intros cs l ps i t x N H I. pose proof (line_pairs_keys _ _ _ N H) as NP. rewrite (get_nth _ _ _ _ NP).
  unfold sirta_at. unfold line_pairs in H. destruct l as [no t'|vs|].
  1,3: injection H as <-; split; [intros [[|j] E]; cbn in E; discriminate|intros [vs [v [E _]]]; discriminate].
  destruct (length cs =? length vs) eqn:E.
  - apply Nat.eqb_eq in E. destruct (pairs_spec _ _ _ E H) as [_ B]. split.
    + intros [j Hj]. apply B in Hj. destruct Hj as [v [H1 [H2 H3]]].
      assert (i = j) by exact (nodup_nth _ cs i j t N I H1). subst j. exists vs, v. auto.
    + intros [vs' [v [H1 [H2 [H3 H4]]]]]. injection H1 as <-. exists i. apply B. exists v. auto.
  - apply Nat.eqb_neq in E. injection H as <-. split; [intros [[|j] E']; cbn in E'; discriminate|].
    intros [vs' [v [H1 [H2 _]]]]. injection H1 as <-. lia.
Qed.
Lemma rows_col : forall pss (out : table) k, (forall ps, In ps pss -> NoDup (map fst ps)) ->
  scol (fold_left (fun d ps => fold_left (fun d kv => push String.eqb (fst kv) (snd kv) d) ps d) pss out) k =
  (scol out k ++ flat_map (fun ps => opt_list (get String.eqb k ps)) pss)%list.
Proof.
  induction pss as [|ps pss IH]; intros out k H; cbn [fold_left flat_map].
  - rewrite app_nil_r. reflexivity.
  - rewrite IH by (intros; apply H; right; assumption).
    rewrite (push_all _ _ _ string_spec) by (apply H; left; reflexivity). rewrite app_assoc. reflexivity.
Qed.
Lemma rows_keys : forall pss (out : table) (cs : list string), (forall k, In k (map fst out) <-> In k cs) ->
  NoDup (map fst out) -> (forall ps k, In ps pss -> In k (map fst ps) -> In k cs) ->
  let d := fold_left (fun d ps => fold_left (fun d kv => push String.eqb (fst kv) (snd kv) d) ps d) pss out in
  NoDup (map fst d) /\ forall k, In k (map fst d) <-> In k cs.
Proof.
  assert (One : forall (ps : list (string * @wcell X)) (out : table) (cs : list string),
    (forall k, In k (map fst out) <-> In k cs) -> (forall k, In k (map fst ps) -> In k cs) ->
    forall k, In k (map fst (fold_left (fun d kv => push String.eqb (fst kv) (snd kv) d) ps out)) <-> In k cs).
  { induction ps as [|[k2 v] ps IH]; intros out cs A B k; cbn [fold_left fst snd]; [apply A|].
    apply IH.
    - intros k'. rewrite (push_keys _ string_spec). rewrite A. split; [|auto]. intros [->|H]; [|exact H]. apply B. left. reflexivity.
    - intros k' H. apply B. right. exact H. }
  induction pss as [|ps pss IH]; intros out cs A N B; cbn [fold_left]; [auto|].
  apply IH.
  - apply One; [exact A|]. intros k H. eapply B; [left; reflexivity|exact H].
  - apply (push_all_nodup _ _ _ string_spec). exact N.
  - intros ps' k H H'. eapply B; [right; exact H|exact H'].
Qed.
Lemma empty_table : forall A (cs : list string) (d : list (string * list A)), NoDup (map fst d) ->
  (forall k, col String.eqb d k = []) ->
  let e := fold_left (fun d c => put String.eqb c [] d) cs d in
  NoDup (map fst e) /\ (forall k, col String.eqb e k = []) /\ forall k, In k (map fst e) <-> In k cs \/ In k (map fst d).
Proof.
  intros A cs. induction cs as [|c cs IH]; intros d N E; cbn [fold_left].
  - cbn. split; [exact N|]. split; [exact E|]. intros k. split; [auto|intros [[]|H]; exact H].
  - destruct (IH (put String.eqb c [] d)) as [N' [E' K']].
    + apply (put_nodup _ _ _ string_spec). exact N.
    + intros k. unfold col in *.
      assert (G : forall (d : list (string * list A)), column_of String.eqb k d = get String.eqb k d).
      { induction d0 as [|[k2 c2] d0 IHd]; cbn; [reflexivity|]. rewrite IHd. reflexivity. }
      specialize (E k). rewrite G in E |- *. rewrite (get_put _ _ _ string_spec). destruct (String.eqb k c); [reflexivity|exact E].
    + split; [exact N'|]. split; [exact E'|]. intros k. rewrite K', (put_keys _ _ _ string_spec). cbn. split.
      * intros [H|[->|H]]; auto.
      * intros [[->|H]|H]; auto.
Qed.
Lemma all_read_none : forall A B (f : A -> option B) l, all_read f l = None <-> exists a, In a l /\ f a = None.
Proof.
  intros A B f l. induction l as [|a l IH]; cbn.
  - split; [discriminate|]. intros [a [[] _]].
  - destruct (f a) as [b|] eqn:E.
    + destruct (all_read f l) as [bs|].
      * split; [discriminate|]. intros [a' [[->|I] H]]; [congruence|]. exfalso. assert (Some bs = None) by (apply IH; eauto). discriminate.
      * split; [|reflexivity]. intros _. destruct (proj1 IH eq_refl) as [a' [I H]]. eauto.
    + split; [|reflexivity]. intros _. eauto.
Qed.
Lemma parse_sirta_spec : forall lines ts, titles lines ts -> NoDup (map snd ts) ->
  ((~ numbered ts \/ exists l, In l lines /\ bad_stamp to_num to_stamp to_stamp_z (map snd ts) l) ->
     parse lines = Raise ValueError) /\
  (numbered ts -> (forall l, In l lines -> ~ bad_stamp to_num to_stamp to_stamp_z (map snd ts) l) ->
     exists tbl, parse lines = Ok tbl /\ NoDup (map fst tbl) /\
       (forall k, In k (map fst tbl) <-> In k (map snd ts)) /\
       forall i t, nth_error (map snd ts) i = Some t ->
         collects (at_ (length ts) i t) lines (scol tbl t)).
Proof.
  intros lines ts T N. apply titles_iff in T. unfold parse_sirta. rewrite sirta_titles_spec. cbn [length app].
  change (0 + 1) with 1. rewrite <- T. set (cs := map snd ts) in *.
  destruct (number_ok 1 ts) eqn:O; cbn [bind].
  - apply numbered_iff in O. rewrite sirta_rows_spec by exact N.
    destruct (empty_table (@wcell X) cs [] (NoDup_nil _) (fun k => eq_refl)) as [N0 [E0 K0]].
    set (out := fold_left _ cs []) in *. cbn in K0.
    destruct (all_read (line_pairs cs) lines) as [pss|] eqn:A.
    + apply all_read_iff in A. split.
      * intros [H|[l [I H]]]; [contradiction|]. exfalso. apply line_pairs_none in H.
        clear -A I H. induction A; [destruct I|]. destruct I as [->|I]; [congruence|auto].
      * intros _ _. eexists. split; [reflexivity|].
        assert (G : forall ps, In ps pss -> exists l, In l lines /\ line_pairs cs l = Some ps).
        { clear -A. induction A; [intros ps []|]. intros ps [<-|I]; [exists x; split; [left|]; auto|].
          destruct (IHA ps I) as [m [I' H']]. exists m. split; [right|]; auto. }
        assert (GN : forall ps, In ps pss -> NoDup (map fst ps)).
        { intros ps I. destruct (G ps I) as [l [_ H]]. exact (line_pairs_keys _ _ _ N H). }
        destruct (rows_keys pss out cs) as [N1 K1].
        { intros k. rewrite K0. split; [intros [H|[]]; exact H|auto]. }
        { exact N0. }
        { intros ps k I H. destruct (G ps I) as [l [_ Hl]]. unfold line_pairs in Hl. destruct l as [? ?|vs|].
          1,3: injection Hl as <-; destruct H.
          destruct (length cs =? length vs) eqn:L; [|injection Hl as <-; destruct H].
          apply Nat.eqb_eq in L. destruct (pairs_spec _ _ _ L Hl) as [<- _]. exact H. }
        split; [exact N1|]. split; [exact K1|].
        intros i t I. rewrite rows_col by exact GN. rewrite E0. cbn [app].
        replace (length ts) with (length cs) by (unfold cs; apply map_length).
        clear -A N I. induction A as [|l ps lines pss H A IH]; cbn [flat_map]; [constructor|].
        pose proof (fun x => line_pairs_get cs l ps i t x N H I) as P.
        destruct (get String.eqb t ps) as [x|]; cbn [opt_list app].
        -- apply collects_take; [apply P; reflexivity|exact IH].
        -- apply collects_skip; [|exact IH]. intros b Hb. apply P in Hb. discriminate.
    + split; [reflexivity|]. intros _ H. exfalso. apply all_read_none in A. destruct A as [l [I A]].
      apply line_pairs_none in A. exact (H l I A).
  - split; [reflexivity|]. intros H _. exfalso. apply numbered_iff in H. congruence.
Qed.

(** *** Limassol: several files *)
Lemma col_extend : forall k vs (d : table) k', scol (extend k vs d) k' = if String.eqb k k' then (scol d k ++ vs)%list else scol d k'.
Proof.
  intros k vs d k'. unfold col. induction d as [|[k2 c] d IH]; cbn.
  - destruct (String.eqb k' k) eqn:E.
    + apply String.eqb_eq in E. subst. rewrite String.eqb_refl. reflexivity.
    + rewrite String.eqb_sym, E. reflexivity.
  - destruct (String.eqb k k2) eqn:E.
    + apply String.eqb_eq in E. subst k2. cbn. destruct (String.eqb k' k) eqn:F.
      * apply String.eqb_eq in F. subst k'. rewrite String.eqb_refl. reflexivity.
      * rewrite (String.eqb_sym k k'), F. reflexivity.
    + cbn. destruct (String.eqb k' k2) eqn:F; [|exact IH].
      apply String.eqb_eq in F. subst k'. rewrite E. reflexivity.
Qed.
Lemma extend_keys : forall k vs (d : table) k', In k' (map fst (extend k vs d)) <-> k' = k \/ In k' (map fst d).
Proof.
  intros k vs d k'. induction d as [|[k2 c] d IH]; cbn.
  - split; [intros [H|[]]; auto|intros [H|[]]; auto].
  - destruct (String.eqb k k2) eqn:E; cbn.
    + apply String.eqb_eq in E. subst. split; [intros [H|H]; auto|intros [H|[H|H]]; auto].
    + rewrite IH. split; [intros [H|[H|H]]; auto|intros [H|[H|H]]; auto].
Qed.
Lemma extend_nodup : forall k vs (d : table), NoDup (map fst d) -> NoDup (map fst (extend k vs d)).
Proof.
  intros k vs d. induction d as [|[k2 c] d IH]; cbn; intros H.
  - constructor; [intros []|constructor].
  - inversion H; subst. destruct (String.eqb k k2) eqn:E; cbn; constructor; auto.
    intros I. apply extend_keys in I. destruct I as [->|I]; [rewrite String.eqb_refl in E; discriminate|contradiction].
Qed.
Definition merge (data t : table) : table := fold_left (fun d kv => extend (fst kv) (snd kv) d) t data.
Lemma merge_spec : forall (t data : table), NoDup (map fst data) ->
  NoDup (map fst (merge data t)) /\ (forall k, In k (map fst (merge data t)) <-> In k (map fst data) \/ In k (map fst t)) /\
  (NoDup (map fst t) -> forall k, scol (merge data t) k = (scol data k ++ scol t k)%list).
Proof.
  unfold merge. induction t as [|[k2 vs] t IH]; intros data N; cbn [fold_left fst snd].
  - split; [exact N|]. split; [intros k; cbn; split; [auto|intros [H|[]]; exact H]|].
    intros _ k. unfold col at 3; cbn. rewrite app_nil_r. reflexivity.
  - destruct (IH (extend k2 vs data) (extend_nodup _ _ _ N)) as [A [B C]]. split; [exact A|]. split.
    + intros k. rewrite B, extend_keys. cbn. split; [intros [[->|H]|H]; auto|intros [H|[->|H]]; auto].
    + intros NT k. inversion NT as [|? ? NI NT']; subst. rewrite (C NT'), col_extend.
      unfold col at 5; cbn. destruct (String.eqb k2 k) eqn:E.
      * apply String.eqb_eq in E. subst k2. rewrite String.eqb_refl.
        replace (scol t k) with (@nil (@wcell X)); [rewrite app_nil_r; reflexivity|].
        unfold col. rewrite (proj2 (column_of_none _ string_spec t k) NI). reflexivity.
      * rewrite String.eqb_sym, E. reflexivity.
Qed.
Lemma limassol_files_spec : forall files data r, limassol_files to_num to_stamp to_stamp_z files data = Ok r ->
  NoDup (map fst data) -> (forall f t, In f files -> parse f = Ok t -> NoDup (map fst t)) ->
  NoDup (map fst r) /\
  exists tables, Forall2 (fun f t => parse f = Ok t) files tables /\
    (forall k, scol r k = (scol data k ++ List.concat (map (fun t => scol t k) tables))%list) /\
    forall k, In k (map fst r) <-> In k (map fst data) \/ exists t, In t tables /\ In k (map fst t).
Proof.
  induction files as [|f files IH]; intros data r H N F; cbn [limassol_files] in H.
  - injection H as <-. split; [exact N|]. exists []. split; [constructor|]. split.
    + intros k. cbn. rewrite app_nil_r. reflexivity.
    + intros k. split; [auto|intros [K|[t [[] _]]]; exact K].
  - destruct (parse f) as [t|e] eqn:P; cbn [bind] in H; [|discriminate].
    assert (NT : NoDup (map fst t)) by (eapply F; [left; reflexivity|exact P]).
    destruct (merge_spec t data N) as [A [B C]].
    destruct (IH _ _ H A) as [NR [tables [G1 [G2 G3]]]]; [intros; eapply F; [right|]; eassumption|].
    split; [exact NR|]. exists (t :: tables). split; [constructor; assumption|]. split.
    + intros k. rewrite G2. fold (merge data t). rewrite (C NT). cbn. rewrite app_assoc. reflexivity.
    + intros k. rewrite G3. fold (merge data t). rewrite B. split.
      * intros [[K|K]|[t' [I K]]]; [auto|right; exists t; cbn; auto|right; exists t'; cbn; auto].
      * intros [K|[t' [[<-|I] K]]]; [auto|auto|]. right. exists t'. auto.
Qed.
Lemma drop_key_spec : forall k (d : table), NoDup (map fst d) ->
  NoDup (map fst (drop_key k d)) /\ (forall k', In k' (map fst (drop_key k d)) <-> k' <> k /\ In k' (map fst d)) /\
  forall k', k' <> k -> scol (drop_key k d) k' = scol d k'.
Proof.
  intros k d. induction d as [|[k2 c] d IH]; cbn; intros N.
  - split; [constructor|]. split; [intros k'; split; [intros []|intros [_ []]]|reflexivity].
  - inversion N as [|? ? NI N']; subst. destruct (String.eqb k k2) eqn:E.
    + apply String.eqb_eq in E. subst k2. split; [exact N'|]. split.
      * intros k'. split; [intros H; split; [intros ->; contradiction|auto]|intros [H [H'|H']]; [congruence|exact H']].
      * intros k' H. unfold col; cbn. destruct (String.eqb k' k) eqn:F; [apply String.eqb_eq in F; contradiction|reflexivity].
    + destruct (IH N') as [A [B C]]. cbn. split.
      * constructor; [intros H; apply B in H; destruct H; contradiction|exact A].
      * split.
        -- intros k'. rewrite B. split.
           ++ intros [<-|[H H']]; [|auto]. split; [intros ->; rewrite String.eqb_refl in E; discriminate|auto].
           ++ intros [H [H'|H']]; auto.
        -- intros k' H. unfold col in *; cbn. destruct (String.eqb k' k2); [reflexivity|]. apply (C k' H).
Qed.
Lemma column_get : forall A (d : list (string * list A)) k, column_of String.eqb k d = get String.eqb k d.
Proof. intros A d k. induction d as [|[k2 c2] d IH]; cbn; [reflexivity|]. rewrite IH. reflexivity. Qed.
Lemma limassol_spec : forall files r, limassol to_num to_stamp to_stamp_z files = Ok r ->
  (forall f t, In f files -> parse f = Ok t -> NoDup (map fst t)) ->
  NoDup (map fst r) /\
  exists tables, Forall2 (fun f t => parse f = Ok t) files tables /\
    (exists t, In t tables /\ In date_title (map fst t)) /\
    scol r "time" = List.concat (map (fun t => scol t date_title) tables) /\
    forall k, k <> "time" -> k <> date_title -> scol r k = List.concat (map (fun t => scol t k) tables).
Proof.
  intros files r H F. unfold limassol in H.
  destruct (limassol_files to_num to_stamp to_stamp_z files []) as [data|e] eqn:L; cbn [bind] in H; [|discriminate].
  destruct (limassol_files_spec _ _ _ L (NoDup_nil _) F) as [N [tables [G1 [G2 G3]]]].
  destruct (column_of String.eqb date_title data) as [t|] eqn:C; [|discriminate]. injection H as <-.
  destruct (drop_key_spec date_title data N) as [A [B D]].
  split; [apply (put_nodup _ _ _ string_spec); exact A|]. exists tables. split; [exact G1|]. split.
  { assert (I : In date_title (map fst data)).
    { apply column_of_in in C; [|exact string_spec]. apply in_map_iff. exists (date_title, t). auto. }
    apply G3 in I. destruct I as [[]|[t' [I K]]]. eauto. }
  assert (P : forall k, scol (put String.eqb "time" t (drop_key date_title data)) k =
     if String.eqb k "time" then t else scol (drop_key date_title data) k).
  { intros k. unfold col. rewrite !column_get, (get_put _ _ _ string_spec). destruct (String.eqb k "time"); reflexivity. }
  split.
  - rewrite P. transitivity (scol data date_title); [unfold col; rewrite C; reflexivity|exact (G2 date_title)].
  - intros k K1 K2. rewrite P. destruct (String.eqb k "time") eqn:E; [apply String.eqb_eq in E; contradiction|].
    rewrite D by exact K2. rewrite G2. reflexivity.
Qed.
Lemma parse_ok : forall f ts t, titles f ts -> NoDup (map snd ts) -> parse f = Ok t ->
  numbered ts /\ (forall l, In l f -> ~ bad_stamp to_num to_stamp to_stamp_z (map snd ts) l) /\
  NoDup (map fst t) /\ (forall k, In k (map fst t) <-> In k (map snd ts)) /\
  forall i k, nth_error (map snd ts) i = Some k -> collects (at_ (length ts) i k) f (scol t k).
Proof.
  intros f ts t T N P. destruct (parse_sirta_spec f ts T N) as [A B].
  assert (O : numbered ts).
  { destruct (number_ok 1 ts) eqn:O; [apply numbered_iff; exact O|]. exfalso.
    rewrite A in P; [discriminate|]. left. intros H. apply numbered_iff in H. congruence. }
  assert (S : forall l, In l f -> ~ bad_stamp to_num to_stamp to_stamp_z (map snd ts) l).
  { intros l I H. rewrite A in P; [discriminate|]. right. eauto. }
  destruct (B O S) as [t' [E [G1 [G2 G3]]]]. assert (t' = t) by congruence. subst t'. auto.
Qed.
Lemma full_line : forall f ts i k l vs, (forall l, In l f -> ~ bad_stamp to_num to_stamp to_stamp_z ts l) ->
  In l f -> l = SValues vs -> length vs = length ts -> nth_error ts i = Some k ->
  exists x, at_ (length ts) i k l x.
Proof.
  intros f ts i k l vs S I -> L K.
  destruct (nth_error vs i) as [v|] eqn:V.
  2:{ apply nth_error_None in V. assert (i < length ts) by (apply nth_error_Some; congruence). lia. }
  destruct (value k v) as [x|] eqn:E.
  - exists x, vs, v. apply sirta_value_iff in E. auto.
  - exfalso. apply (S _ I). exists vs, i, k, v. repeat split; try assumption.
    intros x H. apply sirta_value_iff in H. congruence.
Qed.
Lemma limassol_aligned : forall files ts r i k, NoDup ts ->
  (forall f, In f files -> exists nts, titles f nts /\ map snd nts = ts) ->
  limassol to_num to_stamp to_stamp_z files = Ok r ->
  nth_error ts i = Some k -> k <> "time" -> k <> date_title ->
  exists p, nth_error ts p = Some date_title /\
    collects (at_ (length ts) p date_title) (List.concat files) (scol r "time") /\
    collects (at_ (length ts) i k) (List.concat files) (scol r k) /\
    length (scol r k) = length (scol r "time") /\
    collects (fun l x => at_ (length ts) p date_title l (fst x) /\ at_ (length ts) i k l (snd x))
      (List.concat files) (combine (scol r "time") (scol r k)).
Proof.
  intros files ts r i k N F H K1 K2 K3.
  assert (Q : forall f t, In f files -> parse f = Ok t ->
    (forall l, In l f -> ~ bad_stamp to_num to_stamp to_stamp_z ts l) /\ NoDup (map fst t) /\
    (forall k, In k (map fst t) <-> In k ts) /\
    forall i k, nth_error ts i = Some k -> collects (at_ (length ts) i k) f (scol t k)).
  { intros f t I P. destruct (F f I) as [nts [T E]]. rewrite <- E in *.
    destruct (parse_ok f nts t T N P) as [_ [A [B [C D]]]]. rewrite map_length. auto. }
  destruct (limassol_spec files r H) as [_ [tables [P [[t [It Kt]] [TC CC]]]]].
  { intros f t I P. destruct (Q f t I P) as [_ [B _]]. exact B. }
  assert (D : In date_title ts).
  { clear -P It Kt Q. induction P as [|f t' files tables Pf P IH]; [destruct It|]. destruct It as [->|It].
    - destruct (Q f t (or_introl eq_refl) Pf) as [_ [_ [C _]]]. apply C. exact Kt.
    - apply IH; [|exact It]. intros f' t2 I. apply Q. right. exact I. }
  apply In_nth_error in D. destruct D as [p D]. exists p. split; [exact D|].
  assert (Cc : forall j c, nth_error ts j = Some c ->
     collects (at_ (length ts) j c) (List.concat files) (List.concat (map (fun t => scol t c) tables))).
  { intros j c J. clear -P J Q. induction P as [|f t' files tables Pf P IH]; [constructor|]. cbn [List.concat map].
    apply collects_app; [apply (Q f t'); [left; reflexivity|exact Pf|exact J]|].
    apply IH. intros f' t2 I. apply Q. right. exact I. }
  pose proof (Cc p date_title D) as C1. pose proof (Cc i k K1) as C2.
  rewrite <- TC in C1. rewrite <- (CC k K2 K3) in C2. split; [exact C1|]. split; [exact C2|].
  assert (S : forall l, In l (List.concat files) -> exists f, In f files /\ In l f).
  { intros l I. apply in_concat in I. destruct I as [f [I1 I2]]. eauto. }
  assert (W : forall l, In l (List.concat files) -> (exists x, at_ (length ts) p date_title l x) <-> (exists x, at_ (length ts) i k l x)).
  { intros l I. destruct (S l I) as [f [If Il]].
    assert (exists t, parse f = Ok t) as [t' Pt].
    { clear -P If. induction P; [destruct If|]. destruct If as [->|If]; [eauto|]. auto. }
    destruct (Q f t' If Pt) as [B _]. split; intros [x [vs [v [E [L _]]]]].
    - eapply full_line; eassumption.
    - eapply full_line; eassumption. }
  split.
  - symmetry. eapply collects_same_length; [exact W|exact C1|exact C2].
  - apply collects_combine; assumption.
Qed.

(** ** Kenttärova *)
Notation kmeaning := (kent_meaning to_num to_stamp).
Fixpoint kres (items : list (string * option string)) (extra : bool) : option (list (string * @wcell X)) :=
  match items with
  | [] => if extra then None else Some []
  | (k, None) :: _ => None
  | (k, Some v) :: r =>
      if String.eqb k kent_time then
        match to_stamp v with
        | Some t => option_map (cons (k, WTime t)) (kres r extra)
        | None => Some []
        end
      else option_map (cons (k, num_or_nan to_num v)) (kres r extra)
  end.
Lemma kent_items_res : forall items extra (raw : table), kent_items to_num to_stamp items extra raw =
  match kres items extra with
  | Some ps => Ok (fold_left (fun d kv => push String.eqb (fst kv) (snd kv) d) ps raw)
  | None => Raise TypeError
  end.
Proof.
  induction items as [|[k [v|]] items IH]; intros extra raw; cbn [kent_items kres]; [destruct extra; reflexivity| |reflexivity].
  destruct (String.eqb k kent_time).
  - destruct (to_stamp v); [|reflexivity]. rewrite IH. destruct (kres items extra); reflexivity.
  - rewrite IH. destruct (kres items extra); reflexivity.
Qed.
Lemma kres_nth : forall items extra ps, kres items extra = Some ps -> forall i k x,
  nth_error ps i = Some (k, x) <->
  exists w, nth_error items i = Some (k, Some w) /\ kmeaning k w x /\
    forall j s, j < i -> nth_error items j = Some (kent_time, Some s) -> exists t, to_stamp s = Some t.
Proof.
  induction items as [|[k0 [v|]] items IH]; intros extra ps H i k x; cbn [kres] in H; [| |discriminate].
  - destruct extra; [discriminate|]. injection H as <-. split.
    + destruct i; discriminate.
    + intros [w [E _]]. destruct i; discriminate.
  - destruct (String.eqb k0 kent_time) eqn:E.
    + apply String.eqb_eq in E. subst k0. destruct (to_stamp v) as [t|] eqn:T.
      * destruct (kres items extra) as [ps'|] eqn:R; [|discriminate]. injection H as <-.
        destruct i as [|i]; cbn [nth_error].
        -- split.
           ++ intros H. injection H as <- <-. exists v. split; [reflexivity|]. split; [constructor; [reflexivity|exact T]|lia].
           ++ intros [w [H1 [H2 _]]]. injection H1 as <- <-. destruct H2 as [t' _ H2|x N _]; [congruence|exfalso; apply N; reflexivity].
        -- rewrite (IH extra ps' R i k x). split.
           ++ intros [w [H1 [H2 H3]]]. exists w. split; [exact H1|]. split; [exact H2|].
              intros [|j] s J Hs; cbn in Hs; [injection Hs as <-; eauto|]. apply (H3 j s); [lia|exact Hs].
           ++ intros [w [H1 [H2 H3]]]. exists w. split; [exact H1|]. split; [exact H2|].
              intros j s J Hs. apply (H3 (S j) s); [lia|exact Hs].
      * injection H as <-. split; [destruct i; discriminate|].
        intros [w [H1 [H2 H3]]]. exfalso. destruct i as [|i]; cbn in H1.
        -- injection H1 as <- <-. destruct H2 as [t' _ H2|x N _]; [congruence|apply N; reflexivity].
        -- destruct (H3 0 v) as [t Ht]; [lia|reflexivity|congruence].
    + destruct (kres items extra) as [ps'|] eqn:R; [|discriminate]. injection H as <-.
      destruct i as [|i]; cbn [nth_error].
      * split.
        -- intros H. injection H as <- <-. exists v. split; [reflexivity|]. split; [|lia].
           apply km_number; [intros ->; discriminate|]. apply number_iff. reflexivity.
        -- intros [w [H1 [H2 _]]]. injection H1 as <- <-. destruct H2 as [t' Hk _|x N Hn]; [rewrite Hk in E; discriminate|].
           apply number_iff in Hn. rewrite Hn. reflexivity.
      * rewrite (IH extra ps' R i k x). split.
        -- intros [w [H1 [H2 H3]]]. exists w. split; [exact H1|]. split; [exact H2|].
           intros [|j] s J Hs; cbn in Hs; [injection Hs as -> _; discriminate|]. apply (H3 j s); [lia|exact Hs].
        -- intros [w [H1 [H2 H3]]]. exists w. split; [exact H1|]. split; [exact H2|].
           intros j s J Hs. apply (H3 (S j) s); [lia|exact Hs].
Qed.
Lemma kres_none : forall items extra,
  (forall i j k k' w, i < j -> nth_error items i = Some (k, None) -> nth_error items j = Some (k', w) -> w = None) ->
  kres items extra = None <->
  (extra = true \/ exists i k, nth_error items i = Some (k, None)) /\
  (forall j s, nth_error items j = Some (kent_time, Some s) -> exists t, to_stamp s = Some t).
Proof.
  induction items as [|[k0 [v|]] items IH]; intros extra Z; cbn [kres].
  - destruct extra; split; try discriminate; try reflexivity.
    + intros _. split; [left; reflexivity|]. intros [|j] s H; discriminate.
    + intros [[H|[[|i] [k H]]] _]; discriminate.
  - assert (IH' := IH extra (fun i j k k' w L H1 H2 => Z (S i) (S j) k k' w (proj1 (Nat.succ_lt_mono i j) L) H1 H2)). clear IH.
    assert (Step : (extra = true \/ exists i k, nth_error ((k0, Some v) :: items) i = Some (k, None)) <->
                   (extra = true \/ exists i k, nth_error items i = Some (k, None))).
    { split; (intros [H|[i [k H]]]; [left; exact H|right]).
      - destruct i as [|i]; cbn in H; [discriminate|]. eauto.
      - exists (S i), k. exact H. }
    rewrite Step. destruct (String.eqb k0 kent_time) eqn:E.
    + apply String.eqb_eq in E. subst k0. destruct (to_stamp v) as [t|] eqn:T.
      * transitivity (kres items extra = None); [destruct (kres items extra); cbn [option_map]; split; congruence|].
        rewrite IH'. split; intros [A B]; (split; [exact A|]).
        -- intros [|j] s H; cbn in H; [injection H as <-; eauto|]. apply (B j s H).
        -- intros j s H. apply (B (S j) s H).
      * split; [discriminate|]. intros [_ B]. destruct (B 0 v eq_refl) as [t Ht]. congruence.
    + transitivity (kres items extra = None); [destruct (kres items extra); cbn [option_map]; split; congruence|].
      rewrite IH'. split; intros [A B]; (split; [exact A|]).
      * intros [|j] s H; cbn in H; [injection H as -> _; discriminate|]. apply (B j s H).
      * intros j s H. apply (B (S j) s H).
  - split; [|reflexivity]. intros _. split; [right; exists 0, k0; reflexivity|].
    intros [|j] s H; [discriminate|]. specialize (Z 0 (S j) k0 kent_time (Some s)). exfalso.
    assert (Some s = None); [|discriminate]. apply Z; [lia|reflexivity|exact H].
Qed.
Lemma put_fresh : forall A (l d : list (string * A)), NoDup (map fst d ++ map fst l)%list ->
  fold_left (fun d kv => put String.eqb (fst kv) (snd kv) d) l d = (d ++ l)%list.
Proof.
  intros A l. induction l as [|[k v] l IH]; intros d N; cbn [fold_left fst snd]; [rewrite app_nil_r; reflexivity|].
  assert (E : put String.eqb k v d = (d ++ [(k, v)])%list).
  { cbn in N. apply NoDup_remove_2 in N. assert (NI : ~ In k (map fst d)) by (intros H; apply N; apply in_or_app; auto).
    clear -NI. induction d as [|[k2 w] d IH]; cbn; [reflexivity|].
    destruct (String.eqb k k2) eqn:E; [apply String.eqb_eq in E; subst; exfalso; apply NI; left; reflexivity|].
    rewrite IH; [reflexivity|]. intros H. apply NI. right. exact H. }
  rewrite E, IH.
  - rewrite <- app_assoc. reflexivity.
  - rewrite map_app. cbn. rewrite <- app_assoc. exact N.
Qed.
Lemma combine_fst : forall A B (l : list A) (m : list B), length l <= length m -> map fst (combine l m) = l.
Proof.
  intros A B l. induction l as [|a l IH]; intros m H; [reflexivity|]. destruct m as [|b m]; cbn in *; [lia|].
  rewrite IH by lia. reflexivity.
Qed.
Definition kitems (fields row : list string) : list (string * option string) :=
  combine fields (map Some row ++ repeat None (length fields - length row))%list.
Lemma dict_row_eq : forall fields row, NoDup fields ->
  dict_row fields row = (kitems fields row, length fields <? length row).
Proof.
  intros fields row N. unfold dict_row. f_equal. apply put_fresh. cbn.
  rewrite combine_fst; [exact N|]. rewrite app_length, map_length, repeat_length. lia.
Qed.
Lemma nth_kitems : forall fields row i k o, nth_error (kitems fields row) i = Some (k, o) <->
  nth_error fields i = Some k /\ nth_error row i = o.
Proof.
  unfold kitems. induction fields as [|f fields IH]; intros row i k o.
  - cbn. split; [destruct i; discriminate|intros [H _]; destruct i; discriminate].
  - destruct row as [|w row].
    + cbn [map app length Nat.sub repeat combine]. destruct i as [|i]; cbn [nth_error].
      * split; [intros H; injection H as <- <-; auto|intros [H <-]; congruence].
      * specialize (IH [] i k o). cbn [map app length Nat.sub] in IH. rewrite Nat.sub_0_r in IH. rewrite IH.
        destruct i; cbn; reflexivity.
    + cbn [map app length Nat.sub combine]. destruct i as [|i]; cbn [nth_error].
      * split; [intros H; injection H as <- <-; auto|intros [H <-]; congruence].
      * apply IH.
Qed.
Lemma kres_row : forall fields p row, NoDup fields -> nth_error fields p = Some kent_time ->
  (kent_good to_stamp fields p row <-> kres (kitems fields row) (length fields <? length row) <> None).
Proof.
  intros fields p row N P.
  assert (PL : p < length fields) by (apply nth_error_Some; congruence).
  assert (Z : kres (kitems fields row) (length fields <? length row) = None <->
    length row <> length fields /\ forall w, nth_error row p = Some w -> exists t, to_stamp w = Some t).
  { rewrite kres_none.
    - split; intros [A B]; split.
      + destruct A as [A|[i [k A]]]; [apply Nat.ltb_lt in A; lia|].
        apply nth_kitems in A. destruct A as [A1 A2]. apply nth_error_None in A2.
        assert (i < length fields) by (apply nth_error_Some; congruence). lia.
      + intros w W. apply (B p w). apply nth_kitems. auto.
      + destruct (Nat.lt_ge_cases (length fields) (length row)) as [L|L]; [left; apply Nat.ltb_lt; exact L|right].
        destruct (nth_error fields (length row)) as [k|] eqn:E.
        * exists (length row), k. apply nth_kitems. split; [exact E|]. apply nth_error_None. lia.
        * apply nth_error_None in E. lia.
      + intros j s H. apply nth_kitems in H. destruct H as [H1 H2].
        assert (p = j) by exact (nodup_nth _ fields p j _ N P H1). subst j. apply (B s H2).
    - intros i j k k' w L H1 H2. apply nth_kitems in H1, H2. destruct H1 as [_ H1]. destruct H2 as [_ <-].
      apply nth_error_None in H1. apply nth_error_None. lia. }
  rewrite Z. unfold kent_good. split.
  - intros [H|[w [H1 H2]]] [A B]; [congruence|]. destruct (B w H1) as [t Ht]. congruence.
  - intros H. destruct (Nat.eq_dec (length row) (length fields)) as [E|E]; [left; exact E|right].
    destruct (nth_error row p) as [w|] eqn:W.
    + exists w. split; [reflexivity|]. destruct (to_stamp w) as [t|] eqn:T; [|reflexivity].
      exfalso. apply H. split; [exact E|]. intros w' W'. assert (w' = w) by congruence. subst. eauto.
    + exfalso. apply H. split; [exact E|]. intros w' W'. discriminate.
Qed.
Definition nonblank (row : list string) : bool := match row with [] => false | _ => true end.
Definition kent_row_ps (fields row : list string) : option (list (string * @wcell X)) :=
  if nonblank row then kres (kitems fields row) (length fields <? length row) else Some [].
Lemma kent_rows_spec : forall fields rows (raw : table), NoDup fields ->
  kent_rows to_num to_stamp fields rows raw =
  match all_read (kent_row_ps fields) rows with
  | Some pss => Ok (fold_left (fun d ps => fold_left (fun d kv => push String.eqb (fst kv) (snd kv) d) ps d) pss raw)
  | None => Raise TypeError
  end.
Proof.
  intros fields rows. induction rows as [|row rows IH]; intros raw N; [reflexivity|].
  destruct row as [|w row].
  - cbn [kent_rows all_read]. rewrite (IH raw N). cbn [kent_row_ps nonblank]. destruct (all_read _ rows); reflexivity.
  - cbn [kent_rows all_read kent_row_ps nonblank]. rewrite (dict_row_eq _ _ N). rewrite kent_items_res.
    destruct (kres _ _) as [ps|]; cbn [bind]; [|reflexivity]. rewrite (IH _ N). destruct (all_read _ rows); reflexivity.
Qed.
Lemma kent_row_keys : forall fields row ps, NoDup fields -> kent_row_ps fields row = Some ps ->
  NoDup (map fst ps) /\ forall k, In k (map fst ps) -> In k fields.
Proof.
  intros fields row ps N H. unfold kent_row_ps in H. destruct (nonblank row).
  2:{ injection H as <-. split; [constructor|intros k []]. }
  pose proof (kres_nth _ _ _ H) as A.
  assert (B : forall i k, nth_error (map fst ps) i = Some k -> nth_error fields i = Some k).
  { intros i k E. destruct (nth_error ps i) as [[k' x]|] eqn:F.
    - rewrite (map_nth_error fst _ _ F) in E. cbn in E. injection E as <-.
      apply A in F. destruct F as [w [F _]]. apply nth_kitems in F. apply F.
    - apply nth_error_None in F. assert (i < length (map fst ps)) by (apply nth_error_Some; congruence).
      rewrite map_length in *. lia. }
  split.
  - apply NoDup_nth_error. intros i j L E. destruct (nth_error (map fst ps) i) as [k|] eqn:F.
    2:{ apply nth_error_None in F. lia. }
    exact (nodup_nth _ fields i j k N (B _ _ F) (B _ _ (eq_sym E))).
  - intros k I. apply In_nth_error in I. destruct I as [i E]. eapply nth_error_In. apply B. exact E.
Qed.
Lemma kent_row_get : forall fields row ps p i k x, NoDup fields -> nth_error fields p = Some kent_time ->
  nth_error fields i = Some k -> kent_row_ps fields row = Some ps ->
  get String.eqb k ps = Some x <-> kent_kept to_num to_stamp p i k row x.
Proof.
  intros fields row ps p i k x N P I H. destruct (kent_row_keys _ _ _ N H) as [NP _]. rewrite (get_nth _ _ _ _ NP).
  unfold kent_kept, kent_at. unfold kent_row_ps in H. destruct row as [|w0 row]; cbn [nonblank] in H.
  { injection H as <-. split; [intros [[|j] E]; discriminate|]. intros [[w [E _]] _]. destruct i; discriminate. }
  set (r := w0 :: row) in *. clearbody r. pose proof (kres_nth _ _ _ H) as A.
  assert (Q : forall j, nth_error ps j = Some (k, x) -> j = i).
  { intros j E. apply A in E. destruct E as [w [E _]]. apply nth_kitems in E. destruct E as [E _].
    exact (nodup_nth _ fields j i k N E I). }
  split.
  - intros [j E]. assert (j = i) by auto. subst j. apply A in E. destruct E as [w [E [M B]]].
    apply nth_kitems in E. destruct E as [_ E]. split; [exists w; auto|].
    intros L. unfold readable_time. destruct (Nat.eq_dec p i) as [->|D].
    + assert (k = kent_time) by congruence. subst k. destruct M as [t _ M|x M _]; [eauto|exfalso; apply M; reflexivity].
    + destruct (nth_error r p) as [s|] eqn:R.
      * destruct (B p s) as [t T]; [lia|apply nth_kitems; auto|]. eauto.
      * apply nth_error_None in R. assert (i < length r) by (apply nth_error_Some; congruence). lia.
  - intros [[w [W M]] L]. exists i. apply A. exists w. split; [apply nth_kitems; auto|]. split; [exact M|].
    intros j s J E. apply nth_kitems in E. destruct E as [E1 E2].
    assert (p = j) by exact (nodup_nth _ fields p j _ N P E1). subst j.
    destruct (L (Nat.lt_le_incl _ _ J)) as [w' [t [W' T]]]. assert (w' = s) by congruence. subst w'. eauto.
Qed.
Lemma kent_rows_table : forall fields rows p, NoDup fields -> nth_error fields p = Some kent_time ->
  (forall row, In row rows -> row <> [] -> kent_good to_stamp fields p row) ->
  exists raw, kent_rows to_num to_stamp fields rows (fold_left (fun d c => put String.eqb c [] d) fields []) = Ok raw /\
    NoDup (map fst raw) /\ (forall k, In k (map fst raw) <-> In k fields) /\
    forall i k, nth_error fields i = Some k -> collects (kent_kept to_num to_stamp p i k) rows (scol raw k).
Proof.
  intros fields rows p N P G. rewrite kent_rows_spec by exact N.
  destruct (empty_table (@wcell X) fields [] (NoDup_nil _) (fun k => eq_refl)) as [N0 [E0 K0]].
  set (out := fold_left _ fields []) in *. cbn in K0.
  destruct (all_read (kent_row_ps fields) rows) as [pss|] eqn:A.
  - apply all_read_iff in A. eexists. split; [reflexivity|].
    assert (GG : forall ps, In ps pss -> exists l, In l rows /\ kent_row_ps fields l = Some ps).
    { clear -A. induction A as [|r ps rows pss H A IH]; [intros ps []|]. intros ps' [<-|I]; [exists r; split; [left|]; auto|].
      destruct (IH ps' I) as [m [I' H']]. exists m. split; [right|]; auto. }
    assert (GN : forall ps, In ps pss -> NoDup (map fst ps) /\ forall k, In k (map fst ps) -> In k fields).
    { intros ps I. destruct (GG ps I) as [l [_ H]]. exact (kent_row_keys _ _ _ N H). }
    destruct (rows_keys pss out fields) as [N1 K1].
    { intros k. rewrite K0. split; [intros [H|[]]; exact H|auto]. }
    { exact N0. }
    { intros ps k I H. apply (GN ps I). exact H. }
    split; [exact N1|]. split; [exact K1|].
    intros i k I. rewrite rows_col by (intros ps Ip; apply (GN ps Ip)). rewrite E0. cbn [app].
    clear -A N I P. induction A as [|l ps lines pss H A IH]; cbn [flat_map]; [constructor|].
    pose proof (fun x => kent_row_get fields l ps p i k x N P I H) as B.
    destruct (get String.eqb k ps) as [x|]; cbn [opt_list app].
    + apply collects_take; [apply B; reflexivity|exact IH].
    + apply collects_skip; [|exact IH]. intros b Hb. apply B in Hb. discriminate.
  - exfalso. apply all_read_none in A. destruct A as [row [I A]]. unfold kent_row_ps in A.
    destruct row as [|w row]; cbn [nonblank] in A; [discriminate|].
    apply (proj1 (kres_row fields p (w :: row) N P)) in A; [exact A|]. apply G; [exact I|discriminate].
Qed.
Lemma kent_rows_error : forall fields rows p raw, NoDup fields -> nth_error fields p = Some kent_time ->
  (exists row, In row rows /\ row <> [] /\ ~ kent_good to_stamp fields p row) ->
  kent_rows to_num to_stamp fields rows raw = Raise TypeError.
Proof.
  intros fields rows p raw N P [row [I [NE B]]]. rewrite kent_rows_spec by exact N.
  assert (all_read (kent_row_ps fields) rows = None) as ->; [|reflexivity].
  apply all_read_none. exists row. split; [exact I|]. unfold kent_row_ps. destruct row as [|w row]; [congruence|]. cbn [nonblank].
  destruct (kres _ _) eqn:E; [|reflexivity]. exfalso. apply B. apply (kres_row fields p (w :: row) N P). congruence.
Qed.
Lemma kent_pick_spec : forall keys (raw : table),
  ((exists nk, In nk keys /\ ~ In (snd nk) (map fst raw)) -> kent_pick keys raw = Raise KeyError) /\
  ((forall nk, In nk keys -> In (snd nk) (map fst raw)) ->
     kent_pick keys raw = Ok (map (fun nk => (fst nk, scol raw (snd nk))) keys)).
Proof.
  induction keys as [|[n k] keys IH]; intros raw; cbn [kent_pick map fst snd].
  - split; [intros [nk [[] _]]|reflexivity].
  - destruct (IH raw) as [A B]. destruct (column_of String.eqb k raw) as [c|] eqn:C.
    + assert (K : In k (map fst raw)).
      { apply (column_of_in _ string_spec) in C. apply in_map_iff. exists (k, c). auto. }
      split.
      * intros [nk [[<-|I] H]]; [contradiction|]. rewrite A; [reflexivity|eauto].
      * intros H. rewrite B by (intros; apply H; right; assumption). cbn [bind]. unfold col at 2. rewrite C. reflexivity.
    + split; [reflexivity|]. intros H. exfalso. apply (column_of_none _ string_spec) in C. apply C.
      apply (H (n, k)). left. reflexivity.
Qed.
Notation kfile := (kent_file to_num to_stamp).
Lemma kent_file_spec : forall fields rows p, NoDup fields -> nth_error fields p = Some kent_time ->
  (forall row, In row rows -> row <> [] -> kent_good to_stamp fields p row) ->
  ((exists nk, In nk kent_keys /\ ~ In (snd nk) fields) -> kfile fields rows = Raise KeyError) /\
  ((forall nk, In nk kent_keys -> In (snd nk) fields) ->
    exists t, kfile fields rows = Ok t /\ map fst t = map fst kent_keys /\
      forall n k i, In (n, k) kent_keys -> nth_error fields i = Some k -> collects (kent_kept to_num to_stamp p i k) rows (scol t n)).
Proof.
  intros fields rows p N P G. unfold kent_file.
  destruct (kent_rows_table fields rows p N P G) as [raw [E [NR [K C]]]]. rewrite E. cbn [bind].
  destruct (kent_pick_spec kent_keys raw) as [A B]. split.
  - intros [nk [I H]]. apply A. exists nk. split; [exact I|]. rewrite K. exact H.
  - intros H. eexists. split; [apply B; intros nk I; apply K, H, I|].
    rewrite map_map. cbn [fst]. split; [reflexivity|].
    intros n k i I J. assert (scol (map (fun nk => (fst nk, scol raw (snd nk))) kent_keys) n = scol raw k) as ->; [|apply C; exact J].
    unfold kent_keys in I |- *.
    repeat (destruct I as [I|I]; [injection I as <- <-; reflexivity|]). destruct I.
Qed.
Lemma kent_file_error : forall fields rows p, NoDup fields -> nth_error fields p = Some kent_time ->
  (exists row, In row rows /\ row <> [] /\ ~ kent_good to_stamp fields p row) -> kfile fields rows = Raise TypeError.
Proof.
  intros fields rows p N P B. unfold kent_file. rewrite (kent_rows_error _ _ _ _ N P B). reflexivity.
Qed.
Lemma col_join : forall (g : string -> list (@wcell X)) (d : table) k, In k (map fst d) ->
  scol (map (fun kc => (fst kc, snd kc ++ g (fst kc))%list) d) k = (scol d k ++ g k)%list.
Proof.
  intros g d k. unfold col. induction d as [|[k2 c] d IH]; cbn; [intros []|].
  destruct (String.eqb k k2) eqn:E.
  - apply String.eqb_eq in E. subst k2. reflexivity.
  - intros [->|I]; [rewrite String.eqb_refl in E; discriminate|]. apply IH. exact I.
Qed.
Lemma kent_file_names : forall fields rows t, kfile fields rows = Ok t -> map fst t = map fst kent_keys.
Proof.
  intros fields rows t H. unfold kent_file in H. destruct (kent_rows _ _ _ _ _) as [raw|e]; cbn [bind] in H; [|discriminate].
  destruct (kent_pick_spec kent_keys raw) as [A B].
  assert (D : (exists nk, In nk kent_keys /\ ~ In (snd nk) (map fst raw)) \/ (forall nk, In nk kent_keys -> In (snd nk) (map fst raw))).
  { clear. induction kent_keys as [|nk keys IH]; [right; intros nk []|].
    destruct (in_dec string_dec (snd nk) (map fst raw)) as [I|I].
    - destruct IH as [[nk' [J N]]|IH]; [left; exists nk'; split; [right|]; assumption|].
      right. intros nk' [<-|J]; auto.
    - left. exists nk. split; [left; reflexivity|exact I]. }
  destruct D as [D|D]; [rewrite (A D) in H; discriminate|]. rewrite (B D) in H. injection H as <-. reflexivity.
Qed.
Lemma kent_files_cons : forall files merged r, kent_files to_num to_stamp files merged = Ok r ->
  map fst merged = map fst kent_keys ->
  map fst r = map fst kent_keys /\
  exists tables, Forall2 (fun f t => kfile (fst f) (snd f) = Ok t) files tables /\
    forall n, In n (map fst kent_keys) -> scol r n = (scol merged n ++ List.concat (map (fun t => scol t n) tables))%list.
Proof.
  induction files as [|[fields rows] files IH]; intros merged r H M; cbn [kent_files] in H.
  - injection H as <-. split; [exact M|]. exists []. split; [constructor|]. intros n _. cbn. rewrite app_nil_r. reflexivity.
  - destruct (kfile fields rows) as [data|e] eqn:E; cbn [bind] in H; [|discriminate].
    destruct merged as [|m0 merged]; [discriminate M|]. set (mm := m0 :: merged) in *.
    change (kent_files to_num to_stamp files (map (fun kc => (fst kc, snd kc ++ scol data (fst kc))%list) mm) = Ok r) in H.
    destruct (IH _ _ H) as [N [tables [F C]]]; [rewrite map_map; exact M|]. split; [exact N|].
    exists (data :: tables). split; [constructor; [exact E|exact F]|].
    intros n I. rewrite (C n I). rewrite (col_join (scol data)) by (rewrite M; exact I). cbn. rewrite app_assoc. reflexivity.
Qed.
Lemma kenttarova_spec : forall files r, files <> [] -> kenttarova to_num to_stamp files = Ok r ->
  NoDup (map fst r) /\
  exists tables, Forall2 (fun f t => kfile (fst f) (snd f) = Ok t) files tables /\
    forall n, In n (map fst kent_keys) -> scol r n = List.concat (map (fun t => scol t n) tables).
Proof.
  intros files r NE H. destruct files as [|[fields rows] files]; [congruence|]. unfold kenttarova in H. cbn [kent_files] in H.
  destruct (kfile fields rows) as [data|e] eqn:E; cbn [bind] in H; [|discriminate].
  pose proof (kent_file_names _ _ _ E) as M. destruct (kent_files_cons _ _ _ H M) as [N [tables [F C]]]. split.
  - rewrite N. unfold kent_keys. cbn. repeat constructor; cbn; intros I; repeat (destruct I as [I|I]; [discriminate I|]); destruct I.
  - exists (data :: tables). split; [constructor; [exact E|exact F]|]. intros n I. rewrite (C n I). reflexivity.
Qed.
Lemma kenttarova_aligned : forall files r n k, files <> [] -> kenttarova to_num to_stamp files = Ok r ->
  (forall f, In f files -> NoDup (fst f) /\ nth_error (fst f) 0 = Some kent_time /\
     forall row, In row (snd f) -> row = [] \/ length row = length (fst f)) ->
  In (n, k) kent_keys ->
  let value_in f row x := exists i, nth_error f i = Some k /\ kent_at to_num to_stamp k i row x /\ readable_time to_stamp 0 row in
  let frows := List.concat (map (fun f => map (pair (fst f)) (snd f)) files) in
  collects (fun fr x => kent_at to_num to_stamp kent_time 0 (snd fr) x) frows (scol r "time") /\
  collects (fun fr x => value_in (fst fr) (snd fr) x) frows (scol r n) /\
  length (scol r n) = length (scol r "time").
Proof.
  intros files r n k NE H F I value_in frows. destruct (kenttarova_spec files r NE H) as [_ [tables [P C]]].
  assert (T0 : In ("time", kent_time) kent_keys) by (left; reflexivity).
  assert (In n (map fst kent_keys)) as In1 by (apply in_map_iff; exists (n, k); auto).
  assert (In "time" (map fst kent_keys)) as In2 by (left; reflexivity).
  rewrite (C n In1), (C "time" In2). clear C H NE.
  assert (Key : forall f t, In f files -> kfile (fst f) (snd f) = Ok t -> forall n k, In (n, k) kent_keys ->
     exists i, nth_error (fst f) i = Some k /\ collects (kent_kept to_num to_stamp 0 i k) (snd f) (scol t n)).
  { intros f t If Pf n' k' I'. destruct (F f If) as [N [P0 L]].
    assert (G : forall row, In row (snd f) -> row <> [] -> kent_good to_stamp (fst f) 0 row).
    { intros row Ir NEr. left. destruct (L row Ir); [contradiction|assumption]. }
    destruct (kent_file_spec (fst f) (snd f) 0 N P0 G) as [A B].
    assert (D : forall nk, In nk kent_keys -> In (snd nk) (fst f)).
    { intros nk J. destruct (in_dec string_dec (snd nk) (fst f)) as [Y|Y]; [exact Y|]. rewrite A in Pf; [discriminate|eauto]. }
    destruct (B D) as [t' [E [_ C]]]. assert (t' = t) by congruence. subst t'.
    pose proof (D (n', k') I') as J. apply In_nth_error in J. destruct J as [i J]. exists i. split; [exact J|]. apply (C n' k' i I' J). }
  assert (lift : forall A B (R : A -> B -> Prop) (g : list string) (S : list string * A -> B -> Prop) l bs,
     (forall a b, R a b <-> S (g, a) b) -> collects R l bs -> collects S (map (pair g) l) bs).
  { intros A B R g S l bs E Cc. induction Cc; cbn; [constructor| |].
    - apply collects_take; [apply E; assumption|assumption].
    - apply collects_skip; [intros b X'; apply E in X'; eapply H; exact X'|assumption]. }
  assert (C1 : collects (fun fr x => kent_at to_num to_stamp kent_time 0 (snd fr) x) frows
     (List.concat (map (fun t => scol t "time") tables))).
  { unfold frows. clear -P Key lift T0 F. induction P as [|f t files tables Pf P IH]; [constructor|]. cbn [map List.concat].
    apply collects_app.
    - destruct (Key f t (or_introl eq_refl) Pf _ _ T0) as [i [J Cc]].
      destruct (F f (or_introl eq_refl)) as [N [P0 _]].
      assert (i = 0) by exact (nodup_nth _ _ i 0 _ N J P0). subst i.
      eapply lift; [|exact Cc]. intros a b. cbn [snd]. unfold kent_kept. split; [intros [X0 _]; exact X0|].
      intros X0. split; [exact X0|]. intros _. destruct X0 as [w [W M]]. destruct M as [s _ M|x M _]; [|exfalso; apply M; reflexivity].
      exists w, s. auto.
    - apply IH; [intros; apply F; right; assumption|]. intros f' t' I' Pf' n' k' I''. exact (Key f' t' (or_intror I') Pf' n' k' I''). }
  assert (C2 : collects (fun fr x => value_in (fst fr) (snd fr) x) frows (List.concat (map (fun t => scol t n) tables))).
  { unfold frows, value_in. clear -P Key lift I F. induction P as [|f t files tables Pf P IH]; [constructor|]. cbn [map List.concat].
    apply collects_app.
    - destruct (Key f t (or_introl eq_refl) Pf _ _ I) as [i [J Cc]].
      destruct (F f (or_introl eq_refl)) as [N _].
      eapply lift; [|exact Cc]. intros a b. cbn [fst snd]. unfold kent_kept. split.
      + intros [X0 X1]. exists i. split; [exact J|]. split; [exact X0|]. apply X1. lia.
      + intros [i' [J' [X0 X1]]]. assert (i' = i) by exact (nodup_nth _ _ i' i _ N J' J). subst i'. auto.
    - apply IH; [intros; apply F; right; assumption|]. intros f' t' I' Pf' n' k' I''. exact (Key f' t' (or_intror I') Pf' n' k' I''). }
  split; [exact C1|]. split; [exact C2|]. symmetry. eapply collects_same_length; [|exact C1|exact C2].
  intros [g row] J. cbn [fst snd]. unfold frows in J. apply in_concat in J. destruct J as [l [J1 J2]].
  apply in_map_iff in J1. destruct J1 as [f [<- If]]. apply in_map_iff in J2. destruct J2 as [row' [Eq Ir]].
  injection Eq as E1 E2. subst g row'. destruct (F f If) as [N [P0 L]]. split.
  - intros [x [w [W M]]]. destruct M as [s _ M|x M _]; [|exfalso; apply M; reflexivity].
    assert (exists t, In t tables /\ kfile (fst f) (snd f) = Ok t) as [t [It Pt]].
    { clear -P If. induction P; [destruct If|]. destruct If as [->|If]; [exists y; split; [left|]; auto|].
      destruct (IHP If) as [t [I0 P0]]. exists t. split; [right|]; auto. }
    destruct (Key f t If Pt _ _ I) as [i [Ji _]].
    destruct (L row Ir) as [->|Lr]; [discriminate|].
    destruct (nth_error row i) as [v|] eqn:V.
    2:{ apply nth_error_None in V. assert (i < length (fst f)) by (apply nth_error_Some; congruence). lia. }
    assert (RT : readable_time to_stamp 0 row) by (exists w, s; auto).
    destruct (string_dec k kent_time) as [->|Nk].
    + assert (i = 0) by exact (nodup_nth _ _ i 0 _ N Ji P0). subst i.
      exists (WTime s), 0. split; [exact Ji|]. split; [|exact RT]. exists w. split; [exact W|]. constructor; [reflexivity|exact M].
    + exists (num_or_nan to_num v), i. split; [exact Ji|]. split; [|exact RT]. exists v. split; [exact V|].
      apply km_number; [exact Nk|]. apply number_iff. reflexivity.
  - intros [x [i [_ [_ [w [s [W M]]]]]]]. exists (WTime s), w. split; [exact W|]. constructor; [reflexivity|exact M].
Qed.

(** ** Wind direction and rainfall amount *)
Lemma wrap_spec : forall v, exists w, wrap_direction (Some v) = Some w /\
  ((-(2) < v < 0)%Q -> w == v + 360)%Q /\ ((360 <= v < 362)%Q -> w == v - 360)%Q /\
  ((v <= -(2) \/ 0 <= v < 360 \/ 362 <= v)%Q -> w == v)%Q.
Proof.
  intros v. unfold wrap_direction, qlt.
  destruct (Qle_bool v (-(2))) eqn:A; cbn [negb andb].
  - apply Qle_bool_iff in A.
    destruct (Qle_bool 360 v) eqn:B; [apply Qle_bool_iff in B; exfalso; lra|]. cbn [andb].
    exists v. split; [reflexivity|]. repeat split; intros; try lra.
  - assert (A' : (-(2) < v)%Q).
    { apply Qnot_le_lt. intros X0. apply Qle_bool_iff in X0. congruence. }
    destruct (Qle_bool 0 v) eqn:B; cbn [negb].
    + apply Qle_bool_iff in B. destruct (Qle_bool 360 v) eqn:C; cbn [andb].
      * apply Qle_bool_iff in C. destruct (Qle_bool (360 + 2) v) eqn:E; cbn [negb].
        -- apply Qle_bool_iff in E. exists v. split; [reflexivity|]. repeat split; intros; try lra.
        -- assert (v < 360 + 2)%Q.
           { apply Qnot_le_lt. intros X0. apply Qle_bool_iff in X0. congruence. }
           exists (v - 360)%Q. split; [reflexivity|]. repeat split; intros; try lra.
      * assert (v < 360)%Q. { apply Qnot_le_lt. intros X0. apply Qle_bool_iff in X0. congruence. }
        exists v. split; [reflexivity|]. repeat split; intros; try lra.
    + assert (v < 0)%Q. { apply Qnot_le_lt. intros X0. apply Qle_bool_iff in X0. congruence. }
      destruct (Qle_bool 360 (v + 360)) eqn:C; cbn [andb].
      * apply Qle_bool_iff in C. exfalso. lra.
      * exists (v + 360)%Q. split; [reflexivity|]. repeat split; intros; try lra.
Qed.
Lemma cumsum_masked_nth : forall l acc i,
  nth_error (cumsum_masked acc l) i = match nth_error l i with
    | None => None
    | Some None => Some None
    | Some (Some _) => nth_error (cumsum_masked acc l) i
    end /\
  forall x, nth_error l i = Some (Some x) ->
    exists y, nth_error (cumsum_masked acc l) i = Some (Some y) /\ (y == acc + sum_first (i + 1) l)%Q.
Proof.
  induction l as [|[x|] l IH]; intros acc i.
  - destruct i; (split; [reflexivity|]; intros x H; discriminate).
  - destruct i as [|i]; cbn [cumsum_masked nth_error].
    + split; [reflexivity|]. intros y H. injection H as <-. exists (acc + x)%Q. split; [reflexivity|].
      unfold sum_first; cbn. ring.
    + destruct (IH (acc + x)%Q i) as [A B]. split; [exact A|]. intros y H. destruct (B y H) as [z [E Q]].
      exists z. split; [exact E|]. rewrite Q. unfold sum_first. cbn [Nat.add firstn map fold_right known]. ring.
  - destruct i as [|i]; cbn [cumsum_masked nth_error].
    + split; [reflexivity|]. intros y H. discriminate.
    + destruct (IH acc i) as [A B]. split; [exact A|]. intros y H. destruct (B y H) as [z [E Q]].
      exists z. split; [exact E|]. rewrite Q. unfold sum_first. cbn [Nat.add firstn map fold_right known]. ring.
Qed.
Lemma sum_first_scale : forall res l n,
  (sum_first n (map (option_map (fun x => x * res)) l) == res * sum_first n l)%Q.
Proof.
  intros res l. unfold sum_first. induction l as [|x l IH]; intros n; destruct n as [|n]; cbn; try ring.
  rewrite IH. destruct x; cbn; ring.
Qed.
Lemma rainfall_amount_spec : forall res rates i x, 2 <= length rates -> nth_error rates i = Some x ->
  match x with
  | None => nth_error (rainfall_amount res rates) i = Some None
  | Some _ => exists y, nth_error (rainfall_amount res rates) i = Some (Some y) /\ (y == res * sum_first (i + 1) rates)%Q
  end.
Proof.
  intros res rates i x L H.
  assert (rainfall_amount res rates = cumsum_masked 0%Q (map (option_map (fun x => x * res)%Q) rates)) as ->.
  { destruct rates as [|a [|b rates]]; [reflexivity|cbn in L; lia|reflexivity]. }
  destruct (cumsum_masked_nth (map (option_map (fun x => (x * res)%Q)) rates) 0%Q i) as [A B].
  rewrite nth_error_map', H in A, B. cbn [option_map] in A, B. destruct x as [x|]; cbn [option_map] in A, B.
  - destruct (B _ eq_refl) as [y [E Q]]. exists y. split; [exact E|]. rewrite Q, sum_first_scale. ring.
  - exact A.
Qed.
Lemma sum_first_mono : forall l n m, n <= m -> (forall x, In (Some x) l -> (0 <= x)%Q) -> (sum_first n l <= sum_first m l)%Q.
Proof.
  unfold sum_first. induction l as [|x l IH]; intros n m L P.
  - rewrite !firstn_nil. lra.
  - assert (0 <= known x)%Q by (destruct x as [x|]; cbn; [apply P; left; reflexivity|lra]).
    assert (P' : forall x, In (Some x) l -> (0 <= x)%Q) by (intros; apply P; right; assumption).
    destruct m as [|m]; [assert (n = 0) by lia; subst; cbn; lra|].
    assert (Z : forall k, (0 <= fold_right Qplus 0%Q (map known (firstn k l)))%Q).
    { intros k. specialize (IH 0 k (Nat.le_0_l k) P'). cbn in IH. exact IH. }
    destruct n as [|n]; cbn [firstn map fold_right].
    + specialize (Z m). lra.
    + assert (n <= m) as L' by lia. specialize (IH n m L' P'). lra.
Qed.

(** ** TOA5 files *)
Variable to_int : string -> option Z.
Notation tvalue := (toa5_value to_stamp to_int).
Notation tmeaning := (toa5_meaning to_stamp to_int).
Notation heap_t := (list (string * list (@tval X))).
Notation hcol := (@col string (@tval X) String.eqb).
Lemma toa5_value_iff : forall k w v, tvalue k w = Some v <-> tmeaning k w v.
Proof.
  intros k w v. unfold toa5_value. destruct (String.eqb k "TIMESTAMP") eqn:A; [|destruct (String.eqb k "RECORD") eqn:B].
  - apply String.eqb_eq in A. subst k. destruct (to_stamp w) as [t|] eqn:T; cbn; split.
    + intros H. injection H as <-. constructor; [reflexivity|exact T].
    + intros H. destruct H as [t' _ H|z H _|H _]; congruence.
    + discriminate.
    + intros H. destruct H as [t' _ H|z H _|H _]; congruence.
  - apply String.eqb_eq in B. subst k. destruct (to_int w) as [t|] eqn:T; cbn; split.
    + intros H. injection H as <-. apply tm_record; [reflexivity|exact T].
    + intros H. destruct H as [t' H _|z _ H|_ H]; congruence.
    + discriminate.
    + intros H. destruct H as [t' H _|z _ H|_ H]; congruence.
  - split.
    + intros H. injection H as <-. apply tm_text; intros ->; discriminate.
    + intros H. destruct H as [t' -> _|z -> _|_ _]; [discriminate|discriminate|reflexivity].
Qed.
Lemma element_iff : forall name key, element_of name key <-> has_char "(" key = true /\ before_char "(" key = name.
Proof.
  intros name key. unfold element_of. split.
  - intros [rest [E W]]. split; [apply has_char_iff; eauto|]. apply up_to_iff. split; [exact W|]. right. eauto.
  - intros [H B]. apply up_to_iff in B. destruct B as [W [->|[r E]]]; [|exists r; auto].
    apply has_char_iff in H. contradiction.
Qed.
Lemma plain_iff : forall key, plain key <-> has_char "(" key = false.
Proof. intros key. unfold plain, without. symmetry. apply has_char_false. Qed.
Lemma template_get : forall header (d : @trow X),
  (forall name key, get String.eqb name d = Some key -> key = TRef name) ->
  let t := fold_left (fun d h => if has_char "(" h then put String.eqb (before_char "(" h) (TRef (before_char "(" h)) d else d) header d in
  (forall name key, get String.eqb name t = Some key -> key = TRef name) /\
  forall name, get String.eqb name t <> None <-> get String.eqb name d <> None \/ exists key, In key header /\ element_of name key.
Proof.
  induction header as [|h header IH]; intros d D; cbn [fold_left].
  - cbn. split; [exact D|]. intros name. split; [auto|]. intros [H|[key [[] _]]]. exact H.
  - destruct (has_char "(" h) eqn:E.
    + destruct (IH (put String.eqb (before_char "(" h) (TRef (before_char "(" h)) d)) as [A B].
      { intros name key. rewrite (get_put _ _ _ string_spec). destruct (String.eqb name (before_char "(" h)) eqn:F; [|apply D].
        apply String.eqb_eq in F. intros H. injection H as <-. rewrite <- F. reflexivity. }
      split; [exact A|]. intros name. rewrite B, (get_put _ _ _ string_spec). split.
      * intros [H|[key [I H]]]; [|right; exists key; split; [right|]; assumption].
        destruct (String.eqb name (before_char "(" h)) eqn:F; [|left; exact H].
        apply String.eqb_eq in F. right. exists h. split; [left; reflexivity|]. apply element_iff. auto.
      * intros [H|[key [[->|I] H]]].
        -- left. destruct (String.eqb name (before_char "(" h)); [discriminate|exact H].
        -- left. apply element_iff in H. destruct H as [_ <-]. rewrite String.eqb_refl. discriminate.
        -- right. eauto.
    + destruct (IH d D) as [A B]. split; [exact A|]. intros name. rewrite B. split.
      * intros [H|[key [I H]]]; [auto|right; exists key; split; [right|]; assumption].
      * intros [H|[key [[->|I] H]]]; [auto| |right; eauto].
        apply element_iff in H. destruct H as [H _]. congruence.
Qed.
Definition elem_vals (name : string) (kws : list (string * string)) : list (@tval X) :=
  flat_map (fun kw => opt_list (if has_char "(" (fst kw) && String.eqb (before_char "(" (fst kw)) name then tvalue (fst kw) (snd kw) else None)) kws.
Lemma elem_vals_spec : forall name header line,
  elements to_stamp to_int name header line (elem_vals name (combine header line)).
Proof.
  intros name header line. unfold elements, elem_vals. apply collects_flat_map. intros [k w] v _. cbn [fst snd].
  rewrite element_iff. destruct (has_char "(" k); cbn [andb].
  - destruct (String.eqb (before_char "(" k) name) eqn:E.
    + apply String.eqb_eq in E. rewrite toa5_value_iff. tauto.
    + split; [discriminate|]. intros [[_ H] _]. rewrite H, String.eqb_refl in E. discriminate.
  - split; [discriminate|]. intros [[H _] _]. discriminate.
Qed.
Lemma elements_unique : forall name header line vs vs',
  elements to_stamp to_int name header line vs -> elements to_stamp to_int name header line vs' -> vs = vs'.
Proof.
  intros name header line vs vs' A B. eapply collects_unique; [|exact A|exact B].
  intros a b c [_ H1] [_ H2]. apply toa5_value_iff in H1, H2. congruence.
Qed.
Lemma toa5_row_spec : forall header line (row : @trow X) (heap : heap_t),
  (forall key, In key header -> has_char "(" key = true ->
     get String.eqb (before_char "(" key) row = Some (TRef (before_char "(" key))) ->
  (forall k key, In k header -> has_char "(" k = false -> In key header -> has_char "(" key = true -> before_char "(" key <> k) ->
  NoDup header ->
  (toa5_readable to_stamp to_int header line ->
     exists row' heap', toa5_row to_stamp to_int header line row heap = Ok (row', heap') /\
       (forall k, (forall w, ~ In (k, w) (combine header line)) \/ has_char "(" k = true -> get String.eqb k row' = get String.eqb k row) /\
       (forall k w, In (k, w) (combine header line) -> has_char "(" k = false ->
          exists v, tmeaning k w v /\ get String.eqb k row' = Some (TVal v)) /\
       (NoDup (map fst heap) -> NoDup (map fst heap')) /\
       forall name, hcol heap' name = (hcol heap name ++ elem_vals name (combine header line))%list) /\
  (~ toa5_readable to_stamp to_int header line -> toa5_row to_stamp to_int header line row heap = Raise ValueError).
Proof.
  induction header as [|key header IH]; intros line row heap Hr Hc N.
  - split.
    + intros _. exists row, heap. split; [reflexivity|]. split; [reflexivity|]. split; [intros k w []|]. split; [auto|].
      intros name. cbn. rewrite app_nil_r. reflexivity.
    + intros H. exfalso. apply H. intros k w [].
  - destruct line as [|w line].
    + split.
      * intros _. exists row, heap. split; [reflexivity|]. split; [reflexivity|]. split; [intros k w []|]. split; [auto|].
        intros name. cbn. rewrite app_nil_r. reflexivity.
      * intros H. exfalso. apply H. intros k w [].
    + inversion N as [|? ? NI N']; subst. cbn [toa5_row combine].
      destruct (tvalue key w) as [v|] eqn:V.
      2:{ split; [|reflexivity]. intros H. exfalso. destruct (H key w) as [v Hv]; [left; reflexivity|].
          apply toa5_value_iff in Hv. congruence. }
      assert (RR : toa5_readable to_stamp to_int (key :: header) (w :: line) <-> toa5_readable to_stamp to_int header line).
      { unfold toa5_readable. split.
        - intros H k x I. apply H. right. exact I.
        - intros H k x [I|I]; [injection I as <- <-; exists v; apply toa5_value_iff; exact V|]. apply H. exact I. }
      rewrite RR. clear RR.
      assert (Hc' : forall k key, In k header -> has_char "(" k = false -> In key header -> has_char "(" key = true -> before_char "(" key <> k).
      { intros k key' I1 E1 I2 E2. apply Hc; [right|..|right|]; assumption. }
      destruct (has_char "(" key) eqn:E.
      * rewrite (Hr key (or_introl eq_refl) E).
        destruct (IH line row (push String.eqb (before_char "(" key) v heap)) as [A B]; [intros; apply Hr; [right|]; assumption|exact Hc'|exact N'|].
        split; [|exact B]. intros R. destruct (A R) as [row' [heap' [E1 [E2 [E3 [E4 E5]]]]]]. exists row', heap'.
        split; [exact E1|]. split.
        { intros k H. apply E2. destruct H as [H|H]; [left; intros x I; apply (H x); right; exact I|right; exact H]. }
        split.
        { intros k x [I|I] H; [injection I as <- <-; congruence|]. apply E3; assumption. }
        split; [intros NH; apply E4; apply (push_nodup _ string_spec); exact NH|].
        intros name. rewrite E5, (col_push _ string_spec). unfold elem_vals. cbn [flat_map fst snd]. rewrite E. cbn [andb].
        destruct (String.eqb (before_char "(" key) name) eqn:F.
        -- apply String.eqb_eq in F. rewrite F, V. cbn [opt_list]. rewrite <- app_assoc. reflexivity.
        -- reflexivity.
      * destruct (IH line (put String.eqb key (TVal v) row) heap) as [A B]; [|exact Hc'|exact N'|].
        { intros key' I' E'. rewrite (get_put _ _ _ string_spec).
          destruct (String.eqb (before_char "(" key') key) eqn:F; [|apply Hr; [right|]; assumption].
          apply String.eqb_eq in F. exfalso. apply (Hc key key' (or_introl eq_refl) E (or_intror I') E' F). }
        split; [|exact B]. intros R. destruct (A R) as [row' [heap' [E1 [E2 [E3 [E4 E5]]]]]]. exists row', heap'.
        split; [exact E1|]. split.
        { intros k H. rewrite E2.
          - rewrite (get_put _ _ _ string_spec). destruct (String.eqb k key) eqn:F; [|reflexivity].
            apply String.eqb_eq in F. subst k. destruct H as [H|H]; [|congruence]. exfalso. apply (H w). left. reflexivity.
          - destruct H as [H|H]; [left; intros x I; apply (H x); right; exact I|right; exact H]. }
        split.
        { intros k x [I|I] H; [|apply E3; assumption]. injection I as <- <-. exists v. split; [apply toa5_value_iff; exact V|].
          rewrite E2; [rewrite (get_put _ _ _ string_spec), String.eqb_refl; reflexivity|].
          left. intros x I. apply in_combine_l in I. contradiction. }
        split; [exact E4|]. intros name. rewrite E5. unfold elem_vals. cbn [flat_map fst snd]. rewrite E. reflexivity.
Qed.
(** One row of the result. *)
Definition row_is (header line : list string) (row : @trow X) : Prop :=
  (forall k w, In (k, w) (combine header line) -> plain k -> exists v, tmeaning k w v /\ get String.eqb k row = Some (TVal v)) /\
  (forall name, (exists key, In key header /\ element_of name key) -> get String.eqb name row = Some (TRef name)).
Lemma toa5_one : forall header line (heap : heap_t), NoDup header -> no_clash header ->
  (toa5_readable to_stamp to_int header line -> exists row heap', toa5_row to_stamp to_int header line (row_template header) heap = Ok (row, heap') /\
     row_is header line row /\ forall name, hcol heap' name = (hcol heap name ++ elem_vals name (combine header line))%list) /\
  (~ toa5_readable to_stamp to_int header line -> toa5_row to_stamp to_int header line (row_template header) heap = Raise ValueError).
Proof.
  intros header line heap N C.
  destruct (template_get header []) as [T1 T2]; [intros name key H; discriminate|].
  fold (@row_template X header) in T1, T2.
  assert (TT : forall name, (exists key, In key header /\ element_of name key) -> get String.eqb name (row_template header) = Some (@TRef X name)).
  { intros name H. destruct (get String.eqb name (row_template header)) as [c|] eqn:E; [f_equal; apply T1; exact E|].
    exfalso. apply (proj2 (T2 name)); [right; exact H|exact E]. }
  assert (C' : forall k key, In k header -> has_char "(" k = false -> In key header -> has_char "(" key = true -> before_char "(" key <> k).
  { intros k key I1 E1 I2 E2 B. apply (C k key I1); [apply plain_iff; exact E1|exact I2|]. apply element_iff. auto. }
  destruct (toa5_row_spec header line (row_template header) heap) as [A B].
  - intros key I E. apply TT. exists key. split; [exact I|]. apply element_iff. auto.
  - exact C'.
  - exact N.
  - split; [|exact B]. intros R. destruct (A R) as [row [heap' [E1 [E2 [E3 [_ E5]]]]]]. exists row, heap'.
    split; [exact E1|]. split; [|exact E5]. split.
    + intros k w I P. apply E3; [exact I|]. apply plain_iff. exact P.
    + intros name [key [I H]]. rewrite E2; [apply TT; eauto|].
      destruct (has_char "(" name) eqn:P; [right; reflexivity|left]. intros w J. apply in_combine_l in J.
      apply (C name key J); [apply plain_iff; exact P|exact I|exact H].
Qed.
Lemma readable_dec : forall header line, toa5_readable to_stamp to_int header line \/ ~ toa5_readable to_stamp to_int header line.
Proof.
  intros header line. unfold toa5_readable. induction (combine header line) as [|[k w] l IH]; [left; intros k w []|].
  destruct IH as [IH|IH].
  - destruct (tvalue k w) as [v|] eqn:V.
    + left. intros k' w' [I|I]; [injection I as <- <-; exists v; apply toa5_value_iff; exact V|auto].
    + right. intros H. destruct (H k w) as [v Hv]; [left; reflexivity|]. apply toa5_value_iff in Hv. congruence.
  - right. intros H. apply IH. intros k' w' I. apply H. right. exact I.
Qed.
Lemma toa5_rows_spec : forall header lines rows (heap : heap_t), NoDup header -> no_clash header ->
  ((forall l, In l lines -> toa5_readable to_stamp to_int header l) ->
     exists rows' heap', toa5_rows to_stamp to_int header lines rows heap = Ok ((rows ++ rows')%list, heap') /\
       Forall2 (row_is header) lines rows' /\
       forall name, hcol heap' name = (hcol heap name ++ flat_map (fun l => elem_vals name (combine header l)) lines)%list) /\
  ((exists l, In l lines /\ ~ toa5_readable to_stamp to_int header l) ->
     toa5_rows to_stamp to_int header lines rows heap = Raise ValueError).
Proof.
  intros header lines. induction lines as [|l lines IH]; intros rows heap N C; cbn [toa5_rows].
  - split; [|intros [l [[] _]]]. intros _. exists [], heap. rewrite app_nil_r. split; [reflexivity|]. split; [constructor|].
    intros name. cbn. rewrite app_nil_r. reflexivity.
  - destruct (toa5_one header l heap N C) as [A B]. split.
    + intros H. destruct (A (H l (or_introl eq_refl))) as [row [heap1 [E1 [E2 E3]]]]. rewrite E1. cbn [bind fst snd].
      destruct (IH (rows ++ [row])%list heap1 N C) as [A' _].
      destruct A' as [rows' [heap' [F1 [F2 F3]]]]; [intros; apply H; right; assumption|].
      exists (row :: rows'), heap'. rewrite F1, <- app_assoc. split; [reflexivity|]. split; [constructor; assumption|].
      intros name. rewrite F3, E3. cbn [flat_map]. rewrite app_assoc. reflexivity.
    + intros [l' [I R]]. destruct (readable_dec header l) as [D|D]; [|rewrite (B D); reflexivity].
      destruct (A D) as [row [heap1 [E1 _]]]. rewrite E1. cbn [bind fst snd].
      destruct (IH (rows ++ [row])%list heap1 N C) as [_ B']. apply B'. destruct I as [->|I]; [contradiction|eauto].
Qed.
Lemma read_toa5_spec : forall header lines, NoDup header -> no_clash header ->
  ((forall l, In l lines -> toa5_readable to_stamp to_int header l) ->
     exists rows heap, read_toa5 to_stamp to_int header lines = Ok (rows, heap) /\ length rows = length lines /\
       (forall i line row, nth_error lines i = Some line -> nth_error rows i = Some row ->
         (forall k w, In (k, w) (combine header line) -> plain k ->
            exists v, tmeaning k w v /\ view heap row k = Some (Scalar v)) /\
         forall name, (exists key, In key header /\ element_of name key) ->
           exists vss, Forall2 (elements to_stamp to_int name header) lines vss /\
             view heap row name = Some (Array (List.concat vss)))) /\
  ((exists l, In l lines /\ ~ toa5_readable to_stamp to_int header l) ->
     read_toa5 to_stamp to_int header lines = Raise ValueError).
Proof.
  intros header lines N C. unfold read_toa5. destruct (toa5_rows_spec header lines [] [] N C) as [A B]. split; [|exact B].
  intros R. destruct (A R) as [rows [heap [E1 [E2 E3]]]]. exists rows, heap. split; [exact E1|].
  split; [symmetry; eapply forall2_len; exact E2|].
  intros i line row L W.
  assert (RI : row_is header line row).
  { clear -E2 L W. revert i L W. induction E2 as [|l r lines rows H E IH]; intros [|i] L W; try discriminate.
    - cbn in L, W. injection L as <-. injection W as <-. exact H.
    - apply (IH i L W). }
  destruct RI as [P1 P2]. split.
  - intros k w I P. destruct (P1 k w I P) as [v [M G]]. exists v. split; [exact M|]. unfold view. rewrite G. reflexivity.
  - intros name H. exists (map (fun l => elem_vals name (combine header l)) lines). split.
    + generalize lines. intros ls. induction ls as [|l ls IH]; cbn; [constructor|]. constructor; [apply elem_vals_spec|exact IH].
    + unfold view. rewrite (P2 name H). f_equal. f_equal. change (hcol heap name = List.concat (map (fun l => elem_vals name (combine header l)) lines)).
      rewrite E3. cbn. rewrite flat_map_concat_map. reflexivity.
Qed.
End Stations.
