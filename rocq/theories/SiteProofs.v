(** Proofs for the epoch and the site coordinates. *)
From Verif Require Import Base GridModel OutputModel OutputSpec OutputProofs SiteModel SiteSpec.
From Coq Require Import Lqa.
Local Open Scope string_scope.

(** ** Words *)
Lemma word_cons : forall c w, word (String c w) -> is_space c = false /\ (w = "" \/ word w).
Proof.
  intros c w [_ H]. split; [apply (H "" c w); reflexivity|].
  destruct w as [|d w]; [left; reflexivity|right]. split; [discriminate|].
  intros a x b E. apply (H (String c a) x b). rewrite E. reflexivity.
Qed.
Lemma words_from_space : forall w c s, is_space c = true -> w <> "" ->
  words_from w (String c s) = w :: words_from "" s.
Proof. intros w c s H N. cbn [words_from]. rewrite H. destruct w; [congruence|reflexivity]. Qed.
Lemma words_from_word : forall w acc rest, (w = "" \/ word w) ->
  words_from acc (w ++ rest) = words_from (acc ++ w) rest.
Proof.
  induction w as [|c w IH]; intros acc rest H.
  - rewrite append_nil_r. reflexivity.
  - destruct H as [H|H]; [discriminate|]. apply word_cons in H. destruct H as [Hc Hw].
    cbn [append words_from]. rewrite Hc. rewrite IH by exact Hw.
    rewrite append_assoc. reflexivity.
Qed.
Lemma words_from_blank : forall a rest, blank a -> words_from "" (a ++ rest) = words_from "" rest.
Proof.
  induction a as [|c a IH]; intros rest H; [reflexivity|]. apply blank_cons in H.
  destruct H as [Hc H]. cbn [append words_from]. rewrite Hc. apply IH, H.
Qed.
Lemma words_unique : forall s ws, words_of s ws -> words s = ws.
Proof.
  intros s ws H. induction H as [s B|a w rest ws B W R H IH].
  - unfold words. rewrite <- (append_nil_r s). rewrite words_from_blank by exact B. reflexivity.
  - unfold words in *. rewrite words_from_blank by exact B.
    rewrite words_from_word by (right; exact W). cbn [append].
    destruct R as [->|(c & r & -> & Hc)].
    + simpl in IH. subst ws. destruct w; [destruct W; congruence|reflexivity].
    + rewrite words_from_space by (try exact Hc; apply W). f_equal.
      cbn [words_from] in IH. rewrite Hc in IH. exact IH.
Qed.
Lemma words_exist_acc : forall s,
  words_of s (words_from "" s) /\
  forall w, word w -> exists a rest ws, s = a ++ rest /\ words_from w s = (w ++ a) :: ws /\
    (a = "" \/ word a) /\ (rest = "" \/ exists c r, rest = String c r /\ is_space c = true) /\
    words_of rest ws.
Proof.
  induction s as [|c s [IH1 IH2]].
  - split.
    + constructor. apply blank_nil.
    + intros w W. exists "", "", []. split; [reflexivity|]. split.
      * simpl. rewrite append_nil_r. destruct w; [destruct W; congruence|reflexivity].
      * repeat split; auto. constructor. apply blank_nil.
  - destruct (is_space c) eqn:E.
    + assert (X : words_of (String c s) (words_from "" s)).
      { clear IH2. destruct IH1 as [t B|a w rest ws B W R H].
        - constructor. apply blank_cons. auto.
        - change (String c (a ++ w ++ rest)) with (String c a ++ w ++ rest).
          constructor; auto. apply blank_cons. auto. }
      split.
      * cbn [words_from]. rewrite E. exact X.
      * intros w W. exists "", (String c s), (words_from "" s). split; [reflexivity|].
        split; [rewrite append_nil_r; apply words_from_space; [exact E|apply W]|].
        split; [left; reflexivity|]. split; [right; eauto|exact X].
    + assert (WC : word (String c "")).
      { split; [discriminate|]. intros a x b H. destruct a as [|y a].
        - injection H as -> _. exact E.
        - injection H as _ H. destruct a; discriminate. }
      split.
      * cbn [words_from]. rewrite E. cbn [append].
        destruct (IH2 _ WC) as (a & rest & ws & -> & Ew & Wa & R & H). rewrite Ew.
        change (String c (a ++ rest)) with ("" ++ String c (a ++ rest)).
        replace (String c (a ++ rest)) with ((String c "" ++ a) ++ rest) by reflexivity.
        constructor; auto; [apply blank_nil|]. split; [discriminate|].
        intros x y z Hx. destruct x as [|x0 x].
        -- injection Hx as <- _. exact E.
        -- injection Hx as _ Hx. destruct Wa as [->|Wa]; [destruct x; discriminate|].
           apply (proj2 Wa x y z Hx).
      * intros w W.
        assert (W' : word (w ++ String c "")).
        { split; [destruct w; discriminate|]. intros x y z Hx.
          destruct (string_last z) as [->|(t & d & ->)].
          - apply append_last_inj in Hx. destruct Hx as [_ <-]. exact E.
          - replace (x ++ String y (t ++ String d "")) with ((x ++ String y t) ++ String d "") in Hx
              by (rewrite append_assoc; reflexivity).
            apply append_last_inj in Hx. destruct Hx as [Hx _]. apply (proj2 W x y t Hx). }
        destruct (IH2 _ W') as (a & rest & ws & -> & Ew & Wa & R & H).
        exists (String c a), rest, ws. split; [reflexivity|].
        cbn [words_from]. rewrite E, Ew. split; [rewrite append_assoc; reflexivity|].
        split; [|split; assumption]. right. split; [discriminate|].
        intros x y z Hx. destruct x as [|x0 x].
        -- injection Hx as <- _. exact E.
        -- injection Hx as _ Hx. destruct Wa as [->|Wa]; [destruct x; discriminate|].
           apply (proj2 Wa x y z Hx).
Qed.
Lemma words_exist : forall s, words_of s (words s).
Proof. intros s. apply words_exist_acc. Qed.

(** ** Date text *)
Lemma erased_iff : forall c s t, erased c s t <-> remove_char c s = t.
Proof.
  intros c s. induction s as [|x s IH]; intros t; cbn [remove_char].
  - split; intros H; [inversion H; reflexivity|subst; constructor].
  - destruct (Ascii.eqb_spec x c) as [->|N].
    + rewrite <- IH. split; intros H; [inversion H; subst; [assumption|congruence]|constructor; exact H].
    + split; intros H.
      * inversion H; subst; [congruence|]. f_equal. apply IH. assumption.
      * subst t. constructor; [exact N|]. apply IH. reflexivity.
Qed.
Lemma without_nil : forall c, without c "".
Proof. intros c (a & b & H). destruct a; discriminate. Qed.
Lemma without_cons : forall c x s, without c (String x s) <-> x <> c /\ without c s.
Proof.
  intros c x s. split.
  - intros H. split.
    + intros ->. apply H. exists "", s. reflexivity.
    + intros (a & b & ->). apply H. exists (String x a), b. reflexivity.
  - intros [N H] (a & b & E). destruct a as [|y a].
    + injection E as -> _. congruence.
    + injection E as _ ->. apply H. exists a, b. reflexivity.
Qed.
Lemma up_to_iff : forall c s d, up_to c s d <-> before_char c s = d.
Proof.
  intros c s. induction s as [|x s IH]; intros d; cbn [before_char].
  - split.
    + intros [_ [H|(r & H)]]; [auto|]. destruct d; discriminate.
    + intros <-. split; [apply without_nil|left; reflexivity].
  - destruct (Ascii.eqb_spec x c) as [->|N].
    + split.
      * intros [W H]. destruct d as [|y d]; [reflexivity|]. exfalso. apply without_cons in W.
        destruct W as [W _]. destruct H as [H|(r & H)]; injection H as H _; congruence.
      * intros <-. split; [apply without_nil|right]. exists s. reflexivity.
    + split.
      * intros [W H]. destruct d as [|y d].
        -- destruct H as [H|(r & H)]; [discriminate|]. injection H as H _. congruence.
        -- apply without_cons in W. destruct W as [_ W].
           assert (x = y /\ up_to c s d) as [-> U].
           { destruct H as [H|(r & H)]; injection H as -> H; (split; [reflexivity|]);
             split; auto. right. exists r. exact H. }
           f_equal. apply IH, U.
      * intros <-. destruct (proj2 (IH _) eq_refl) as [W H]. split; [apply without_cons; auto|].
        destruct H as [H|(r & H)]; [left; congruence|right; exists r; cbn [append]; congruence].
Qed.
Lemma date_text_iff : forall w d, date_text w d <-> before_char "T" (remove_char "," w) = d.
Proof.
  intros w d. split.
  - intros (w' & E & U). apply erased_iff in E. apply up_to_iff in U. subst. reflexivity.
  - intros <-. exists (remove_char "," w). split; [apply erased_iff; reflexivity|].
    apply up_to_iff. reflexivity.
Qed.
Lemma split_on_nonempty : forall c s, split_on c s <> [].
Proof.
  intros c s. destruct s as [|x s]; cbn [split_on]; [discriminate|].
  destruct (Ascii.eqb x c); [discriminate|]. destruct (split_on c s); discriminate.
Qed.
Lemma concat_cons' : forall sep x l, l <> [] -> String.concat sep (x :: l) = x ++ sep ++ String.concat sep l.
Proof. intros sep x [|y l] H; [congruence|reflexivity]. Qed.
Lemma concat_char : forall sep c x l, String.concat sep (String c x :: l) = String c (String.concat sep (x :: l)).
Proof. intros sep c x [|y l]; reflexivity. Qed.
Lemma split_on_spec : forall c s, separated c s (split_on c s).
Proof.
  intros c s. split; [apply split_on_nonempty|]. induction s as [|x s [F E]]; cbn [split_on].
  - split; [constructor; [apply without_nil|constructor]|reflexivity].
  - destruct (Ascii.eqb_spec x c) as [->|N].
    + split; [constructor; [apply without_nil|exact F]|].
      rewrite concat_cons' by apply split_on_nonempty. cbn [append]. congruence.
    + destruct (split_on c s) as [|h t] eqn:S; [exfalso; exact (split_on_nonempty c s S)|].
      inversion F; subst. split.
      * constructor; [apply without_cons; auto|assumption].
      * rewrite concat_char. congruence.
Qed.
Lemma split_on_unique : forall c l s, separated c s l -> split_on c s = l.
Proof.
  intros c l. induction l as [|x l IH]; intros s (N & F & E); [congruence|].
  inversion F as [|? ? Wx Fl]; subst. clear N F. destruct l as [|y l].
  - cbn [String.concat]. clear IH Fl. induction x as [|d x IHx]; [reflexivity|].
    apply without_cons in Wx. destruct Wx as [Nd Wx]. cbn [split_on].
    destruct (Ascii.eqb_spec d c); [congruence|]. rewrite IHx by exact Wx. reflexivity.
  - rewrite concat_cons' by discriminate. specialize (IH (String.concat (String c "") (y :: l))).
    set (rest := String.concat (String c "") (y :: l)) in *.
    assert (Er : split_on c rest = y :: l) by (apply IH; split; [discriminate|split; auto]).
    clearbody rest. clear IH. induction x as [|d x IHx].
    + cbn [append split_on]. rewrite Ascii.eqb_refl, Er. reflexivity.
    + apply without_cons in Wx. destruct Wx as [Nd Wx]. cbn [append split_on].
      destruct (Ascii.eqb_spec d c); [congruence|].
      specialize (IHx Wx). cbn [append] in IHx. rewrite IHx. reflexivity.
Qed.

(** ** Integers *)
Lemma digit_range : forall c d, digit_of c = Some d -> (0 <= d <= 9)%Z.
Proof.
  intros c d. unfold digit_of. destruct (_ && _)%bool eqn:E; [|discriminate].
  intros H. injection H as <-. apply andb_true_iff in E. destruct E as [E1 E2].
  apply Nat.leb_le in E1, E2. lia.
Qed.
Lemma digits_nonempty : forall s z, digits s z -> s <> "".
Proof. intros s z H. destruct H; try discriminate; destruct s; discriminate. Qed.
Lemma int_digits_app_more : forall s acc z c d, digit_of c = Some d ->
  int_digits acc s = Some z -> int_digits acc (s ++ String c "") = Some (10 * z + d)%Z.
Proof.
  intros s. induction s as [s IH] using (well_founded_induction (Wf_nat.well_founded_ltof _ String.length)).
  intros acc z c d D H. destruct s as [|x s].
  - cbn [int_digits] in H. injection H as ->. cbn [append int_digits]. rewrite D. reflexivity.
  - cbn [append int_digits] in *. destruct (digit_of x) as [e|] eqn:X.
    + apply IH; [unfold Wf_nat.ltof; simpl; lia|exact D|exact H].
    + destruct (Ascii.eqb x "_"); [|discriminate]. destruct s as [|y s]; [discriminate|].
      cbn [append]. destruct (digit_of y) as [e|]; [|discriminate].
      apply IH; [unfold Wf_nat.ltof; simpl; lia|exact D|exact H].
Qed.
Lemma int_digits_app_under : forall s acc z c d, digit_of c = Some d ->
  int_digits acc s = Some z -> int_digits acc (s ++ String "_" (String c "")) = Some (10 * z + d)%Z.
Proof.
  intros s. induction s as [s IH] using (well_founded_induction (Wf_nat.well_founded_ltof _ String.length)).
  intros acc z c d D H. destruct s as [|x s].
  - cbn [int_digits] in H. injection H as ->. cbn [append int_digits]. cbn. rewrite D. reflexivity.
  - cbn [append int_digits] in *. destruct (digit_of x) as [e|] eqn:X.
    + apply IH; [unfold Wf_nat.ltof; simpl; lia|exact D|exact H].
    + destruct (Ascii.eqb x "_"); [|discriminate]. destruct s as [|y s]; [discriminate|].
      cbn [append]. destruct (digit_of y) as [e|]; [|discriminate].
      apply IH; [unfold Wf_nat.ltof; simpl; lia|exact D|exact H].
Qed.
Lemma int_unsigned_digits : forall s z, digits s z -> int_unsigned s = Some z.
Proof.
  intros s z H. induction H as [c d D|s z c d H IH D|s z c d H IH D].
  - cbn. rewrite D. reflexivity.
  - destruct s as [|x s]; [discriminate|]. cbn [append]. unfold int_unsigned in *.
    destruct (digit_of x) as [e|]; [|discriminate]. apply int_digits_app_more; assumption.
  - destruct s as [|x s]; [discriminate|]. cbn [append]. unfold int_unsigned in *.
    destruct (digit_of x) as [e|]; [|discriminate]. apply int_digits_app_under; assumption.
Qed.
Lemma int_digits_sound : forall s p acc z, digits p acc -> int_digits acc s = Some z -> digits (p ++ s) z.
Proof.
  intros s. induction s as [s IH] using (well_founded_induction (Wf_nat.well_founded_ltof _ String.length)).
  intros p acc z P H. destruct s as [|x s].
  - injection H as <-. rewrite append_nil_r. exact P.
  - cbn [int_digits] in H. destruct (digit_of x) as [e|] eqn:X.
    + replace (p ++ String x s) with ((p ++ String x "") ++ s) by (rewrite append_assoc; reflexivity).
      apply (IH s) with (acc := (10 * acc + e)%Z);
        [unfold Wf_nat.ltof; simpl; lia|constructor; assumption|exact H].
    + destruct (Ascii.eqb_spec x "_") as [->|]; [|discriminate]. destruct s as [|y s]; [discriminate|].
      destruct (digit_of y) as [e|] eqn:Y; [|discriminate].
      replace (p ++ String "_" (String y s)) with ((p ++ String "_" (String y "")) ++ s)
        by (rewrite append_assoc; reflexivity).
      apply (IH s) with (acc := (10 * acc + e)%Z);
        [unfold Wf_nat.ltof; simpl; lia|apply digits_under; assumption|exact H].
Qed.
Lemma int_unsigned_iff : forall s z, int_unsigned s = Some z <-> digits s z.
Proof.
  intros s z. split; [|apply int_unsigned_digits]. intros H. destruct s as [|x s]; [discriminate|].
  unfold int_unsigned in H. destruct (digit_of x) as [d|] eqn:D; [|discriminate].
  change (String x s) with (String x "" ++ s). apply int_digits_sound with (acc := d); [|exact H].
  constructor. exact D.
Qed.
Lemma digits_head : forall s z, digits s z -> exists c r d, s = String c r /\ digit_of c = Some d.
Proof.
  intros s z H. apply int_unsigned_iff in H. destruct s as [|x s]; [discriminate|].
  unfold int_unsigned in H. destruct (digit_of x) as [d|] eqn:D; [|discriminate].
  exists x, s, d. auto.
Qed.
Lemma parse_int_iff : forall s z, parse_int s = Some z <-> integer s z.
Proof.
  intros s z. unfold parse_int, integer. destruct s as [|x s].
  - split; [discriminate|]. intros [H|[(t & H & _)|(t & H & _)]]; try discriminate.
    apply digits_nonempty in H. congruence.
  - destruct (Ascii.eqb_spec x "-") as [->|N1].
    + split.
      * intros H. right. right. exists s. split; [reflexivity|].
        destruct (int_unsigned s) as [y|] eqn:E; [|discriminate]. injection H as <-.
        rewrite Z.opp_involutive. apply int_unsigned_iff. exact E.
      * intros [H|[(t & H & _)|(t & H & D)]].
        -- apply digits_head in H. destruct H as (c & r & d & E & D). injection E as <- _. discriminate.
        -- discriminate.
        -- injection H as <-. apply int_unsigned_iff in D. rewrite D. simpl. f_equal. lia.
    + destruct (Ascii.eqb_spec x "+") as [->|N2].
      * rewrite int_unsigned_iff. split.
        -- intros H. right. left. eauto.
        -- intros [H|[(t & H & D)|(t & H & _)]].
           ++ apply digits_head in H. destruct H as (c & r & d & E & D). injection E as <- _. discriminate.
           ++ injection H as <-. exact D.
           ++ discriminate.
      * rewrite int_unsigned_iff. split; [auto|]. intros [H|[(t & H & _)|(t & H & _)]]; [exact H| |];
        injection H as H _; congruence.
Qed.
Lemma parse_ints_iff : forall l zs, parse_ints l = Some zs <-> Forall2 integer l zs.
Proof.
  induction l as [|x l IH]; intros zs; cbn [parse_ints].
  - split; intros H; [injection H as <-; constructor|inversion H; reflexivity].
  - split.
    + destruct (parse_int x) as [z|] eqn:E; [|discriminate].
      destruct (parse_ints l) as [r|]; [|discriminate]. intros H. injection H as <-.
      constructor; [apply parse_int_iff, E|apply IH; reflexivity].
    + intros H. inversion H as [|? z ? r Hx Hl]; subst.
      apply parse_int_iff in Hx. apply IH in Hl. rewrite Hx, Hl. reflexivity.
Qed.
Lemma fields_by_iff : forall c d l, fields_by c d l <-> parse_ints (split_on c d) = Some l.
Proof.
  intros c d l. split.
  - intros (parts & S & F). rewrite (split_on_unique _ _ _ S). apply parse_ints_iff, F.
  - intros H. exists (split_on c d). split; [apply split_on_spec|apply parse_ints_iff, H].
Qed.
Definition read_fields (d : string) : option (list Z) :=
  match parse_ints (split_on "-" d) with
  | Some l => Some l
  | None => parse_ints (split_on "." d)
  end.
Lemma date_fields_iff : forall d l, date_fields d l <-> read_fields d = Some l.
Proof.
  intros d l. unfold date_fields, read_fields. rewrite !fields_by_iff.
  destruct (parse_ints (split_on "-" d)) as [m|] eqn:E.
  - split; [|auto]. intros [H|[N _]]; [congruence|]. exfalso. apply N. exists m.
    apply fields_by_iff. exact E.
  - split.
    + intros [H|[_ H]]; [discriminate|exact H].
    + intros H. right. split; [|exact H]. intros (l' & H'). apply fields_by_iff in H'. congruence.
Qed.

(** ** Dates *)
Lemma leap_iff : forall y, leap y = true <-> leap_year y.
Proof.
  intros y. unfold leap, leap_year. rewrite andb_true_iff, orb_true_iff, negb_true_iff.
  rewrite Z.eqb_eq, Z.eqb_neq, Z.eqb_eq.
  rewrite <- !Z.mod_divide by lia. tauto.
Qed.
Lemma month_days_iff : forall y m d, (1 <= m <= 12)%Z -> (1 <= d <= 31)%Z ->
  (d <=? month_days y m)%Z = true <-> calendar_day y m d.
Proof.
  intros y m d M D. unfold month_days, calendar_day. rewrite Z.leb_le.
  destruct (Z.eqb_spec m 2) as [E|N].
  - destruct (leap y) eqn:L.
    + assert (Y : leap_year y) by (apply leap_iff; exact L). split; intros H; [|lia].
      repeat split; try lia. intros _ X. contradiction.
    + assert (Y : ~ leap_year y) by (intros X; apply leap_iff in X; congruence).
      split; intros H; [repeat split; lia|]. apply H; auto.
  - destruct ((m =? 4) || (m =? 6) || (m =? 9) || (m =? 11))%Z eqn:E.
    + rewrite !orb_true_iff, !Z.eqb_eq in E. split; intros H; [repeat split; lia|]. apply H. tauto.
    + rewrite !orb_false_iff, !Z.eqb_neq in E. split; intros H; [repeat split; lia|lia].
Qed.
Section Epoch.
Variables (now : Z) (units : string) (ws : list string).
Hypothesis HW : words_of units ws.
Lemma epoch_short : List.length ws < 3 -> get_epoch now units = Ok (2001, 1, 1)%Z.
Proof.
  intros L. unfold get_epoch. rewrite (words_unique _ _ HW).
  destruct (nth_error ws 2) as [w|] eqn:E; [|reflexivity]. apply nth_error_Some_lt in E. lia.
Qed.
Variables w d : string.
Hypothesis H2 : nth_error ws 2 = Some w.
Hypothesis HD : date_text w d.
Lemma epoch_read : get_epoch now units =
  match read_fields d with
  | None => Ok fallback
  | Some [y; m; e] =>
      if ((1900 <? y) && (y <=? now) && ((0 <? m) && (m <? 13)) && ((0 <? e) && (e <? 32)))%Z
      then datetime y m e else Ok fallback
  | Some _ => Raise ValueError
  end.
Proof.
  unfold get_epoch. rewrite (words_unique _ _ HW), H2. apply date_text_iff in HD. rewrite HD. reflexivity.
Qed.
Lemma looks_iff : forall y m e,
  ((1900 <? y) && (y <=? now) && ((0 <? m) && (m <? 13)) && ((0 <? e) && (e <? 32)))%Z = true <->
  looks_like_date now y m e.
Proof.
  intros y m e. unfold looks_like_date. rewrite !andb_true_iff, !Z.ltb_lt, Z.leb_le. lia.
Qed.
Lemma epoch_no_fields : ~ (exists l, date_fields d l) -> get_epoch now units = Ok (2001, 1, 1)%Z.
Proof.
  intros N. rewrite epoch_read. destruct (read_fields d) as [l|] eqn:E; [|reflexivity].
  exfalso. apply N. exists l. apply date_fields_iff, E.
Qed.
Lemma epoch_fields : forall y m e, date_fields d [y; m; e] ->
  (looks_like_date now y m e -> calendar_day y m e -> get_epoch now units = Ok (y, m, e)) /\
  (looks_like_date now y m e -> ~ calendar_day y m e -> get_epoch now units = Raise ValueError) /\
  (~ looks_like_date now y m e -> get_epoch now units = Ok (2001, 1, 1)%Z).
Proof.
  intros y m e F. apply date_fields_iff in F. rewrite epoch_read, F.
  split; [|split].
  - intros L C. rewrite (proj2 (looks_iff y m e) L). unfold datetime.
    destruct L as (_ & L1 & L2). rewrite (proj2 (month_days_iff y m e L1 L2) C). reflexivity.
  - intros L C. rewrite (proj2 (looks_iff y m e) L). unfold datetime.
    destruct L as (_ & L1 & L2).
    destruct (e <=? month_days y m)%Z eqn:E; [|reflexivity].
    exfalso. apply C. apply (month_days_iff y m e L1 L2). exact E.
  - intros L. destruct (_ && _)%bool eqn:E; [|reflexivity]. exfalso. apply L, looks_iff, E.
Qed.
Lemma epoch_other_count : forall l, date_fields d l -> List.length l <> 3 ->
  get_epoch now units = Raise ValueError.
Proof.
  intros l F N. apply date_fields_iff in F. rewrite epoch_read, F.
  destruct l as [|a [|b [|c [|e l]]]]; try reflexivity. simpl in N. lia.
Qed.
End Epoch.

(** ** Global attributes *)
Lemma keep_numeral_iff : forall a t, only_numeral a t <-> keep_numeral a = t.
Proof.
  induction a as [|c a IH]; intros t; cbn [keep_numeral].
  - split; intros H; [inversion H; reflexivity|subst; constructor].
  - unfold numeral_char. destruct (digit_of c) as [d|] eqn:D.
    + split; intros H.
      * inversion H; subst; [f_equal; apply IH; assumption|congruence].
      * subst t. constructor; [left; congruence|]. apply IH. reflexivity.
    + destruct (Ascii.eqb_spec c ".") as [->|N].
      * split; intros H.
        -- inversion H; subst; [f_equal; apply IH; assumption|congruence].
        -- subst t. constructor; [right; reflexivity|]. apply IH. reflexivity.
      * split; intros H.
        -- inversion H as [|? ? ? [X|X] Y|]; subst; [congruence|congruence|]. apply IH. assumption.
        -- apply numeral_skip; [exact D|exact N|]. apply IH. exact H.
Qed.
(** Value of digits from the left. *)
Fixpoint value_from (n : Z) (s : string) : option Z :=
  match s with
  | "" => Some n
  | String c s' => match digit_of c with Some d => value_from (10 * n + d)%Z s' | None => None end
  end.
Lemma value_from_app : forall a b n, value_from n (a ++ b) =
  match value_from n a with Some m => value_from m b | None => None end.
Proof.
  induction a as [|c a IH]; intros b n; [reflexivity|]. cbn [append value_from].
  destruct (digit_of c); [apply IH|reflexivity].
Qed.
Lemma plain_iff : forall s n, plain s n <-> value_from 0 s = Some n.
Proof.
  intros s n. split.
  - intros H. induction H as [|s z c d H IH D]; [reflexivity|].
    rewrite value_from_app, IH. cbn. rewrite D. reflexivity.
  - revert n. induction s as [s IH] using (well_founded_induction (Wf_nat.well_founded_ltof _ String.length)).
    intros n H. destruct (string_last s) as [->|(t & c & ->)].
    + injection H as <-. constructor.
    + rewrite value_from_app in H. destruct (value_from 0 t) as [m|] eqn:E; [|discriminate].
      cbn [value_from] in H. destruct (digit_of c) as [d|] eqn:D; [|discriminate].
      assert (n = (10 * m + d)%Z) by congruence. subst n. constructor; [|exact D].
      apply IH; [|exact E]. unfold Wf_nat.ltof. clear. induction t; simpl; lia.
Qed.
Lemma value_from_shift : forall s n m, value_from 0 s = Some m ->
  value_from n s = Some (n * 10 ^ Z.of_nat (String.length s) + m)%Z.
Proof.
  intros s n m H. assert (G : forall s a b k, value_from a s = Some k ->
    value_from (b + a) s = Some (b * 10 ^ Z.of_nat (String.length s) + k)%Z).
  { clear. induction s as [|c s IH]; intros a b k H.
    - injection H as <-. cbn. f_equal. lia.
    - cbn [value_from] in *. destruct (digit_of c) as [d|]; [|discriminate].
      replace (10 * (b + a) + d)%Z with (10 * b + (10 * a + d))%Z by lia.
      rewrite (IH _ (10 * b)%Z k H). cbn [String.length].
      rewrite Nat2Z.inj_succ, Z.pow_succ_r by lia. f_equal. ring. }
  replace n with (n + 0)%Z by lia. rewrite (G s 0 n m H)%Z. f_equal. f_equal. ring.
Qed.
Lemma frac_value : forall s n den, frac_digits n den s =
  match value_from n s with
  | Some m => Some (m, (den * 10 ^ Z.of_nat (String.length s))%Z)
  | None => None
  end.
Proof.
  induction s as [|c s IH]; intros n den; cbn [frac_digits value_from].
  - cbn. f_equal. f_equal. lia.
  - destruct (digit_of c) as [d|]; [|reflexivity]. rewrite IH.
    destruct (value_from (10 * n + d) s) as [m|]; [|reflexivity]. cbn [String.length].
    rewrite Nat2Z.inj_succ, Z.pow_succ_r by lia. f_equal. f_equal. ring.
Qed.
Lemma whole_value : forall s n r, whole_digits n s = Some r <->
  (exists m, value_from n s = Some m /\ r = (m, 1%Z)) \/
  (exists a b m k, s = a ++ String "." b /\ value_from n a = Some m /\ value_from m b = Some k /\
     r = (k, (10 ^ Z.of_nat (String.length b))%Z)).
Proof.
  induction s as [|c s IH]; intros n r; cbn [whole_digits].
  - split.
    + intros H. injection H as <-. left. exists n. split; reflexivity.
    + intros [(m & H & ->)|(a & b & m & k & H & _)]; [injection H as <-; reflexivity|].
      destruct a; discriminate.
  - destruct (digit_of c) as [d|] eqn:D.
    + rewrite IH. split; intros [(m & H & E)|(a & b & m & k & E & H1 & H2 & E2)].
      * left. exists m. cbn [value_from]. rewrite D. auto.
      * right. exists (String c a), b, m, k. rewrite E. cbn [value_from]. rewrite D. auto.
      * left. exists m. cbn [value_from] in H. rewrite D in H. auto.
      * right. destruct a as [|x a]; [injection E as -> _; discriminate|].
        injection E as <- E. cbn [value_from] in H1. rewrite D in H1.
        exists a, b, m, k. auto.
    + destruct (Ascii.eqb_spec c ".") as [->|N].
      * rewrite frac_value. split.
        -- destruct (value_from n s) as [m|] eqn:V; [|discriminate]. rewrite Z.mul_1_l.
           intros H. assert (E : r = (m, (10 ^ Z.of_nat (String.length s))%Z)) by congruence.
           right. exists "", s, n, m. auto.
        -- intros [(m & H & _)|(a & b & m & k & E & H1 & H2 & E2)].
           ++ cbn [value_from] in H. rewrite D in H. discriminate.
           ++ destruct a as [|x a].
              ** injection E as <-. injection H1 as <-. rewrite H2, E2, Z.mul_1_l. reflexivity.
              ** injection E as <- E. cbn [value_from] in H1. rewrite D in H1. discriminate.
      * split; [discriminate|]. intros [(m & H & _)|(a & b & m & k & E & H1 & H2 & E2)].
        -- cbn [value_from] in H. rewrite D in H. discriminate.
        -- destruct a as [|x a].
           ++ injection E as E _. congruence.
           ++ injection E as <- E. cbn [value_from] in H1. rewrite D in H1. discriminate.
Qed.
Lemma pow10_pos : forall k, (0 < 10 ^ Z.of_nat k)%Z.
Proof. intros k. apply Z.pow_pos_nonneg; lia. Qed.
Lemma frac_eq : forall k den q, (0 < den)%Z ->
  (q * inject_Z den == inject_Z k)%Q <-> (q == k # Z.to_pos den)%Q.
Proof.
  intros k den q P.
  assert (E : (k # Z.to_pos den == inject_Z k / inject_Z den)%Q).
  { unfold Qdiv, Qinv, inject_Z, Qmult. destruct den as [|p|p]; try lia. cbn. unfold Qeq. cbn. lia. }
  assert (N : ~ (inject_Z den == 0)%Q).
  { intros H. unfold Qeq in H. cbn in H. lia. }
  rewrite E. split; intros H.
  - rewrite <- H. field. exact N.
  - rewrite H. field. exact N.
Qed.
Lemma value_point : forall a b n, value_from n (a ++ String "." b) = None.
Proof.
  intros a b n. rewrite value_from_app. destruct (value_from n a); reflexivity.
Qed.
Lemma point_unique : forall a b a' b' n n', value_from n a <> None -> value_from n' a' <> None ->
  a ++ String "." b = a' ++ String "." b' -> a = a' /\ b = b'.
Proof.
  induction a as [|c a IH]; intros b a' b' n n' H H' E; destruct a' as [|c' a'].
  - injection E as ->. auto.
  - injection E as <- _. exfalso. apply H'. reflexivity.
  - injection E as -> _. exfalso. apply H. reflexivity.
  - injection E as <- E. cbn [value_from] in H, H'. destruct (digit_of c); [|congruence].
    destruct (IH _ _ _ _ _ H H' E) as [-> ->]. auto.
Qed.
Lemma parse_float_spec : forall t,
  match parse_float t with
  | Some q => forall r, decimal t r <-> (r == q)%Q
  | None => forall r, ~ decimal t r
  end.
Proof.
  intros t. unfold parse_float.
  destruct (String.eqb_spec t "") as [->|N1].
  { cbn [orb]. intros r [[H _]|(a & b & n & m & H & _)]; [congruence|destruct a; discriminate]. }
  destruct (String.eqb_spec t ".") as [->|N2].
  { cbn [orb]. intros r [[_ (n & H & _)]|(a & b & n & m & H & D & P1 & P2 & _)].
    - apply plain_iff in H. discriminate.
    - destruct a as [|x [|y a]].
      + injection H as <-. destruct D; congruence.
      + discriminate.
      + discriminate. }
  cbn [orb]. destruct (whole_digits 0 t) as [[num den]|] eqn:W.
  - apply whole_value in W. intros r.
    destruct W as [(m & V & E)|(a & b & m & k & -> & V1 & V2 & E)]; injection E as -> ->.
    + split.
      * intros [[_ (n & H & Q)]|(a & b & n & m' & -> & _)].
        -- apply plain_iff in H. rewrite V in H. injection H as <-. exact Q.
        -- rewrite value_point in V. discriminate.
      * intros Q. left. split; [exact N1|]. exists m. split; [apply plain_iff, V|exact Q].
    + assert (V2' : exists m2, value_from 0 b = Some m2 /\ k = (m * 10 ^ Z.of_nat (String.length b) + m2)%Z).
      { destruct (value_from 0 b) as [m2|] eqn:B.
        - exists m2. split; [reflexivity|]. rewrite (value_from_shift b m m2 B) in V2. congruence.
        - exfalso. clear - B V2. revert B V2. generalize 0%Z. revert m.
          induction b as [|c b IH]; intros m z B V2; [discriminate|]. cbn [value_from] in *.
          destruct (digit_of c); [|discriminate]. eapply IH; eassumption. }
      destruct V2' as (m2 & B & ->).
      rewrite <- frac_eq by apply pow10_pos. split.
      * intros [[_ (n & H & _)]|(a' & b' & n & m' & E & _ & P1 & P2 & Q)].
        -- apply plain_iff in H. rewrite value_point in H. discriminate.
        -- apply plain_iff in P1, P2.
           assert (PU : a = a' /\ b = b') by (apply (point_unique a b a' b' 0 0); congruence).
           destruct PU as [<- <-].
           assert (n = m) by congruence. assert (m' = m2) by congruence. subst. exact Q.
      * intros Q. right. exists a, b, m, m2. split; [reflexivity|]. split.
        { destruct a; [right|left; discriminate]. intros ->. apply N2. reflexivity. }
        split; [apply plain_iff, V1|]. split; [apply plain_iff, B|exact Q].
  - intros r [[_ (n & H & Q)]|(a & b & n & m & -> & _ & P1 & P2 & Q)].
    + apply plain_iff in H.
      assert (X : whole_digits 0 t = Some (n, 1%Z)) by (apply whole_value; left; eauto). congruence.
    + apply plain_iff in P1, P2.
      assert (X : whole_digits 0 (a ++ String "." b) =
        Some ((n * 10 ^ Z.of_nat (String.length b) + m)%Z, (10 ^ Z.of_nat (String.length b))%Z)).
      { apply whole_value. right. exists a, b, n. eexists. split; [reflexivity|]. split; [exact P1|].
        split; [apply value_from_shift, P2|reflexivity]. }
      congruence.
Qed.
Lemma attribute_spec : forall a,
  match parse_attribute a with
  | Ok (Some q) => forall r, attribute_reading a r <-> (r == q)%Q
  | Ok None => a = "Unknown"
  | Raise e => e = ValueError /\ a <> "Unknown" /\ forall r, ~ attribute_reading a r
  end.
Proof.
  intros a. unfold parse_attribute. destruct (String.eqb_spec a "Unknown") as [E|N]; [exact E|].
  pose proof (parse_float_spec (keep_numeral a)) as P.
  destruct (parse_float (keep_numeral a)) as [q|].
  - intros r. rewrite <- P. unfold attribute_reading. split.
    + intros (_ & t & O & D). apply keep_numeral_iff in O. subst. exact D.
    + intros D. split; [exact N|]. exists (keep_numeral a). split; [apply keep_numeral_iff; reflexivity|exact D].
  - split; [reflexivity|]. split; [exact N|]. intros r (_ & t & O & D).
    apply keep_numeral_iff in O. subst. exact (P r D).
Qed.

(** ** Statistics of masked values *)
Lemma present_in' : forall (l : list (masked Q)) q, In q (present l) <-> In (Some q) l.
Proof. intros. apply present_in. Qed.
Lemma fold_min : forall l x, let m := fold_left (fun a b => if qlt b a then b else a) l x in
  (m = x \/ In m l) /\ (m <= x)%Q /\ forall q, In q l -> (m <= q)%Q.
Proof.
  induction l as [|y l IH]; intros x; cbn [fold_left].
  - split; [left; reflexivity|]. split; [lra|]. intros q [].
  - destruct (IH (if qlt y x then y else x)) as (I & L & F). set (m := fold_left _ _ _) in *.
    unfold qlt in *. destruct (Qle_bool x y) eqn:E; cbn [negb] in *.
    + apply Qle_bool_iff in E. split; [destruct I as [I|I]; [left; exact I|right; right; exact I]|].
      split; [exact L|]. intros q [<-|Q]; [lra|apply F, Q].
    + assert (G : (y < x)%Q).
      { destruct (Qlt_le_dec y x) as [G|G]; [exact G|]. apply Qle_bool_iff in G. congruence. }
      split; [destruct I as [I|I]; [right; left; congruence|right; right; exact I]|].
      split; [lra|]. intros q [<-|Q]; [exact L|apply F, Q].
Qed.
Lemma fold_max : forall l x, let m := fold_left (fun a b => if qlt a b then b else a) l x in
  (m = x \/ In m l) /\ (x <= m)%Q /\ forall q, In q l -> (q <= m)%Q.
Proof.
  induction l as [|y l IH]; intros x; cbn [fold_left].
  - split; [left; reflexivity|]. split; [lra|]. intros q [].
  - destruct (IH (if qlt x y then y else x)) as (I & L & F). set (m := fold_left _ _ _) in *.
    unfold qlt in *. destruct (Qle_bool y x) eqn:E; cbn [negb] in *.
    + apply Qle_bool_iff in E. split; [destruct I as [I|I]; [left; exact I|right; right; exact I]|].
      split; [exact L|]. intros q [<-|Q]; [lra|apply F, Q].
    + assert (G : (x < y)%Q).
      { destruct (Qlt_le_dec x y) as [G|G]; [exact G|]. apply Qle_bool_iff in G. congruence. }
      split; [destruct I as [I|I]; [right; left; congruence|right; right; exact I]|].
      split; [lra|]. intros q [<-|Q]; [exact L|apply F, Q].
Qed.
Lemma ma_extremes : forall l, has_value l -> extremes l (ma_min l) (ma_max l).
Proof.
  intros l (q0 & H). unfold ma_min, ma_max. apply present_in' in H.
  assert (P : forall q, In q (present l) <-> In (Some q) l) by (intros; apply present_in').
  destruct (present l) as [|x r]; [destruct H|].
  destruct (fold_min r x) as (I1 & L1 & F1). destruct (fold_max r x) as (I2 & L2 & F2).
  split; [|split].
  - apply P. destruct I1 as [I1|I1]; [left; symmetry; exact I1|right; exact I1].
  - apply P. destruct I2 as [I2|I2]; [left; symmetry; exact I2|right; exact I2].
  - intros q Hq. apply P in Hq. destruct Hq as [<-|Hq]; [split; assumption|].
    split; [apply F1|apply F2]; exact Hq.
Qed.
Lemma present_total : forall l acc, (fold_left Qplus (present l) acc == acc + total l)%Q.
Proof.
  induction l as [|[q|] l IH]; intros acc; cbn.
  - ring.
  - change (flat_map _ l) with (present l). rewrite IH. ring.
  - apply IH.
Qed.
Lemma present_count : forall l, Z.of_nat (List.length (present l)) = count l.
Proof.
  induction l as [|[q|] l IH]; cbn [count]; [reflexivity| |exact IH].
  change (present (Some q :: l)) with (q :: present l). cbn [List.length]. lia.
Qed.
Lemma count_pos : forall l, has_value l -> (0 < count l)%Z.
Proof.
  intros l (q & H). rewrite <- present_count. apply present_in' in H.
  destruct (present l); [destruct H|]. cbn [List.length]. lia.
Qed.
Lemma ma_mean_spec : forall l, has_value l -> mean_of l (ma_mean l).
Proof.
  intros l H. pose proof (count_pos l H) as C. split; [exact C|]. unfold ma_mean.
  rewrite present_count, present_total. field.
  intros E. unfold Qeq in E. cbn in E. lia.
Qed.
Lemma all_masked_iff : forall l, all_masked l = false <-> has_value l.
Proof.
  intros l. unfold all_masked, has_value. split.
  - induction l as [|[q|] l IH]; cbn [forallb is_masked andb]; intros H.
    + discriminate.
    + exists q. left. reflexivity.
    + destruct (IH H) as (q & Q). exists q. right. exact Q.
  - intros (q & Q). apply not_true_is_false. intros F. rewrite forallb_forall in F.
    specialize (F _ Q). discriminate.
Qed.
Lemma spread_within : forall l w, has_value l ->
  Qle_bool (ma_max l - ma_min l) w = true <-> within l w.
Proof.
  intros l w H. destruct (ma_extremes l H) as (I1 & I2 & F). rewrite Qle_bool_iff. split.
  - intros L p q Hp Hq. pose proof (F p Hp). pose proof (F q Hq). lra.
  - intros W. apply W; assumption.
Qed.

(** ** Coordinates *)
Section GeoProofs.
Variable cosdeg : Q -> Q.
Variable gps : bool.
Variable site_meta : coord_key -> option Q.
Variable file : option raw_file.
Variable data : coord_key -> option (list (masked Q)).
Let reading := gps_reading gps file data.
Let pref := preferred attribute_reading gps site_meta file data.

Lemma nonzero_iff : forall x, nonzero x = true <-> exists q, x = Some q /\ ~ (q == 0)%Q.
Proof.
  intros [q|]; cbn [nonzero].
  - rewrite negb_true_iff. split.
    + intros H. exists q. split; [reflexivity|]. intros E. apply Qeq_bool_iff in E. congruence.
    + intros (p & E & N). injection E as <-. apply not_true_is_false. intros X.
      apply Qeq_bool_iff in X. contradiction.
  - split; [discriminate|]. intros (q & E & _). discriminate.
Qed.
Lemma mask_zeros : forall l, zeros_masked l (map (fun x => if nonzero x then x else None) l).
Proof.
  unfold zeros_masked. induction l as [|x l IH]; [constructor|]. cbn [map]. constructor; [|exact IH].
  destruct x as [q|]; [|reflexivity]. destruct (nonzero (Some q)) eqn:E.
  - right. apply nonzero_iff in E. destruct E as (p & E & N). injection E as <-. auto.
  - left. split; [|reflexivity]. cbn [nonzero] in E. apply negb_false_iff, Qeq_bool_iff in E. exact E.
Qed.
Lemma zeros_masked_value : forall l m, zeros_masked l m ->
  (exists q, In (Some q) l /\ ~ (q == 0)%Q) -> has_value m.
Proof.
  intros l m H. induction H as [|x y l m Hx _ IH]; intros (q & I & N); [destruct I|].
  destruct I as [->|I].
  - destruct Hx as [[Z _]|[_ ->]]; [contradiction|]. exists q. left. reflexivity.
  - destruct IH as (p & P); [eauto|]. exists p. right. exact P.
Qed.
Lemma gps_value_spec : forall k,
  match gps_value gps file data k with
  | Some m => exists l, reading k l /\ zeros_masked l m
  | None => ~ exists l, reading k l
  end.
Proof.
  intros k. unfold gps_value, reading, gps_reading.
  destruct gps eqn:G; cbn [andb]; [|intros (l & H & _); discriminate].
  assert (FV : forall l, match file_var file k with Some l => Some l | None => data k end = Some l <->
     ((exists f, file = Some f /\ rf_var f k = Some l) \/
      ((forall f, file = Some f -> rf_var f k = None) /\ data k = Some l))).
  { intros l. unfold file_var. destruct file as [f|].
    - destruct (rf_var f k) as [v|] eqn:V.
      + split; [intros H; left; exists f; split; congruence|].
        intros [(f' & E & H)|[H _]]; [congruence|]. specialize (H f eq_refl). congruence.
      + split; [intros H; right; split; [congruence|exact H]|].
        intros [(f' & E & H)|[_ H]]; [congruence|exact H].
    - split; [intros H; right; split; [congruence|exact H]|].
      intros [(f' & E & H)|[_ H]]; [congruence|exact H]. }
  assert (A : k = Alt \/ (k <> Alt /\ (match k with Alt => false | _ => true end) = true)).
  { destruct k; [right|right|left]; repeat split; try discriminate. }
  destruct A as [->|[NA EA]]; [intros (l & _ & N & _); congruence|]. rewrite EA.
  destruct (match file_var file k with Some l => Some l | None => data k end) as [l|].
  - specialize (FV l). destruct (existsb nonzero l) eqn:X.
    + apply existsb_exists in X. destruct X as (x & I & X). apply nonzero_iff in X.
      destruct X as (q & -> & N).
      assert (M : all_masked l = false) by (apply all_masked_iff; exists q; exact I).
      rewrite M. cbn [negb andb]. exists l. split; [|apply mask_zeros].
      split; [reflexivity|]. split; [exact NA|]. split; [apply FV; reflexivity|eauto].
    + rewrite andb_false_r. intros (l' & _ & _ & S & q & I & N).
      assert (E : l' = l).
      { destruct FV as [FV1 FV2]. specialize (FV1 eq_refl). clear - S FV1.
        destruct S as [(f & E & H)|[S1 S2]]; destruct FV1 as [(f' & E' & H')|[S1' S2']].
        - congruence.
        - rewrite (S1' f E) in H. discriminate.
        - rewrite (S1 f' E') in H'. discriminate.
        - congruence. }
      subst l'. assert (Y : existsb nonzero l = true).
      { apply existsb_exists. exists (Some q). split; [exact I|]. apply nonzero_iff. eauto. }
      congruence.
  - intros (l & _ & _ & S & _). apply FV in S. discriminate.
Qed.
Lemma attr_coord_spec : forall k,
  ~ (exists l, reading k l) -> site_meta k = None -> (forall l, file_var file k = Some l -> ~ has_value l) ->
  match attr_coord file k with
  | Ok (Some (c, s)) => pref k (atleast_1d c) s /\ has_value (atleast_1d c)
  | Ok None => ~ exists l s, pref k l s
  | Raise e => e = ValueError /\ exists f a, file = Some f /\ rf_attr f k = Some a /\
      a <> "Unknown" /\ forall r, ~ attribute_reading a r
  end.
Proof.
  intros k NG NS NV. unfold attr_coord, file_var in *. destruct file as [f|] eqn:Ef.
  2:{ intros (l & s & P). inversion P; subst; try congruence. apply NG. eauto. }
  destruct (rf_attr f k) as [a|] eqn:Ea.
  2:{ intros (l & s & P). inversion P; subst; try congruence; [apply NG; eauto|].
      apply (NV l); [congruence|assumption]. }
  pose proof (attribute_spec a) as AS. destruct (parse_attribute a) as [[q|]|e]; cbn [bind option_map].
  - split; [|exists q; left; reflexivity].
    apply (pref_attr _ _ _ _ _ _ f a q); auto. apply AS. reflexivity.
  - intros (l & s & P). inversion P; subst; try congruence; [apply NG; eauto| |].
    + apply (NV l); [congruence|assumption].
    + match goal with H : attribute_reading ?b _ |- _ => assert (b = "Unknown") by congruence; subst b; destruct H; congruence end.
  - destruct AS as (-> & N & R). split; [reflexivity|]. exists f, a. auto.
Qed.
Lemma find_coord_spec : forall k,
  match find_coord gps site_meta file data k with
  | Ok (Some (c, s)) => pref k (atleast_1d c) s /\ has_value (atleast_1d c)
  | Ok None => ~ exists l s, pref k l s
  | Raise e => e = ValueError /\ ~ (exists l, reading k l) /\ site_meta k = None /\
      exists f a, file = Some f /\ (forall l, rf_var f k = Some l -> ~ has_value l) /\
        rf_attr f k = Some a /\ a <> "Unknown" /\ forall r, ~ attribute_reading a r
  end.
Proof.
  intros k. unfold find_coord. pose proof (gps_value_spec k) as G.
  destruct (gps_value gps file data k) as [m|].
  { destruct G as (l & R & Z). cbn [atleast_1d]. split; [apply (pref_gps _ _ _ _ _ _ l m R Z)|].
    apply (zeros_masked_value l m Z). destruct R as (_ & _ & _ & N). exact N. }
  destruct (site_meta k) as [q|] eqn:S.
  { split; [apply pref_site; assumption|]. exists q. left. reflexivity. }
  assert (AC : (forall l, file_var file k = Some l -> ~ has_value l) ->
    match attr_coord file k with
    | Ok (Some (c, s)) => pref k (atleast_1d c) s /\ has_value (atleast_1d c)
    | Ok None => ~ exists l s, pref k l s
    | Raise e => e = ValueError /\ ~ (exists l, reading k l) /\ @None Q = None /\
      exists f a, file = Some f /\ (forall l, rf_var f k = Some l -> ~ has_value l) /\
        rf_attr f k = Some a /\ a <> "Unknown" /\ forall r, ~ attribute_reading a r
    end).
  { intros NV. pose proof (attr_coord_spec k G S NV) as AS.
    destruct (attr_coord file k) as [[[c s]|]|e]; [exact AS|exact AS|].
    destruct AS as (E & f & a & Ef & Ea & N & R). split; [exact E|]. split; [exact G|].
    split; [reflexivity|]. exists f, a. split; [exact Ef|]. split; [|auto].
    intros l Hl. apply NV. unfold file_var. rewrite Ef. exact Hl. }
  destruct (file_var file k) as [l|] eqn:V.
  - destruct (all_masked l) eqn:M.
    + apply AC. intros l' E H. injection E as <-. apply all_masked_iff in H. congruence.
    + apply all_masked_iff in M. cbn [atleast_1d]. split; [|exact M].
      unfold file_var in V. destruct file as [f|] eqn:Ef; [|discriminate].
      apply (pref_var _ _ _ _ _ _ f l); auto.
  - apply AC. intros l E. discriminate.
Qed.
Lemma stores_array : forall l, stores (CArray l) l.
Proof. intros l. left. reflexivity. Qed.
Lemma stores_mean : forall l, has_value l -> stores (CFloat (ma_mean l)) l.
Proof. intros l H. right. exists (ma_mean l). split; [reflexivity|apply ma_mean_spec, H]. Qed.
Lemma stores_self : forall c, stores c (atleast_1d c).
Proof.
  intros [q|l]; [|left; reflexivity]. right. exists q. split; [reflexivity|]. split; [reflexivity|].
  cbn. ring.
Qed.
Lemma geolocation_spec : forall out,
  add_site_geolocation cosdeg gps site_meta file data = Ok out ->
  forall k, match out k with
            | Some (c, s) => exists l, pref k l s /\ has_value l /\ stores c l
            | None => ~ exists l s, pref k l s
            end.
Proof.
  intros out H. unfold add_site_geolocation in H.
  pose proof (find_coord_spec Lat) as PA. pose proof (find_coord_spec Lon) as PO.
  pose proof (find_coord_spec Alt) as PL.
  destruct (find_coord gps site_meta file data Lat) as [la|e]; [|discriminate].
  destruct (find_coord gps site_meta file data Lon) as [lo|e]; [|discriminate].
  destruct (find_coord gps site_meta file data Alt) as [al|e]; [|discriminate].
  cbn [bind] in H.
  assert (AL : match (match al with
    | Some (a, sa) => let l := atleast_1d a in
                      if qlt (ma_max l - ma_min l) 100 then Some (CFloat (ma_mean l), sa) else Some (a, sa)
    | None => None end) with
    | Some (c, s) => exists l, pref Alt l s /\ has_value l /\ stores c l
    | None => ~ exists l s, pref Alt l s end).
  { destruct al as [[a sa]|]; [|exact PL]. destruct PL as [P V]. cbv zeta.
    destruct (qlt _ 100); exists (atleast_1d a); (split; [exact P|]); (split; [exact V|]);
    [apply stores_mean, V|apply stores_self]. }
  destruct la as [[a sa]|]; destruct lo as [[o so]|]; cbv zeta in H.
  - destruct PA as [PA VA]. destruct PO as [PO VO].
    destruct (are_stationary cosdeg (atleast_1d a) (atleast_1d o)); injection H as <-; intros [| |];
    try exact AL; eexists; (split; [eassumption|]); (split; [assumption|]);
    first [apply stores_mean; assumption|apply stores_array].
  - injection H as <-. intros [| |]; [|exact PO|exact AL].
    destruct PA as [PA VA]. exists (atleast_1d a). split; [exact PA|]. split; [exact VA|apply stores_self].
  - injection H as <-. intros [| |]; [exact PA| |exact AL].
    destruct PO as [PO VO]. exists (atleast_1d o). split; [exact PO|]. split; [exact VO|apply stores_self].
  - injection H as <-. intros [| |]; assumption.
Qed.
Lemma pref_unique : forall k l s l' s', pref k l s -> pref k l' s' ->
  s = s' /\ Forall2 (fun x y => match x, y with Some p, Some q => (p == q)%Q | None, None => True | _, _ => False end) l l'.
Proof.
  assert (RU : forall k l l', reading k l -> reading k l' -> l = l').
  { intros k l l' (_ & _ & S & _) (_ & _ & S' & _).
    destruct S as [(f & E & H)|[S1 S2]]; destruct S' as [(f' & E' & H')|[S1' S2']].
    - congruence.
    - rewrite (S1' f E) in H. discriminate.
    - rewrite (S1 f' E') in H'. discriminate.
    - congruence. }
  assert (ZU : forall l m m', zeros_masked l m -> zeros_masked l m' -> m = m').
  { induction l as [|x l IH]; intros m m' H H'; inversion H; inversion H'; subst; [reflexivity|].
    f_equal; [|apply IH; assumption]. destruct x as [q|]; [|congruence].
    destruct H2 as [[A ->]|[A ->]]; destruct H7 as [[B ->]|[B ->]]; try reflexivity; contradiction. }
  assert (R : forall l : list (masked Q), Forall2 (fun x y => match x, y with Some p, Some q => (p == q)%Q | None, None => True | _, _ => False end) l l).
  { induction l as [|[q|] l IH]; constructor; auto. reflexivity. }
  intros k l s l' s' P P'.
  inversion P; subst; inversion P'; subst; try (exfalso; match goal with H : ~ (exists _, _) |- _ => apply H; eexists; eassumption end);
    try congruence; (split; [reflexivity|]).
  - match goal with A : gps_reading _ _ _ _ ?x, B : gps_reading _ _ _ _ ?y |- _ =>
      assert (x = y) by (apply (RU k); assumption); subst end.
    match goal with A : zeros_masked ?x l, B : zeros_masked ?x l' |- _ => rewrite (ZU _ _ _ A B) end. apply R.
  - assert (q = q0) by congruence. subst. apply R.
  - assert (l = l') by congruence. subst. apply R.
  - exfalso. assert (f = f0) by congruence. subst.
    match goal with A : forall l, _ -> ~ has_value l, B : has_value ?x |- _ => apply (A x); assumption end.
  - exfalso. assert (f = f0) by congruence. subst.
    match goal with A : forall l, _ -> ~ has_value l, B : has_value ?x |- _ => apply (A x); assumption end.
  - constructor; [|constructor]. assert (f = f0) by congruence. subst. assert (a = a0) by congruence. subst.
    match goal with A : attribute_reading ?x ?p, B : attribute_reading ?x ?q |- _ =>
      pose proof (attribute_spec x) as AS; destruct (parse_attribute x) as [[r|]|e];
      [apply AS in A; apply AS in B; lra|destruct A; congruence|destruct AS as (_ & _ & AS); exfalso; apply (AS _ A)] end.
Qed.
Lemma geolocation_still : forall out ca sa co so,
  add_site_geolocation cosdeg gps site_meta file data = Ok out ->
  out Lat = Some (ca, sa) -> out Lon = Some (co, so) ->
  exists la lo mn mx, pref Lat la sa /\ pref Lon lo so /\ extremes la mn mx /\
    (within la (1 # 100) /\ within lo ((1 # 100) / cosdeg ((mn + mx) / 2)) ->
     exists m m', ca = CFloat m /\ co = CFloat m' /\ mean_of la m /\ mean_of lo m') /\
    (~ (within la (1 # 100) /\ within lo ((1 # 100) / cosdeg ((mn + mx) / 2))) ->
     ca = CArray la /\ co = CArray lo).
Proof.
  intros out ca sa co so H HA HO. unfold add_site_geolocation in H.
  pose proof (find_coord_spec Lat) as PA. pose proof (find_coord_spec Lon) as PO.
  destruct (find_coord gps site_meta file data Lat) as [la|e]; [|discriminate].
  destruct (find_coord gps site_meta file data Lon) as [lo|e]; [|discriminate].
  destruct (find_coord gps site_meta file data Alt) as [al|e]; [|discriminate].
  cbn [bind] in H. destruct la as [[a sa']|].
  2:{ exfalso. destruct lo as [[o so']|]; injection H as <-; discriminate. }
  destruct lo as [[o so']|].
  2:{ exfalso. injection H as <-. discriminate. }
  cbv zeta in H. destruct PA as [PA VA]. destruct PO as [PO VO].
  exists (atleast_1d a), (atleast_1d o), (ma_min (atleast_1d a)), (ma_max (atleast_1d a)).
  assert (ST : are_stationary cosdeg (atleast_1d a) (atleast_1d o) = true <->
    (within (atleast_1d a) (1 # 100) /\
     within (atleast_1d o) ((1 # 100) / cosdeg ((ma_min (atleast_1d a) + ma_max (atleast_1d a)) / 2)))).
  { unfold are_stationary. rewrite andb_true_iff, !spread_within by assumption. reflexivity. }
  destruct (are_stationary cosdeg (atleast_1d a) (atleast_1d o)) eqn:E; injection H as <-;
    injection HA as <- <-; injection HO as <- <-.
  - split; [exact PA|]. split; [exact PO|]. split; [apply ma_extremes, VA|]. split.
    + intros _. eexists. eexists. split; [reflexivity|]. split; [reflexivity|].
      split; apply ma_mean_spec; assumption.
    + intros N. exfalso. apply N, ST. reflexivity.
  - split; [exact PA|]. split; [exact PO|]. split; [apply ma_extremes, VA|]. split.
    + intros Y. apply ST in Y. discriminate.
    + intros _. split; reflexivity.
Qed.
Lemma geolocation_altitude : forall out c s,
  add_site_geolocation cosdeg gps site_meta file data = Ok out -> out Alt = Some (c, s) ->
  exists l, pref Alt l s /\
    ((forall p q, In (Some p) l -> In (Some q) l -> (p - q < 100)%Q) ->
     exists m, c = CFloat m /\ mean_of l m) /\
    ((exists p q, In (Some p) l /\ In (Some q) l /\ (100 <= p - q)%Q) -> c = CArray l).
Proof.
  intros out c s H HL. unfold add_site_geolocation in H.
  pose proof (find_coord_spec Alt) as PL.
  destruct (find_coord gps site_meta file data Lat) as [la|e]; [|discriminate].
  destruct (find_coord gps site_meta file data Lon) as [lo|e]; [|discriminate].
  destruct (find_coord gps site_meta file data Alt) as [al|e]; [|discriminate].
  cbn [bind] in H.
  assert (OA : (match al with
    | Some (a, sa) => let l := atleast_1d a in
                      if qlt (ma_max l - ma_min l) 100 then Some (CFloat (ma_mean l), sa) else Some (a, sa)
    | None => None end) = Some (c, s)).
  { destruct la as [[a sa]|]; destruct lo as [[o so]|]; cbv zeta in H;
    try destruct (are_stationary cosdeg (atleast_1d a) (atleast_1d o)); injection H as <-; exact HL. }
  destruct al as [[a sa]|]; [|discriminate]. destruct PL as [P V]. cbv zeta in OA.
  exists (atleast_1d a). destruct (ma_extremes _ V) as (I1 & I2 & F).
  unfold qlt in OA. destruct (Qle_bool 100 (ma_max (atleast_1d a) - ma_min (atleast_1d a))) eqn:E;
    cbn [negb] in OA; injection OA as <- <-; (split; [exact P|]); split.
  - intros W. apply Qle_bool_iff in E. specialize (W _ _ I2 I1). lra.
  - intros _. destruct a as [q|l]; [|reflexivity]. cbn in E. exfalso. apply Qle_bool_iff in E.
    cbn in E. unfold ma_max, ma_min in E. cbn in E. lra.
  - intros _. eexists. split; [reflexivity|apply ma_mean_spec, V].
  - intros (p & q & Ip & Iq & L). exfalso. pose proof (F p Ip). pose proof (F q Iq).
    assert (X : Qle_bool 100 (ma_max (atleast_1d a) - ma_min (atleast_1d a)) = true)
      by (apply Qle_bool_iff; lra). congruence.
Qed.
Definition unreadable (k : coord_key) : Prop :=
  ~ (exists l, reading k l) /\ site_meta k = None /\
  exists f a, file = Some f /\ (forall l, rf_var f k = Some l -> ~ has_value l) /\
    rf_attr f k = Some a /\ a <> "Unknown" /\ forall r, ~ attribute_reading a r.
Lemma find_coord_raises : forall k, (exists e, find_coord gps site_meta file data k = Raise e) <-> unreadable k.
Proof.
  intros k. split.
  - intros (e & E). pose proof (find_coord_spec k) as P. rewrite E in P. apply P.
  - intros (NG & S & f & a & Ef & NV & Ea & N & R). unfold find_coord.
    pose proof (gps_value_spec k) as G. destruct (gps_value gps file data k) as [m|].
    { exfalso. apply NG. destruct G as (l & G & _). eauto. }
    rewrite S. assert (AC : exists e, attr_coord file k = Raise e).
    { unfold attr_coord. rewrite Ef, Ea. pose proof (attribute_spec a) as AS.
      destruct (parse_attribute a) as [[q|]|e]; [|contradiction|].
      - exfalso. apply (R q), AS. reflexivity.
      - exists e. reflexivity. }
    assert (FV : file_var file k = rf_var f k) by (unfold file_var; rewrite Ef; reflexivity).
    rewrite FV. destruct (rf_var f k) as [l|] eqn:V; [|exact AC].
    destruct (all_masked l) eqn:M; [exact AC|]. exfalso. apply (NV l eq_refl), all_masked_iff, M.
Qed.
Lemma geolocation_raises : forall e,
  add_site_geolocation cosdeg gps site_meta file data = Raise e -> e = ValueError /\ exists k, unreadable k.
Proof.
  intros e H. unfold add_site_geolocation in H.
  assert (X : forall k e', find_coord gps site_meta file data k = Raise e' -> e' = ValueError /\ exists k, unreadable k).
  { intros k e' E. split; [|exists k; apply find_coord_raises; eauto].
    pose proof (find_coord_spec k) as P. rewrite E in P. apply P. }
  destruct (find_coord gps site_meta file data Lat) as [la|e1] eqn:E1; [|injection H as <-; eapply X; eassumption].
  destruct (find_coord gps site_meta file data Lon) as [lo|e1] eqn:E2; [|injection H as <-; eapply X; eassumption].
  destruct (find_coord gps site_meta file data Alt) as [al|e1] eqn:E3; [|injection H as <-; eapply X; eassumption].
  cbn [bind] in H. destruct la as [[a sa]|]; destruct lo as [[o so]|]; cbv zeta in H;
    try destruct (are_stationary cosdeg (atleast_1d a) (atleast_1d o)); discriminate.
Qed.
Lemma geolocation_succeeds : (forall k, ~ unreadable k) ->
  exists out, add_site_geolocation cosdeg gps site_meta file data = Ok out.
Proof.
  intros N. destruct (add_site_geolocation cosdeg gps site_meta file data) as [out|e] eqn:E; [eauto|].
  apply geolocation_raises in E. destruct E as (_ & k & U). exfalso. apply (N k), U.
Qed.
End GeoProofs.
