(** Proofs about the readers of Radiometrics microwave radiometers. *)
From Verif Require Import Base ArrayModel FillModel LayerModel GridModel OutputModel SiteModel TelegramModel
  RadiometricsModel TimeSpec SiteSpec TelegramSpec RadiometricsSpec
  ArrayProofs FillProofs GridProofs SiteProofs TelegramProofs.
From Coq Require Import Qabs String Ascii Lqa.
Open Scope string_scope.
Open Scope nat_scope.
Open Scope list_scope.
Local Notation length := List.length (only parsing).

Lemma ok_or_ok {A} e (o : option A) x : ok_or e o = Ok x <-> o = Some x.
Proof. destruct o; cbn; split; congruence. Qed.

Section Proofs.
Variable to_int : string -> option Z.
Variable to_float : string -> option (masked Q).
Variable ordinal : Z -> Z -> Z -> option Z.
Local Notation parse_date := (parse_date to_int ordinal).
Local Notation parse_time := (parse_time to_int).
Local Notation parse_datetime := (parse_datetime to_int ordinal).
Local Notation mdy_text := (mdy_text to_int ordinal).
Local Notation hms_text := (hms_text to_int).
Local Notation stamp_text := (stamp_text to_int ordinal).
Local Notation header := (header to_int).
Local Notation in_force := (in_force to_int).
Local Notation record_of := (record_of to_int ordinal).
Local Notation record_at := (record_at to_int ordinal).
Local Notation understood := (understood to_int ordinal).

(** ** Dates and times *)
Lemma mdy_iff text d : parse_date text = Some d <-> mdy_text text d.
Proof.
  unfold RadiometricsModel.parse_date, RadiometricsSpec.mdy_text. split.
  - destruct (split_on "/"%char text) as [|a [|b [|c [|x l]]]] eqn:E; cbn [map]; try discriminate.
    { destruct (to_int a); discriminate. }
    { destruct (to_int a); [|discriminate]. destruct (to_int b); discriminate. }
    2:{ destruct (to_int a); [|discriminate]. destruct (to_int b); [|discriminate]. destruct (to_int c); discriminate. }
    destruct (to_int a) as [m|] eqn:Ea; [|discriminate]. destruct (to_int b) as [dd|] eqn:Eb; [|discriminate].
    destruct (to_int c) as [y|] eqn:Ec; [|discriminate]. intros H.
    exists a, b, c, m, dd, y. apply split_on_iff in E. split; [exact E|]. repeat (split; [assumption|]).
    destruct (y <? 100)%Z eqn:L; [left; apply Z.ltb_lt in L|right; apply Z.ltb_ge in L]; split; try lia; try exact H.
    rewrite Z.add_comm. exact H.
  - intros (a & b & c & m & dd & y & S & Ea & Eb & Ec & H). apply split_on_iff in S. rewrite S. cbn [map].
    rewrite Ea, Eb, Ec. destruct H as [[L H]|[L H]].
    + apply Z.ltb_lt in L. rewrite L, Z.add_comm. exact H.
    + apply Z.ltb_ge in L. rewrite L. exact H.
Qed.
Lemma hms_iff text t : parse_time text = Some t <-> hms_text text t.
Proof.
  unfold RadiometricsModel.parse_time, RadiometricsSpec.hms_text. split.
  - destruct (split_on ":"%char text) as [|a [|b [|c [|x l]]]] eqn:E; cbn [map]; try discriminate.
    { destruct (to_int a); discriminate. }
    { destruct (to_int a); [|discriminate]. destruct (to_int b); discriminate. }
    2:{ destruct (to_int a); [|discriminate]. destruct (to_int b); [|discriminate]. destruct (to_int c); discriminate. }
    destruct (to_int a) as [h|] eqn:Ea; [|discriminate]. destruct (to_int b) as [m|] eqn:Eb; [|discriminate].
    destruct (to_int c) as [s|] eqn:Ec; [|discriminate].
    match goal with |- (if ?b then _ else _) = _ -> _ => destruct b eqn:B end; [|discriminate].
    rewrite !andb_true_iff, !Z.leb_le, !Z.ltb_lt in B. intros H. exists a, b, c, h, m, s. apply split_on_iff in E.
    split; [exact E|]. repeat (split; [assumption|]). assert (t = h * 3600 + m * 60 + s)%Z by congruence. lia.
  - intros (a & b & c & h & m & s & S & Ea & Eb & Ec & B & ->). apply split_on_iff in S. rewrite S. cbn [map].
    rewrite Ea, Eb, Ec.
    match goal with |- (if ?b then _ else _) = _ => assert (X : b = true) by (rewrite !andb_true_iff, !Z.leb_le, !Z.ltb_lt; lia); rewrite X end.
    f_equal. lia.
Qed.
Lemma words_iff s ws : words s = ws <-> words_of s ws.
Proof. split; [intros <-; apply words_exist|apply words_unique]. Qed.
Lemma stamp_iff text t : parse_datetime text = Some t <-> stamp_text text t.
Proof.
  unfold RadiometricsModel.parse_datetime, RadiometricsSpec.stamp_text. split.
  - destruct (words text) as [|a [|b [|x l]]] eqn:E; try discriminate.
    destruct (parse_date a) as [d|] eqn:Ed; [|discriminate]. destruct (parse_time b) as [s|] eqn:Es; [|discriminate].
    intros H. exists a, b, d, s. apply words_iff in E. apply mdy_iff in Ed. apply hms_iff in Es.
    repeat (split; [assumption|]). assert (t = d * 86400 + s)%Z by congruence. lia.
  - intros (a & b & d & s & W & D & T & ->). apply words_iff in W. apply mdy_iff in D. apply hms_iff in T.
    rewrite W, D, T. f_equal. lia.
Qed.

(** ** Digits *)
Lemma is_digit_iff c : is_digit c = true <-> 48 <= nat_of_ascii c <= 57.
Proof.
  unfold is_digit, digit_of. destruct (48 <=? nat_of_ascii c) eqn:A; destruct (nat_of_ascii c <=? 57) eqn:B; cbn [andb];
    rewrite ?Nat.leb_le, ?Nat.leb_gt in *; split; intros; try lia; try discriminate; reflexivity.
Qed.
Lemma all_digits_iff s : all_digits s = true <-> forall a c b, s = (a ++ String c b)%string -> 48 <= nat_of_ascii c <= 57.
Proof.
  induction s as [|x s IH]; cbn [all_digits].
  - split; [|reflexivity]. intros _ a c b H. destruct a; discriminate.
  - rewrite andb_true_iff, is_digit_iff, IH. split.
    + intros [Hx Hs] a c b H. destruct a as [|y a]; cbn in H.
      * assert (x = c) by congruence. subst x. exact Hx.
      * apply (Hs a c b). congruence.
    + intros H. split; [apply (H "" x s); reflexivity|]. intros a c b E. apply (H (String x a) c b). cbn. congruence.
Qed.
Lemma isdigit_iff s : isdigit s = true <-> number_digits s.
Proof.
  unfold number_digits. rewrite <- all_digits_iff. destruct s as [|x s]; cbn [isdigit].
  - split; [discriminate|]. intros [H _]. congruence.
  - split; [intros H; split; [discriminate|exact H]|intros [_ H]; exact H].
Qed.
Lemma digits_no_dot a : number_digits a -> without "."%char a.
Proof. intros [_ H] (x & y & E). apply H in E. cbn in E. lia. Qed.
Lemma is_range_iff c : is_range c = true <-> height_name c.
Proof.
  unfold is_range, height_name. split.
  - destruct (split_on "."%char c) as [|a [|b [|x l]]] eqn:E; try discriminate. intros H.
    apply andb_true_iff in H as [Ha Hb]. apply split_on_iff in E as (_ & _ & E). exists a, b.
    rewrite <- !isdigit_iff. split; [|split; assumption]. rewrite E. reflexivity.
  - intros (a & b & -> & Ha & Hb).
    assert (S : split_on "."%char (a ++ "." ++ b)%string = [a; b]).
    { apply split_on_unique. split; [discriminate|]. split; [|reflexivity].
      repeat (apply Forall_cons; [apply digits_no_dot; assumption|]). constructor. }
    rewrite S. apply isdigit_iff in Ha. apply isdigit_iff in Hb. rewrite Ha, Hb. reflexivity.
Qed.
Lemma str_app_assoc a b c : ((a ++ b) ++ c = a ++ (b ++ c))%string.
Proof. induction a as [|x a IH]; cbn; [reflexivity|]. rewrite IH. reflexivity. Qed.
Lemma drop_dot_without s : without "."%char s -> drop_dot s = s.
Proof.
  induction s as [|x s IH]; intros H; cbn [drop_dot]; [reflexivity|]. destruct (Ascii.eqb x "."%char) eqn:E.
  - apply Ascii.eqb_eq in E. subst x. exfalso. apply H. exists "", s. reflexivity.
  - f_equal. apply IH. intros (a & b & ->). apply H. exists (String x a), b. reflexivity.
Qed.
Lemma drop_dot_at a b : without "."%char a -> drop_dot (a ++ String "."%char b)%string = (a ++ b)%string.
Proof.
  induction a as [|x a IH]; intros H; cbn; [reflexivity|]. destruct (Ascii.eqb x "."%char) eqn:E.
  - apply Ascii.eqb_eq in E. subst x. exfalso. apply H. exists "", a. reflexivity.
  - f_equal. apply IH. intros (x' & y & ->). apply H. exists (String x x'), y. reflexivity.
Qed.
Lemma dot_cases s : without "."%char s \/ exists a b, s = (a ++ String "."%char b)%string /\ without "."%char a.
Proof.
  induction s as [|x s IH].
  - left. intros (a & b & H). destruct a; discriminate.
  - destruct (ascii_dec x "."%char) as [->|N].
    + right. exists "", s. split; [reflexivity|]. intros (a & b & H). destruct a; discriminate.
    + destruct IH as [W|(a & b & -> & W)].
      * left. intros (a & b & H). destruct a as [|y a]; cbn in H; [congruence|]. apply W. exists a, b. congruence.
      * right. exists (String x a), b. split; [reflexivity|]. intros (a' & b' & H). destruct a' as [|y a']; cbn in H; [congruence|].
        apply W. exists a', b'. congruence.
Qed.
Lemma plain_iff v : isdigit (drop_dot v) = true <-> plain_number v.
Proof.
  rewrite isdigit_iff. unfold plain_number. destruct (dot_cases v) as [W|(a & b & -> & W)].
  - rewrite drop_dot_without by exact W. split; [auto|]. intros [H|(a & b & -> & _)]; [exact H|].
    exfalso. apply W. exists a, b. reflexivity.
  - rewrite drop_dot_at by exact W. split.
    + intros H. right. exists a, b. split; [reflexivity|]. split; [exact H|]. intros x y ->. apply W. exists x, y. reflexivity.
    + intros [H|(a' & b' & E & H & W')].
      * exfalso. destruct H as [_ H]. specialize (H a "."%char b eq_refl). cbn in H. lia.
      * assert (X : a = a' /\ b = b').
        { assert (W2 : without "."%char a') by (intros (x & y & ->); apply (W' x y); reflexivity). clear - E W W2.
          change (a' ++ "." ++ b')%string with (a' ++ String "."%char b')%string in E.
          revert a' E W2. induction a as [|x a IH]; intros [|x' a'] E W2; cbn in E.
          - split; congruence.
          - exfalso. apply W2. exists "", a'. cbn. congruence.
          - exfalso. apply W. exists "", a. cbn. congruence.
          - destruct (IH (fun H => W (match H with ex_intro _ p (ex_intro _ q h) => ex_intro _ (String x p) (ex_intro _ q (f_equal (String x) h)) end)) a') as [-> ->].
            + congruence.
            + intros (p & q & ->). apply W2. exists (String x' p), q. reflexivity.
            + split; congruence. }
        destruct X as [-> ->]. exact H.
Qed.

(** ** Rows *)
Lemma find_z_in_force before t c cols :
  (forall t c, find_z t cols = Some c <-> in_force before t c) ->
  find_z t cols = Some c <-> in_force before t c.
Proof. intros H. apply H. Qed.
Lemma header_fun row t c t' c' : header row t c -> header row t' c' -> t = t' /\ c = c'.
Proof. intros (f & E & T) (f' & E' & T'). assert (f = f' /\ c = c') as [<- <-] by (split; congruence). split; congruence. Qed.
Lemma in_force_snoc before row t c : in_force (before ++ [row]) t c <->
  header row t c \/ (in_force before t c /\ forall c', ~ header row t c').
Proof.
  split.
  - intros (b1 & r & b2 & E & H & L). destruct b2 as [|x b2] using rev_ind.
    + apply app_inj_tail in E as [-> ->]. left. exact H.
    + clear IHb2. right. rewrite app_comm_cons, app_assoc in E. apply app_inj_tail in E as [-> ->]. split.
      * exists b1, r, b2. split; [reflexivity|]. split; [exact H|]. intros r' c' I. apply L. apply in_or_app. auto.
      * intros c' K. apply (L x c'); [apply in_or_app; right; left; reflexivity|exact K].
  - intros [H|[(b1 & r & b2 & -> & H & L) N]].
    + exists before, row, []. split; [reflexivity|]. split; [exact H|]. intros r' c' [].
    + exists b1, r, (b2 ++ [row]). split; [rewrite <- app_assoc; reflexivity|]. split; [exact H|].
      intros r' c' I. apply in_app_or in I as [I|[<-|[]]]; [apply L; exact I|apply N].
Qed.
Lemma without_empty_filter l : filter (fun v => negb (String.eqb v "")) l = without_empty l.
Proof. induction l as [|v l IH]; [reflexivity|]. cbn. destruct v; cbn; rewrite IH; reflexivity. Qed.
Lemma lookup_app {A} k (l1 l2 : list (string * A)) :
  lookup k (l1 ++ l2) = match lookup k l1 with Some v => Some v | None => lookup k l2 end.
Proof. induction l1 as [|[k' v] l1 IH]; [reflexivity|]. cbn. destruct (String.eqb k k'); [reflexivity|exact IH]. Qed.
Lemma lookup_zip columns : forall values c v, length columns = length values ->
  lookup c (rev (combine columns values)) = Some v <-> value_of columns values c v.
Proof.
  induction columns as [|x columns IH]; intros [|y values] c v L; cbn [length] in L; try discriminate.
  - cbn. split; [discriminate|]. intros (k & H & _). destruct k; discriminate.
  - cbn [combine rev]. rewrite lookup_app. cbn [lookup]. specialize (IH values). assert (L' : length columns = length values) by lia.
    destruct (lookup c (rev (combine columns values))) as [w|] eqn:E.
    + pose proof E as E0. apply IH in E; [|exact L']. destruct E as (k & C & V & N). split.
      * intros H. assert (w = v) by congruence. subst w. exists (Datatypes.S k). split; [exact C|]. split; [exact V|].
        intros [|k'] K; [lia|]. apply N. lia.
      * intros (k2 & C2 & V2 & N2). destruct k2 as [|k2].
        -- exfalso. apply (N2 (Datatypes.S k)); [lia|exact C].
        -- f_equal. destruct (Nat.lt_trichotomy k k2) as [G|[->|G]].
           ++ exfalso. apply (N k2 G). exact C2.
           ++ cbn in V2. congruence.
           ++ exfalso. apply (N2 (Datatypes.S k)); [lia|exact C].
    + assert (No : forall v', ~ value_of columns values c v').
      { intros v' H. apply IH in H; [congruence|exact L']. }
      assert (Out : ~ In c columns).
      { intros I. apply In_nth_error in I as [k K].
        assert (X : exists k', nth_error columns k' = Some c /\ forall k'', k' < k'' -> nth_error columns k'' <> Some c).
        { clear - K. revert k K. induction columns as [|z columns IH]; intros k K; [destruct k; discriminate|].
          destruct (in_dec string_dec c columns) as [I|I].
          - apply In_nth_error in I as [k1 K1]. destruct (IH k1 K1) as (k' & A & B). exists (Datatypes.S k'). split; [exact A|].
            intros [|k''] G; [lia|]. apply B. lia.
          - exists 0. destruct k as [|k]; [|exfalso; apply I; eapply nth_error_In; exact K]. split; [exact K|].
            intros [|k''] G; [lia|]. intros H. apply I. eapply nth_error_In. exact H. }
        destruct X as (k' & A & B). destruct (nth_error values k') as [v'|] eqn:V.
        - apply (No v'). exists k'. auto.
        - apply nth_error_None in V. assert (k' < length columns) by (apply nth_error_Some; congruence). lia. }
      destruct (String.eqb c x) eqn:X.
      * apply String.eqb_eq in X. subst x. split.
        -- intros H. assert (y = v) by congruence. subst y. exists 0. split; [reflexivity|]. split; [reflexivity|].
           intros [|k'] G; [lia|]. intros H'. apply Out. eapply nth_error_In. exact H'.
        -- intros (k & C & V & N). destruct k as [|k]; [cbn in V; congruence|]. exfalso. apply Out. eapply nth_error_In. exact C.
      * split; [discriminate|]. intros (k & C & V & N). apply String.eqb_neq in X. destruct k as [|k]; [cbn in C; congruence|].
        exfalso. apply Out. eapply nth_error_In. exact C.
Qed.
Local Notation raw_row := (raw_row to_int ordinal).
Local Notation data_row := (data_row to_int ordinal).
Local Notation header_row := (header_row to_int).

Definition raw_ok (before : list (list string)) (st : raw_state) : Prop :=
  (forall t c, find_z t (w_columns st) = Some c <-> in_force before t c) /\
  RadiometricsSpec.ranges_of to_int before (w_ranges st) /\
  exists P, map snd P = w_rows st /\ StronglySorted lt (map fst P) /\
    (forall i r, In (i, r) P -> record_at before i r) /\
    (forall i r, record_at before i r -> exists r', In (i, r') P).

Lemma tens t : (t / 10 * 10 = t - t mod 10)%Z.
Proof. pose proof (Z.div_mod t 10). lia. Qed.

Lemma header_row_cases st row :
  (exists t c, header row t c /\ header_row st row = Ok {| w_columns := (t, c) :: w_columns st;
     w_ranges := if (t =? 10)%Z || (t =? 400)%Z then filter is_range c else w_ranges st; w_rows := w_rows st |}) \/
  (forall rest, row = "Record" :: rest -> (forall t c, ~ header row t c) /\ exists e, header_row st row = Raise e /\ row_error row e).
Proof.
  unfold RadiometricsModel.header_row.
  destruct row as [|r0 [|d [|t columns]]].
  - right. intros rest H. discriminate.
  - right. intros rest H. split; [intros t c (f & E & _); discriminate|]. exists IndexError. split; [reflexivity|].
    right. split; [intros d rest' E; discriminate|]. left. cbn. split; [lia|reflexivity].
  - right. intros rest H. split; [intros t c (f & E & _); discriminate|]. assert (r0 = "Record") by congruence. subst r0. destruct (String.eqb d "Date/Time") eqn:D.
    + apply String.eqb_eq in D. subst d. exists IndexError. split; [reflexivity|]. right. split; [intros d rest' E; congruence|].
      left. cbn. split; [lia|reflexivity].
    + apply String.eqb_neq in D. exists RuntimeError. split; [reflexivity|]. left. exists d, []. auto.
  - destruct (String.eqb d "Date/Time") eqn:D; cbn [negb].
    + apply String.eqb_eq in D. subst d. destruct (to_int t) as [ty|] eqn:T.
      * destruct (string_dec r0 "Record") as [->|N].
        -- left. exists ty, columns. split; [exists t; split; [reflexivity|exact T]|reflexivity].
        -- right. intros rest H. congruence.
      * right. intros rest H. assert (r0 = "Record") by congruence. subst r0.
        split; [intros ty c (f & E & T'); congruence|]. exists ValueError. split; [reflexivity|]. right.
        split; [intros d rest' E; congruence|]. right. cbn. split; [lia|reflexivity].
    + apply String.eqb_neq in D. right. intros rest H. assert (r0 = "Record") by congruence. subst r0.
      split; [intros ty c (f & E & T'); congruence|]. exists RuntimeError. split; [reflexivity|]. left. exists d, (t :: columns). auto.
Qed.

Lemma header_not_record before row t c r : header row t c -> ~ record_of before row r.
Proof. intros (f & E & _) (r0 & r1 & r2 & rest & ty & cols & E' & N & _). congruence. Qed.

Lemma record_at_snoc before row i r : record_at (before ++ [row]) i r <->
  record_at before i r \/ (i = length before /\ record_of before row r).
Proof.
  unfold RadiometricsSpec.record_at. split.
  - intros (row' & N & R). destruct (Nat.lt_ge_cases i (length before)) as [L|L].
    + left. rewrite nth_error_app1 in N by exact L. rewrite firstn_app in R. replace (i - length before) with 0 in R by lia.
      cbn [firstn] in R. rewrite app_nil_r in R. eauto.
    + right. assert (i < length (before ++ [row])) by (apply nth_error_Some; congruence). rewrite app_length in H. cbn [length] in H.
      assert (i = length before) by lia. subst i. split; [reflexivity|]. rewrite nth_error_app2 in N by lia.
      rewrite Nat.sub_diag in N. cbn in N. assert (row' = row) by congruence. subst row'.
      rewrite firstn_app, firstn_all, Nat.sub_diag in R. cbn [firstn] in R. rewrite app_nil_r in R. exact R.
  - intros [(row' & N & R)|[-> R]].
    + assert (L : i < length before) by (apply nth_error_Some; congruence). exists row'. rewrite nth_error_app1 by exact L.
      split; [exact N|]. rewrite firstn_app. replace (i - length before) with 0 by lia. cbn [firstn]. rewrite app_nil_r. exact R.
    + exists row. rewrite nth_error_app2, Nat.sub_diag by lia. split; [reflexivity|].
      rewrite firstn_app, firstn_all, Nat.sub_diag. cbn [firstn]. rewrite app_nil_r. exact R.
Qed.

Lemma ranges_of_other before row ranges : (forall t c, ~ header row t c) ->
  RadiometricsSpec.ranges_of to_int before ranges -> RadiometricsSpec.ranges_of to_int (before ++ [row]) ranges.
Proof.
  intros N [(b1 & r & b2 & t & c & -> & H & T & L & K)|[-> L]].
  - left. exists b1, r, (b2 ++ [row]), t, c. split; [rewrite <- app_assoc; reflexivity|]. split; [exact H|]. split; [exact T|].
    split; [|exact K]. intros r' c' I. apply in_app_or in I as [I|[<-|[]]]; [apply L; exact I|split; apply N].
  - right. split; [reflexivity|]. intros r' c' I. apply in_app_or in I as [I|[<-|[]]]; [apply L; exact I|split; apply N].
Qed.
Lemma filter_ranges c : exists keep, filter is_range c = map fst (filter snd (combine c keep)) /\
  Forall2 (fun c (b : bool) => b = true <-> height_name c) c keep.
Proof.
  exists (map is_range c). induction c as [|x c [IH1 IH2]]; cbn [map filter combine]; [split; [reflexivity|constructor]|].
  split.
  - cbn [snd]. destruct (is_range x); cbn [map fst]; [f_equal; exact IH1|exact IH1].
  - constructor; [apply is_range_iff|exact IH2].
Qed.

Lemma data_row_cases st before row : row <> [] -> (forall rest, row <> "Record" :: rest) ->
  (forall t c, find_z t (w_columns st) = Some c <-> in_force before t c) ->
  (data_row st row = Ok st /\ understood before row /\ forall r, ~ record_of before row r) \/
  (exists r, record_of before row r /\
     data_row st row = Ok {| w_columns := w_columns st; w_ranges := w_ranges st; w_rows := w_rows st ++ [r] |}) \/
  (~ understood before row /\ exists e, data_row st row = Raise e /\ row_error row e).
Proof.
  intros NE NR F. unfold RadiometricsModel.data_row.
  assert (NH : forall t c, ~ header row t c) by (intros t c (f & E & _); apply (NR ("Date/Time" :: f :: c)); exact E).
  assert (Bad : forall e, (length row < 3 /\ e = IndexError \/ 3 <= length row /\ e = ValueError) -> row_error row e).
  { intros e H. right. split; [|exact H]. intros d rest E. exfalso. eapply NR. exact E. }
  destruct row as [|r0 [|r1 [|r2 rest]]]; [congruence| | |].
  1,2: right; right; split; [intros [(t & c & H)|(s0 & s1 & s2 & rest & ty & E & _)]; [eapply NH; exact H|discriminate]|];
       exists IndexError; split; [reflexivity|]; apply Bad; left; cbn; split; [lia|reflexivity].
  assert (NR0 : r0 <> "Record") by (intros ->; eapply NR; reflexivity).
  destruct (to_int r2) as [ty|] eqn:T.
  2:{ right. right. split; [intros [(t & c & H)|(s0 & s1 & s2 & rest' & ty & E & _ & T' & _)]; [eapply NH; exact H|congruence]|].
      exists ValueError. split; [reflexivity|]. apply Bad. right. cbn. split; [lia|reflexivity]. }
  cbv zeta. rewrite (tens ty).
  destruct (find_z (ty - ty mod 10)%Z (w_columns st)) as [cols|] eqn:Fz.
  2:{ left. split; [reflexivity|]. 
      assert (No : forall c, ~ in_force before (ty - ty mod 10)%Z c) by (intros c H; apply F in H; congruence).
      split.
      - right. exists r0, r1, r2, rest, ty. repeat (split; [first [reflexivity|assumption]|]). left. exact No.
      - intros r (s0 & s1 & s2 & rest' & ty' & c & E & _ & T' & I & _). assert (ty' = ty) by congruence. subst ty'.
        eapply No. exact I. }
  rewrite without_empty_filter. apply F in Fz.
  assert (Un : forall s0 s1 s2 rest' ty' c, r0 :: r1 :: r2 :: rest = s0 :: s1 :: s2 :: rest' -> to_int s2 = Some ty' ->
    in_force before (ty' - ty' mod 10)%Z c -> s0 = r0 /\ s1 = r1 /\ ty' = ty /\ c = cols).
  { intros s0 s1 s2 rest' ty' c E T' I. assert (s0 = r0 /\ s1 = r1 /\ s2 = r2) as (-> & -> & ->) by (repeat split; congruence).
    assert (ty' = ty) by congruence. subst ty'. apply F in I. apply F in Fz. repeat split; congruence. }
  assert (Fail : (forall r, ~ record_of before (r0 :: r1 :: r2 :: rest) r) -> ~ understood before (r0 :: r1 :: r2 :: rest)).
  { intros X [(t & c & H)|(s0 & s1 & s2 & rest' & ty' & E & _ & T' & [Y|[r R]])].
    - eapply NH. exact H.
    - assert (ty' = ty) by congruence. subst ty'. eapply Y. exact Fz.
    - eapply X. exact R. }
  destruct (to_int r0) as [n|] eqn:N0.
  2:{ right. right. split.
      - apply Fail. intros r (s0 & s1 & s2 & rest' & ty' & c & E & _ & T' & I & K & _).
        destruct (Un _ _ _ _ _ _ E T' I) as (-> & -> & -> & ->). congruence.
      - exists ValueError. split; [reflexivity|]. apply Bad. right. cbn. split; [lia|reflexivity]. }
  destruct (parse_datetime r1) as [t|] eqn:N1.
  2:{ right. right. split.
      - apply Fail. intros r (s0 & s1 & s2 & rest' & ty' & c & E & _ & T' & I & K & St & _).
        destruct (Un _ _ _ _ _ _ E T' I) as (-> & -> & -> & ->). apply stamp_iff in St. congruence.
      - exists ValueError. split; [reflexivity|]. apply Bad. right. cbn. split; [lia|reflexivity]. }
  apply stamp_iff in N1.
  destruct (length cols =? length (skipn 3 (without_empty (r0 :: r1 :: r2 :: rest)))) eqn:L.
  - apply Nat.eqb_eq in L. right. left. eexists. split; [|reflexivity].
    exists r0, r1, r2, rest, ty, cols. cbn [k_row k_time k_type k_index k_values].
    repeat (split; [first [reflexivity|assumption|lia]|]). intros c v. apply lookup_zip. exact L.
  - apply Nat.eqb_neq in L. right. right. split.
    + apply Fail. intros r (s0 & s1 & s2 & rest' & ty' & c & E & _ & T' & I & K & St & _ & _ & L' & _).
      destruct (Un _ _ _ _ _ _ E T' I) as (-> & -> & -> & ->). congruence.
    + exists ValueError. split; [reflexivity|]. apply Bad. right. cbn. split; [lia|reflexivity].
Qed.

Lemma raw_row_step before st row : raw_ok before st ->
  (exists st', raw_row st row = Ok st' /\ understood before row /\ raw_ok (before ++ [row]) st') \/
  (~ understood before row /\ exists e, raw_row st row = Raise e /\ row_error row e).
Proof.
  intros (F & R & P & Ep & Sp & P1 & P2). unfold RadiometricsModel.raw_row. destruct row as [|r0 row'].
  { right. split.
    - intros [(t & c & f & E & _)|(s0 & s1 & s2 & rest & ty & E & _)]; discriminate.
    - exists IndexError. split; [reflexivity|]. right. split; [discriminate|]. left. cbn. split; [lia|reflexivity]. }
  destruct (String.eqb r0 "Record") eqn:R0.
  - apply String.eqb_eq in R0. subst r0. remember ("Record" :: row') as row eqn:Er.
    destruct (header_row_cases st row) as [(t & c & H & ->)|X].
    + left. eexists. split; [reflexivity|]. split; [left; eauto|].
      assert (NoRec : forall r, ~ record_of before row r) by (intros r; eapply header_not_record; exact H).
      split; [|split].
      * cbn [w_columns find_z]. intros t' c'. rewrite in_force_snoc. destruct (Z.eqb t' t) eqn:T.
        -- apply Z.eqb_eq in T. subst t'. split; [intros E; left; congruence|].
           intros [H'|[_ N]]; [destruct (header_fun _ _ _ _ _ H H'); congruence|exfalso; eapply N; exact H].
        -- apply Z.eqb_neq in T. rewrite F. split.
           ++ intros I. right. split; [exact I|]. intros c2 H2. destruct (header_fun _ _ _ _ _ H H2). congruence.
           ++ intros [H'|[I _]]; [destruct (header_fun _ _ _ _ _ H H'); congruence|exact I].
      * cbn [w_ranges]. destruct ((t =? 10)%Z || (t =? 400)%Z) eqn:T.
        -- left. exists before, row, [], t, c. split; [reflexivity|]. split; [exact H|].
           split; [apply orb_true_iff in T as [T|T]; apply Z.eqb_eq in T; auto|]. split; [intros r c' []|]. apply filter_ranges.
        -- apply orb_false_iff in T as [T1 T2]. apply Z.eqb_neq in T1. apply Z.eqb_neq in T2.
           assert (N : forall c', ~ header row 10 c' /\ ~ header row 400 c') by
             (intros c'; split; intros H'; destruct (header_fun _ _ _ _ _ H H'); congruence).
           destruct R as [(b1 & r & b2 & t' & c' & -> & H' & T' & L & K)|[-> L]].
           ++ left. exists b1, r, (b2 ++ [row]), t', c'. split; [rewrite <- app_assoc; reflexivity|]. split; [exact H'|]. split; [exact T'|].
              split; [|exact K]. intros r' c2 I. apply in_app_or in I as [I|[<-|[]]]; [apply L; exact I|apply N].
           ++ right. split; [reflexivity|]. intros r' c2 I. apply in_app_or in I as [I|[<-|[]]]; [apply L; exact I|apply N].
      * cbn [w_rows]. exists P. split; [exact Ep|]. split; [exact Sp|]. split.
        -- intros i r I. apply record_at_snoc. left. apply P1. exact I.
        -- intros i r I. apply record_at_snoc in I as [I|[_ I]]; [eapply P2; exact I|exfalso; eapply NoRec; exact I].
    + right. destruct (X row' Er) as (NH & e & E & Re). split; [|eauto].
      intros [(t & c & H)|(s0 & s1 & s2 & rest & ty & E' & N & _)]; [eapply NH; exact H|congruence].
  - apply String.eqb_neq in R0. remember (r0 :: row') as row eqn:Er.
    assert (NE : row <> []) by congruence. assert (NR : forall rest, row <> "Record" :: rest) by congruence.
    assert (NH : forall t c, ~ header row t c) by (intros t c (f & E & _); eapply NR; exact E).
    assert (F' : forall t c, find_z t (w_columns st) = Some c <-> in_force (before ++ [row]) t c).
    { intros t c. rewrite F, in_force_snoc. split; [intros I; right; split; [exact I|apply NH]|]. intros [H|[I _]]; [exfalso; eapply NH; exact H|exact I]. }
    destruct (data_row_cases st before row NE NR F) as [(E & U & N)|[(r & Rr & E)|(N & e & E & Re)]].
    + left. exists st. split; [exact E|]. split; [exact U|]. split; [exact F'|]. split; [apply ranges_of_other; assumption|].
      exists P. split; [exact Ep|]. split; [exact Sp|]. split.
      * intros i r I. apply record_at_snoc. left. apply P1. exact I.
      * intros i r I. apply record_at_snoc in I as [I|[_ I]]; [eapply P2; exact I|exfalso; eapply N; exact I].
    + left. eexists. split; [exact E|]. split.
      { destruct Rr as (s0 & s1 & s2 & rest & ty & c & E' & Rest). right. exists s0, s1, s2, rest, ty.
        split; [exact E'|]. split; [apply Rest|]. split; [apply Rest|]. right. exists r, s0, s1, s2, rest, ty, c. auto. }
      split; [exact F'|]. split; [apply ranges_of_other; assumption|]. cbn [w_rows].
      exists (P ++ [(length before, r)]). split; [rewrite map_app, Ep; reflexivity|]. split; [|split].
      * rewrite map_app. cbn [map fst]. 
        assert (B : Forall (fun i => i < length before) (map fst P)).
        { apply Forall_forall. intros i I. apply in_map_iff in I as ([i' r'] & <- & I). apply P1 in I as (row2 & N & _).
          cbn [fst]. apply nth_error_Some. congruence. }
        clear - B Sp. induction (map fst P) as [|x l IH]; cbn [app]; [constructor; constructor|].
        inversion B as [|? ? Bx Bl]; subst. inversion Sp as [|? ? Sl Sx]; subst. constructor; [apply IH; assumption|].
        apply Forall_app. split; [exact Sx|]. constructor; [exact Bx|constructor].
      * intros i r' I. apply record_at_snoc. apply in_app_or in I as [I|[I|[]]]; [left; apply P1; exact I|].
        right. assert (length before = i /\ r = r') as [<- <-] by (split; congruence). auto.
      * intros i r' I. apply record_at_snoc in I as [I|[-> I]].
        -- destruct (P2 _ _ I) as [r2 I2]. exists r2. apply in_or_app. auto.
        -- exists r. apply in_or_app. right. left. reflexivity.
    + right. split; [exact N|]. eauto.
Qed.

Lemma raw_rows_ok rows : forall before st, raw_ok before st ->
  (exists st', fold_result raw_row rows st = Ok st' /\ raw_ok (before ++ rows) st' /\
     forall i row, nth_error rows i = Some row -> understood (before ++ firstn i rows) row) \/
  (exists i row e, nth_error rows i = Some row /\ ~ understood (before ++ firstn i rows) row /\
     (forall j row', j < i -> nth_error rows j = Some row' -> understood (before ++ firstn j rows) row') /\
     row_error row e /\ fold_result raw_row rows st = Raise e).
Proof.
  induction rows as [|row rows IH]; intros before st H; cbn [fold_result].
  - left. exists st. rewrite app_nil_r. split; [reflexivity|]. split; [exact H|]. intros [|i] row N; discriminate.
  - destruct (raw_row_step before st row H) as [(st' & -> & U & H')|(N & e & -> & Re)]; cbn [bind].
    + assert (Sh : forall i, before ++ firstn (Datatypes.S i) (row :: rows) = (before ++ [row]) ++ firstn i rows)
        by (intros i; cbn [firstn]; rewrite <- app_assoc; reflexivity).
      destruct (IH _ _ H') as [(st2 & E & O & V)|(i & r & e & N & X & Y & Re & E)].
      * left. exists st2. split; [exact E|]. split; [rewrite <- app_assoc in O; exact O|].
        intros [|i] r N; [cbn in N; assert (r = row) by congruence; subst r; cbn [firstn]; rewrite app_nil_r; exact U|].
        rewrite Sh. apply V. exact N.
      * right. exists (Datatypes.S i), r, e. split; [exact N|]. rewrite Sh. split; [exact X|]. split; [|auto].
        intros [|j] r' L N'; [cbn in N'; assert (r' = row) by congruence; subst r'; cbn [firstn]; rewrite app_nil_r; exact U|].
        rewrite Sh. apply Y; [lia|exact N'].
    + right. exists 0, row, e. split; [reflexivity|]. cbn [firstn]. rewrite app_nil_r. split; [exact N|].
      split; [intros j r L; lia|]. auto.
Qed.
Lemma raw_ok_nil : raw_ok [] {| w_columns := []; w_ranges := []; w_rows := [] |}.
Proof.
  split; [|split].
  - intros t c. cbn. split; [discriminate|]. intros (b1 & r & b2 & E & _). destruct b1; discriminate.
  - right. split; [reflexivity|]. intros r c [].
  - exists []. repeat split; try constructor; [intros i r []|]. intros i r (row & N & _). destruct i; discriminate.
Qed.

(** ** Sorting *)
Lemma insert_sorted i r P : StronglySorted comes_before P -> Forall (fun p => i < fst p) P ->
  exists P', map snd P' = insert_record r (map snd P) /\ Permutation ((i, r) :: P) P' /\ StronglySorted comes_before P'.
Proof.
  induction P as [|[j s] P IH]; intros Sp B; cbn [map snd insert_record].
  - exists [(i, r)]. repeat split; [apply Permutation_refl|]. constructor; constructor.
  - inversion Sp as [|? ? Sl Sx]; subst. inversion B as [|? ? Bx Bl]; subst. cbn [fst] in Bx.
    destruct (k_row r <=? k_row s)%Z eqn:L.
    + apply Z.leb_le in L. exists ((i, r) :: (j, s) :: P). split; [reflexivity|]. split; [apply Permutation_refl|].
      assert (H : comes_before (i, r) (j, s)).
      { unfold comes_before. cbn [fst snd]. destruct (Z.lt_ge_cases (k_row r) (k_row s)); [auto|]. right. split; lia. }
      constructor; [exact Sp|]. constructor; [exact H|]. rewrite Forall_forall in *. intros [k u] I. specialize (Sx _ I). specialize (Bl _ I).
      unfold comes_before in *. cbn [fst snd] in *. lia.
    + apply Z.leb_gt in L. destruct (IH Sl Bl) as (P' & E & Pm & S'). exists ((j, s) :: P'). split; [cbn [map snd]; rewrite E; reflexivity|].
      split; [eapply perm_trans; [apply perm_swap|]; apply perm_skip; exact Pm|]. constructor; [exact S'|].
      apply Forall_forall. intros x I. apply (Permutation_in _ (Permutation_sym Pm)) in I as [<-|I].
      * left. cbn [snd]. exact L.
      * rewrite Forall_forall in Sx. apply Sx. exact I.
Qed.
Lemma sort_sorted P : StronglySorted lt (map fst P) ->
  exists P', map snd P' = sort_records (map snd P) /\ Permutation P P' /\ StronglySorted comes_before P'.
Proof.
  induction P as [|[i r] P IH]; intros Sp; cbn [map fst snd] in *.
  - exists []. repeat split; constructor.
  - inversion Sp as [|? ? Sl Sx]; subst. destruct (IH Sl) as (P1 & E1 & Pm1 & S1).
    destruct (insert_sorted i r P1 S1) as (P2 & E2 & Pm2 & S2).
    + apply Forall_forall. intros x I. apply (Permutation_in _ (Permutation_sym Pm1)) in I.
      rewrite Forall_forall in Sx. apply Sx. apply in_map. exact I.
    + exists P2. unfold sort_records in *. cbn [fold_right]. rewrite <- E1, E2. split; [reflexivity|].
      split; [|exact S2]. eapply perm_trans; [apply perm_skip; exact Pm1|exact Pm2].
Qed.

Local Notation read_ok := (read_ok to_int ordinal).
Lemma read_raw_cases rows :
  (exists ranges records, read_raw to_int ordinal rows = Ok (ranges, records) /\ read_ok rows ranges records /\
     forall i row, nth_error rows i = Some row -> understood (firstn i rows) row) \/
  (exists i row e, nth_error rows i = Some row /\ ~ understood (firstn i rows) row /\
     (forall j row', j < i -> nth_error rows j = Some row' -> understood (firstn j rows) row') /\
     row_error row e /\ read_raw to_int ordinal rows = Raise e).
Proof.
  unfold read_raw. destruct (raw_rows_ok rows [] _ raw_ok_nil) as [(st & E & (_ & R & P & Ep & Sp & P1 & P2) & U)|(i & row & e & N & X & Y & Re & E)].
  - left. rewrite E. cbn [bind]. destruct (sort_sorted P Sp) as (P' & E' & Pm & S'). do 2 eexists. split; [reflexivity|].
    split; [|exact U]. split; [exact R|]. exists P'. rewrite Ep in E'. split; [exact E'|]. split; [exact S'|]. split; [|split].
    + apply (Permutation_NoDup (Permutation_map fst Pm)). clear - Sp. induction (map fst P) as [|x l IH]; [constructor|].
      inversion Sp as [|? ? Sl Sx]; subst. constructor; [|apply IH; exact Sl]. intros I. rewrite Forall_forall in Sx. specialize (Sx _ I). lia.
    + intros i r I. apply P1. apply (Permutation_in _ (Permutation_sym Pm)). exact I.
    + intros i r I. destruct (P2 i r I) as [r' I']. exists r'. apply (Permutation_in _ Pm). exact I'.
  - right. exists i, row, e. rewrite E. auto.
Qed.

End Proofs.
