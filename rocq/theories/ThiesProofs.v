(** Proofs about the Thies disdrometer. *)
From Coq Require Import List Bool Arith ZArith QArith String Ascii Sorted Permutation Lia Lqa.
From Verif Require Import Base ArrayModel GridModel TimeModel OutputModel InstrumentModel MeltModel SiteModel ReaderModel TelegramModel CliModel NwpModel WsModel GaugeModel.
From Verif Require Import TimeSpec MeltSpec OutputSpec SiteSpec ReaderSpec TelegramSpec CliSpec WsSpec.
From Verif Require Import GridProofs TimeProofs OutputProofs SiteProofs ReaderProofs TelegramProofs TelegramDayProofs MeltImageProofs CliProofs WsProofs GaugeProofs ThiesModel ThiesSpec.
Import ListNotations.
Local Open Scope string_scope.
Local Open Scope nat_scope.
Local Open Scope list_scope.
Local Notation length := List.length (only parsing).

(** ** Fields *)
Lemma lstrip_only : forall c l s, only_char c l -> lstrip_char c (l ++ s) = lstrip_char c s.
Proof.
  intros c l s. induction l as [|x l IH]; intros H; [reflexivity|]. cbn [append lstrip_char]. assert (x = c) by (apply (H "" x l); reflexivity). subst x. rewrite Ascii.eqb_refl.
  apply IH. intros a y b E. apply (H (String c a) y b). rewrite E. reflexivity.
Qed.
Lemma lstrip_keep_char : forall c s, (forall u, s <> String c u) -> lstrip_char c s = s.
Proof. intros c [|x s] H; [reflexivity|]. cbn [lstrip_char]. destruct (Ascii.eqb_spec x c) as [->|N]; [exfalso; apply (H s); reflexivity|reflexivity]. Qed.
Lemma string_snoc : forall s : string, s = "" \/ exists p x, s = (p ++ String x "")%string.
Proof.
  induction s as [|x s IH]; [left; reflexivity|right]. destruct IH as [->|(p & y & ->)]; [exists "", x; reflexivity|exists (String x p), y; reflexivity].
Qed.
Lemma bare_unique : forall c t x, bare c t x -> strip_char c t = x.
Proof.
  intros c t x (l & r & -> & OL & OR & F & L). unfold strip_char. rewrite lstrip_only by exact OL.
  destruct (string_snoc x) as [->|(p & y & E)].
  - cbn [append]. replace r with (r ++ "")%string by (clear; induction r; cbn; congruence). rewrite lstrip_only by exact OR. reflexivity.
  - rewrite lstrip_keep_char.
    + rewrite rstrip_char_app by exact OR. rewrite E. apply rstrip_char_keep. intros ->. exact (L p E).
    + intros u H. destruct x as [|z x]; [destruct p; discriminate|]. cbn [append] in H. injection H as -> _. exact (F x eq_refl).
Qed.
Lemma fields_unique : forall line ws, logger_fields line ws -> split_on ";" (strip_char ";" (strip line)) = ws.
Proof. intros line ws (t & x & A & B & C). rewrite (stripped_unique _ _ A), (bare_unique _ _ _ B). apply split_on_iff. exact C. Qed.
Lemma fields_exist : forall line, logger_fields line (split_on ";" (strip_char ";" (strip line))).
Proof. exact atmos_fields_spec. Qed.
Lemma app_assoc_s : forall a b c : string, ((a ++ b) ++ c = a ++ (b ++ c))%string.
Proof. induction a; cbn; congruence. Qed.
Lemma only_app : forall c a b, only_char c a -> only_char c b -> only_char c (a ++ b).
Proof.
  intros c a. induction a as [|x a IH]; intros b A B; [exact B|]. assert (X : x = c) by (apply (A "" x a); reflexivity).
  assert (A' : only_char c a) by (intros p y q E; apply (A (String x p) y q); rewrite E; reflexivity).
  intros [|p0 p] y q E; cbn in E; injection E as E1 E2; [congruence|]. eapply (IH b A' B). exact E2.
Qed.
Lemma only_comm : forall c a, only_char c a -> (a ++ String c "" = String c a)%string.
Proof.
  intros c a. induction a as [|x a IH]; intros A; [reflexivity|]. assert (X : x = c) by (apply (A "" x a); reflexivity). subst x.
  cbn [append]. f_equal. apply IH. intros p y q E. apply (A (String c p) y q). rewrite E. reflexivity.
Qed.
Lemma strip_char_more : forall c s r, only_char c r -> strip_char c (s ++ r) = strip_char c s.
Proof.
  intros c s r R. apply bare_unique. destruct (bare_spec c s) as (l & r' & E & OL & OR & F & L). exists l, (r' ++ r)%string.
  split; [rewrite E at 1; rewrite !app_assoc_s; reflexivity|]. split; [exact OL|]. split; [apply only_app; assumption|]. auto.
Qed.
Lemma strip_id : forall s c u p d, s = String c u -> is_space c = false -> s = (p ++ String d "")%string -> is_space d = false -> strip s = s.
Proof.
  intros s c u p d E1 S1 E2 S2. unfold strip. rewrite E1. rewrite lstrip_keep by exact S1. rewrite <- E1, E2. apply rstrip_keep. exact S2.
Qed.
(** The telegram after a time stamp has the same fields as the text it is made from. *)
Lemma fixed_fields : forall tel, split_on ";" (strip_char ";" (strip (rstrip_char ";" (strip tel) ++ ";"))) = split_on ";" (strip_char ";" (strip tel)).
Proof.
  intros tel. f_equal. set (X := strip tel). destruct (rstrip_char_trimmed ";" X) as (r & E & OR & _). set (Y := rstrip_char ";" X) in *.
  assert (S : strip (Y ++ ";") = (Y ++ ";")%string).
  { destruct (strip_stripped tel) as (l0 & r0 & _ & _ & _ & H1 & _). fold X in H1. destruct Y as [|c u] eqn:YE.
    - reflexivity.
    - eapply strip_id with (c := c) (d := ";"%char); [reflexivity| |reflexivity|reflexivity]. apply (H1 c (u ++ r)%string). rewrite E. reflexivity. }
  rewrite S. rewrite (strip_char_more ";" Y ";"); [|intros a x b H; destruct a as [|? [|? ?]]; cbn in H; try discriminate; injection H as <- _; reflexivity].
  rewrite E at 1. symmetry. apply strip_char_more. exact OR.
Qed.

(** ** Lines *)
Section Lines.
Context (to_float : string -> option Q) (to_int : string -> option Z) (to_day : Z -> Z -> Z -> option Z) (to_stamp : string -> option Z).
Lemma read_three : forall c w x y z, ints to_int (split_on c w) = Some [x; y; z] <-> three to_int c w x y z.
Proof.
  intros c w x y z. unfold ints. rewrite all_read_iff. split.
  - intros F. inversion F as [|a ? l ? A F1 E]; subst. inversion F1 as [|b ? l1 ? B F2 E1]; subst. inversion F2 as [|d ? l2 ? D F3 E2]; subst. inversion F3; subst.
    exists a, b, d. split; [|auto]. apply split_on_iff. congruence.
  - intros (a & b & d & S & A & B & D). apply split_on_iff in S. rewrite S. repeat constructor; assumption.
Qed.
Lemma parse_date_iff : forall w d, parse_date to_int to_day w = Some d <-> date_text to_int to_day w d.
Proof.
  intros w d. unfold parse_date, date_text. split.
  - destruct (ints to_int (split_on "." w)) as [[|x [|y [|z [|]]]]|] eqn:E; try discriminate. intros H. exists x, y, z. split; [apply read_three; exact E|].
    destruct (Z.ltb_spec z 100); [left; split; [lia|]; rewrite Z.add_comm; exact H|right; split; [lia|exact H]].
  - intros (x & y & z & T & H). apply read_three in T. rewrite T. destruct (Z.ltb_spec z 100); destruct H as [[L H]|[L H]]; try lia; [rewrite Z.add_comm|]; exact H.
Qed.
Lemma parse_clock_iff : forall w t, parse_clock to_int w = Some t <-> clock_text to_int w t.
Proof.
  intros w t. unfold parse_clock, clock_text. split.
  - destruct (ints to_int (split_on ":" w)) as [[|x [|y [|z [|]]]]|] eqn:E; try discriminate.
    destruct ((0 <=? x) && (x <? 24) && (0 <=? y) && (y <? 60) && (0 <=? z) && (z <? 60))%Z eqn:R; [|discriminate]. intros H. injection H as <-.
    rewrite !andb_true_iff, !Z.leb_le, !Z.ltb_lt in R. exists x, y, z. split; [apply read_three; exact E|]. repeat split; lia.
  - intros (x & y & z & T & Hx & Hy & Hz & ->). apply read_three in T. rewrite T.
    replace ((0 <=? x) && (x <? 24) && (0 <=? y) && (y <? 60) && (0 <=? z) && (z <? 60))%Z with true; [f_equal; lia|].
    symmetry. rewrite !andb_true_iff, !Z.leb_le, !Z.ltb_lt. lia.
Qed.
Definition kind_of (key : string) : kind :=
  if String.eqb key "_date" then KDate else if String.eqb key "_time" then KTime else if mem_str key float_keys then KFloat
  else if mem_str key text_keys then KText else KInt.
Lemma read_field_iff : forall key w x, read_field to_float to_int to_day key w = Some x <-> value_of to_float to_int to_day (kind_of key) w x.
Proof.
  intros key w x. unfold read_field, kind_of. destruct (String.eqb key "_date").
  { cbn [value_of]. split; [|intros (d & D & ->); apply parse_date_iff in D; rewrite D; reflexivity].
    destruct (parse_date to_int to_day w) as [d|] eqn:E; [|discriminate]. intros H. injection H as <-. exists d. split; [apply parse_date_iff; exact E|reflexivity]. }
  destruct (String.eqb key "_time").
  { cbn [value_of]. split; [|intros (d & D & ->); apply parse_clock_iff in D; rewrite D; reflexivity].
    destruct (parse_clock to_int w) as [d|] eqn:E; [|discriminate]. intros H. injection H as <-. exists d. split; [apply parse_clock_iff; exact E|reflexivity]. }
  destruct (mem_str key float_keys).
  { cbn [value_of]. split; [|intros (d & -> & ->); reflexivity]. destruct (to_float w) as [d|]; [|discriminate]. intros H. injection H as <-. exists d. auto. }
  destruct (mem_str key text_keys).
  { cbn [value_of]. split; [congruence|intros ->; reflexivity]. }
  cbn [value_of]. split; [|intros (d & -> & ->); reflexivity]. destruct (to_int w) as [d|]; [|discriminate]. intros H. injection H as <-. exists d. auto.
Qed.
Lemma columns_kinds : columns = map (fun ik => (fst ik, snd ik, kind_of (snd ik))) telegram4.
Proof. reflexivity. Qed.
Lemma in_columns : forall i key k, In (i, key, k) columns <-> In (i, key) telegram4 /\ k = kind_of key.
Proof.
  intros i key k. rewrite columns_kinds, in_map_iff. split.
  - intros ([i' key'] & E & I). cbn in E. injection E as -> -> <-. auto.
  - intros [I ->]. exists (i, key). auto.
Qed.
Lemma table_sorted : StronglySorted lt (map fst telegram4).
Proof. change (map fst telegram4) with (seq 1 49). apply seq_sorted. Qed.
Lemma table_keys : NoDup (map snd telegram4).
Proof. assert (E : nodup string_dec (map snd telegram4) = map snd telegram4) by reflexivity. rewrite <- E. apply NoDup_nodup. Qed.
Lemma read_columns_ok : forall n ws T fs, StronglySorted lt (map fst T) -> read_columns to_float to_int to_day n ws T = Ok fs ->
  (exists rest, map snd T = map fst fs ++ rest) /\
  (forall key x, In (key, x) fs <-> exists i, In (i, key) T /\ S i < n /\ read_field to_float to_int to_day key (nth i ws "") = Some x).
Proof.
  intros n ws. induction T as [|[i key] T IH]; intros fs S; cbn [read_columns].
  - intros H. injection H as <-. split; [exists []; reflexivity|]. intros key x. split; [intros []|intros (i & [] & _)].
  - cbn in S. inversion S as [|? ? S' F]; subst. destruct (Nat.leb_spec (n - 1) i) as [L|L].
    + intros H. injection H as <-. split; [eexists; reflexivity|]. intros key' x. split; [intros []|]. intros (j & I & J & _). exfalso. destruct I as [I|I].
      * injection I as <- <-. lia.
      * rewrite Forall_forall in F. assert (i < j) by (apply F; change j with (fst (j, key')); apply in_map; exact I). lia.
    + destruct (read_field to_float to_int to_day key (nth i ws "")) as [x|] eqn:R; [|discriminate].
      destruct (read_columns to_float to_int to_day n ws T) as [xs|e] eqn:E; cbn [bind]; [|discriminate]. intros H. injection H as <-.
      destruct (IH xs S' eq_refl) as [(rest & K) M]. split; [exists rest; cbn; rewrite K; reflexivity|].
      intros key' x'. cbn [In]. rewrite M. split.
      * intros [H|(j & I & J)]; [injection H as <- <-; exists i; split; [left; reflexivity|split; [lia|exact R]]|exists j; auto].
      * intros (j & [I|I] & J & X); [injection I as <- <-; left; congruence|right; exists j; auto].
Qed.
Lemma read_columns_raise : forall n ws T e, read_columns to_float to_int to_day n ws T = Raise e ->
  e = ValueError /\ exists i key, In (i, key) T /\ S i < n /\ read_field to_float to_int to_day key (nth i ws "") = None.
Proof.
  intros n ws. induction T as [|[i key] T IH]; intros e; cbn [read_columns]; [discriminate|].
  destruct (Nat.leb_spec (n - 1) i) as [L|L]; [discriminate|].
  destruct (read_field to_float to_int to_day key (nth i ws "")) as [x|] eqn:R.
  - destruct (read_columns to_float to_int to_day n ws T) as [xs|e'] eqn:E; cbn [bind]; [discriminate|]. intros H. injection H as <-.
    destruct (IH _ eq_refl) as (V & j & k & I & J & N). split; [exact V|]. exists j, k. split; [right; exact I|auto].
  - intros H. injection H as <-. split; [reflexivity|]. exists i, key. split; [left; reflexivity|]. split; [lia|exact R].
Qed.
Lemma nodup_front : forall A (l r : list A), NoDup (l ++ r) -> NoDup l.
Proof. intros A l r. induction l as [|a l IH]; intros N; [constructor|]. inversion N; subst. constructor; [intros I; apply H1; apply in_app_iff; auto|auto]. Qed.
Lemma nth_word : forall (ws : list string) i w, nth_error ws i = Some w -> nth i ws "" = w.
Proof. intros ws i w H. apply nth_error_nth. exact H. Qed.
Lemma word_at : forall (ws : list string) i, i < length ws -> nth_error ws i = Some (nth i ws "").
Proof. intros ws i H. apply nth_error_nth'. exact H. Qed.
Lemma fields_spec : forall n ws fs, n <= length ws -> read_columns to_float to_int to_day n ws telegram4 = Ok fs -> fields_are to_float to_int to_day n ws fs.
Proof.
  intros n ws fs L H. destruct (read_columns_ok _ _ _ _ table_sorted H) as [(rest & K) M]. split.
  - apply nodup_front with (r := rest). rewrite <- K. exact table_keys.
  - intros key x. rewrite M. split.
    + intros (i & I & J & R). exists i, (kind_of key), (nth i ws ""). split; [apply in_columns; auto|]. split; [exact J|]. split; [apply word_at; lia|].
      apply read_field_iff. exact R.
    + intros (i & k & w & I & J & W & V). apply in_columns in I. destruct I as [I ->]. exists i. split; [exact I|]. split; [exact J|].
      rewrite (nth_word _ _ _ W). apply read_field_iff. exact V.
Qed.
Lemma fields_fail : forall n ws e, n <= length ws -> read_columns to_float to_int to_day n ws telegram4 = Raise e ->
  e = ValueError /\ exists i key k w, In (i, key, k) columns /\ S i < n /\ nth_error ws i = Some w /\ forall x, ~ value_of to_float to_int to_day k w x.
Proof.
  intros n ws e L H. destruct (read_columns_raise _ _ _ _ H) as (V & i & key & I & J & N). split; [exact V|].
  exists i, key, (kind_of key), (nth i ws ""). split; [apply in_columns; auto|]. split; [exact J|]. split; [apply word_at; lia|].
  intros x X. apply read_field_iff in X. congruence.
Qed.
Lemma nth_firstn : forall A n (l : list A) i, i < n -> nth_error (firstn n l) i = nth_error l i.
Proof. intros A n l. revert n. induction l as [|a l IH]; intros [|n] i H; try lia; [destruct i; reflexivity|]. destruct i; [reflexivity|]. cbn. apply IH. lia. Qed.
Lemma nth_skipn : forall A n (l : list A) i, nth_error (skipn n l) i = nth_error l (n + i).
Proof. intros A n. induction n as [|n IH]; intros l i; [reflexivity|]. destruct l; [destruct i; reflexivity|]. cbn. apply IH. Qed.
Lemma spectrum_spec : forall n ws sp, read_spectrum to_int n ws = Ok sp -> spectrum_is to_int n ws sp.
Proof.
  intros n ws sp. unfold read_spectrum. destruct (Nat.ltb_spec 79 n) as [L|L]; [|intros H; injection H as <-; left; auto].
  destruct (ints to_int (firstn 440 (skipn 79 ws))) as [zs|] eqn:E; [|discriminate]. destruct (Nat.eqb_spec (length zs) 440) as [Z|Z]; [|discriminate].
  intros H. assert (SE : sp = Some (map (fun d => firstn 20 (skipn (20 * d) zs)) (seq 0 22))) by congruence. clear H. subst sp.
  right. split; [exact L|]. eexists. split; [reflexivity|]. unfold ints in E. apply all_read_iff in E. apply forall2_nth in E. destruct E as [EL E].
  split; [rewrite map_length, seq_length; reflexivity|]. split.
  - intros row I. apply in_map_iff in I. destruct I as (d & <- & I). apply in_seq in I. cbv beta. rewrite firstn_length, skipn_length. lia.
  - intros d v row R V. assert (D : d < 22) by (assert (X := nth_error_Some (map (fun d => firstn 20 (skipn (20 * d) zs)) (seq 0 22)) d); rewrite map_length, seq_length in X; apply X; congruence).
    rewrite nth_error_map in R. rewrite (nth_error_nth' _ 0) in R by (rewrite seq_length; exact D). rewrite seq_nth in R by exact D. cbn [option_map] in R. assert (RE : row = firstn 20 (skipn (20 * d) zs)) by (rewrite Nat.add_0_l in R; congruence). clear R. subst row.
    rewrite nth_firstn by exact V. rewrite nth_skipn.
    assert (P : 20 * d + v < 440) by lia.
    destruct (nth_error zs (20 * d + v)) as [z|] eqn:NZ; [|apply nth_error_None in NZ; lia].
    destruct (nth_error (firstn 440 (skipn 79 ws)) (20 * d + v)) as [w|] eqn:NW; [|apply nth_error_None in NW; lia].
    assert (W := E _ _ _ NW NZ). rewrite nth_firstn in NW by exact P. rewrite nth_skipn in NW. exists w, z. rewrite <- Nat.add_assoc. auto.
Qed.
Lemma all_read_none : forall A B (f : A -> option B) l, all_read f l = None -> exists i w, nth_error l i = Some w /\ f w = None.
Proof.
  intros A B f l H. 
  assert (D : forall w, {f w <> None} + {~ f w <> None}) by (intros w; destruct (f w); [left; discriminate|right; intros N; apply N; reflexivity]).
  destruct (Forall_Exists_dec (fun w => f w <> None) D l) as [F|X].
  - exfalso. assert (G : exists l', Forall2 (fun a b => f a = Some b) l l').
    { clear H. induction F as [|a l N F (l' & IH)]; [exists []; constructor|]. destruct (f a) as [b|] eqn:E; [|congruence]. exists (b :: l'). constructor; assumption. }
    destruct G as (l' & G). apply all_read_iff in G. congruence.
  - apply Exists_exists in X. destruct X as (w & I & N). apply In_nth_error in I. destruct I as (i & I). exists i, w. split; [exact I|].
    destruct (f w); [exfalso; apply N; discriminate|reflexivity].
Qed.
Lemma spectrum_fail : forall n ws e, read_spectrum to_int n ws = Raise e ->
  e = ValueError /\ 79 < n /\ (length ws < 519 \/ exists i w, 79 <= i < 519 /\ nth_error ws i = Some w /\ to_int w = None).
Proof.
  intros n ws e. unfold read_spectrum. destruct (Nat.ltb_spec 79 n) as [L|L]; [|discriminate].
  destruct (ints to_int (firstn 440 (skipn 79 ws))) as [zs|] eqn:E.
  - destruct (Nat.eqb_spec (length zs) 440) as [Z|Z]; [discriminate|]. intros H. injection H as <-. split; [reflexivity|]. split; [exact L|]. left.
    unfold ints in E. apply all_read_iff in E. apply forall2_nth in E. destruct E as [EL _]. rewrite firstn_length, skipn_length in EL. lia.
  - intros H. injection H as <-. split; [reflexivity|]. split; [exact L|]. right. apply all_read_none in E. destruct E as (i & w & I & N).
    assert (P : i < 440).
    { assert (X := nth_error_Some (firstn 440 (skipn 79 ws)) i). rewrite firstn_length in X. assert (i < Nat.min 440 (length (skipn 79 ws))) by (apply X; congruence). lia. }
    exists (79 + i), w. split; [lia|]. rewrite nth_firstn in I by exact P. rewrite nth_skipn in I. auto.
Qed.
Lemma spectrum_fail_iff : forall n ws, 79 < n -> (length ws < 519 \/ exists i w, 79 <= i < 519 /\ nth_error ws i = Some w /\ to_int w = None) ->
  exists e, read_spectrum to_int n ws = Raise e.
Proof.
  intros n ws L H. destruct (read_spectrum to_int n ws) as [sp|e] eqn:E; [|eauto]. exfalso. apply spectrum_spec in E. destruct E as [[E _]|(_ & s & -> & SL & RL & SP)]; [lia|].
  destruct H as [H|(i & w & I & W & N)].
  - destruct (nth_error s 21) as [row|] eqn:R; [|apply nth_error_None in R; lia]. destruct (SP 21 19 row R) as (w & z & W & _); [lia|].
    assert (nth_error ws 518 <> None) by (change 518 with (79 + 20 * 21 + 19); congruence). apply nth_error_Some in H0. lia.
  - set (d := (i - 79) / 20). set (v := (i - 79) mod 20). assert (DV : i - 79 = 20 * d + v) by apply Nat.div_mod_eq.
    assert (V : v < 20) by (apply Nat.mod_upper_bound; lia). destruct (nth_error s d) as [row|] eqn:R; [|apply nth_error_None in R; lia].
    destruct (SP d v row R V) as (w' & z & W' & Z & _). replace (79 + 20 * d + v) with i in W' by lia. congruence.
Qed.
Lemma date_columns : In (3, "_date", KDate) columns /\ In (4, "_time", KTime) columns.
Proof. split; unfold columns; [do 2 right|do 3 right]; left; reflexivity. Qed.
Lemma column_unique : forall i key k i' k', In (i, key, k) columns -> In (i', key, k') columns -> i = i' /\ k = k'.
Proof.
  intros i key k i' k' H H'. apply in_columns in H, H'. destruct H as [H ->], H' as [H' ->]. split; [|reflexivity].
  assert (N := table_keys). revert H H' N. generalize telegram4. induction l as [|[j s] l IH]; intros H H' N; [destruct H|]. destruct H as [H|H], H' as [H'|H']; cbn in N; inversion N; subst.
  - congruence.
  - injection H as -> ->. exfalso. apply H2. change key with (snd (i', key)). apply in_map. exact H'.
  - injection H' as -> ->. exfalso. apply H2. change key with (snd (i, key)). apply in_map. exact H.
  - auto.
Qed.
Lemma time_step : forall n ws fs stamp, n <= length ws -> fields_are to_float to_int to_day n ws fs ->
  (forall i key k w, In (i, key, k) columns -> S i < n -> nth_error ws i = Some w -> exists x, value_of to_float to_int to_day k w x) ->
  let out := match stamp with
             | Some t => Ok t
             | None => match get String.eqb "_date" fs, get String.eqb "_time" fs with
                       | Some (FDay d), Some (FClock s) => Ok (d * 86400 + s)%Z
                       | _, _ => Raise IndexError
                       end
             end in
  (exists t, out = Ok t /\ time_is stamp fs t /\ (stamp <> None \/ 5 < n)) \/ (out = Raise IndexError /\ stamp = None /\ n <= 5).
Proof.
  intros n ws fs stamp LN [ND FA] RD out. subst out. destruct stamp as [t|]; [left; exists t; split; [reflexivity|]; split; [reflexivity|left; discriminate]|].
  destruct (le_lt_dec n 5) as [L|L].
  - right. split; [|auto]. assert (G : get String.eqb "_time" fs = None).
    { destruct (get String.eqb "_time" fs) as [x|] eqn:G; [|reflexivity]. exfalso. apply (proj1 (get_in _ _ _ _ ND)) in G. apply FA in G.
      destruct G as (i & k & w & I & J & _). destruct (column_unique _ _ _ _ _ I (proj2 date_columns)) as [-> _]. lia. }
    rewrite G. destruct (get String.eqb "_date" fs) as [[]|]; reflexivity.
  - left. destruct date_columns as [D T].
    destruct (RD _ _ _ (nth 3 ws "") D) as (x & X); [lia|apply word_at; lia|]. destruct (RD _ _ _ (nth 4 ws "") T) as (y & Y); [lia|apply word_at; lia|].
    cbn [value_of] in X, Y.
    assert (GX : get String.eqb "_date" fs = Some x) by (apply get_in; [exact ND|]; apply FA; exists 3, KDate, (nth 3 ws ""); split; [exact D|]; split; [lia|]; split; [apply word_at; lia|exact X]).
    assert (GY : get String.eqb "_time" fs = Some y) by (apply get_in; [exact ND|]; apply FA; exists 4, KTime, (nth 4 ws ""); split; [exact T|]; split; [lia|]; split; [apply word_at; lia|exact Y]).
    destruct X as (d & X & ->), Y as (s & Y & ->). rewrite GX, GY. exists (d * 86400 + s)%Z. split; [reflexivity|]. split; [|right; lia].
    exists d, s. split; [apply get_in; assumption|]. split; [apply get_in; assumption|]. lia.
Qed.
Lemma fits_len : forall n ws, negb ((length ws =? n) || (length ws =? n + 4)) = false <-> fits n ws.
Proof. intros n ws. rewrite negb_false_iff, orb_true_iff, !Nat.eqb_eq. reflexivity. Qed.
(** Everything about one line. *)
Lemma read_line_cases : forall n line stamp ws, logger_fields line ws ->
  (~ fits n ws /\ read_line to_float to_int to_day n line stamp = Ok None) \/
  (fits n ws /\ ((exists r, read_line to_float to_int to_day n line stamp = Ok (Some r) /\ line_record to_float to_int to_day n line stamp r /\ readable to_float to_int to_day n ws stamp) \/
   (exists e, read_line to_float to_int to_day n line stamp = Raise e /\ ~ readable to_float to_int to_day n ws stamp /\ (e = ValueError \/ (e = IndexError /\ stamp = None /\ n <= 5))))).
Proof.
  intros n line stamp ws LF. unfold read_line. cbv zeta. rewrite (fields_unique _ _ LF).
  destruct (negb ((length ws =? n) || (length ws =? n + 4))) eqn:FT.
  - left. split; [|reflexivity]. intros F. apply fits_len in F. congruence.
  - right. apply fits_len in FT. split; [exact FT|]. assert (L : n <= length ws) by (destruct FT; lia).
    destruct (read_columns to_float to_int to_day n ws telegram4) as [fs|e] eqn:C; cbn [bind].
    2:{ right. apply fields_fail in C; [|exact L]. destruct C as (-> & i & key & k & w & I & J & W & N). exists ValueError. split; [reflexivity|]. split; [|auto].
        intros (R & _). destruct (R _ _ _ _ I J W) as (x & X). exact (N x X). }
    assert (FA := fields_spec _ _ _ L C).
    assert (RD : forall i key k w, In (i, key, k) columns -> S i < n -> nth_error ws i = Some w -> exists x, value_of to_float to_int to_day k w x).
    { intros i key k w I J W. apply in_columns in I. destruct I as [I ->]. destruct (read_field to_float to_int to_day key w) as [x|] eqn:R; [exists x; apply read_field_iff; exact R|].
      exfalso. revert C I. assert (S := table_sorted). revert S. generalize telegram4 fs. clear - J W R. induction l as [|[j s] T IH]; intros fs S C I; [exact I|].
      cbn [read_columns] in C. cbn in S. inversion S as [|? ? S' F]; subst. destruct I as [I|I].
      - injection I as -> ->. destruct (Nat.leb_spec (n - 1) i); [lia|]. rewrite (nth_word _ _ _ W), R in C. discriminate.
      - rewrite Forall_forall in F. assert (j < i) by (apply F; change i with (fst (i, key)); apply in_map; exact I).
        destruct (Nat.leb_spec (n - 1) j); [lia|]. destruct (read_field to_float to_int to_day s (nth j ws "")); [|discriminate].
        destruct (read_columns to_float to_int to_day n ws T) as [xs|] eqn:E; [|discriminate]. exact (IH xs S' eq_refl I). }
    destruct (read_spectrum to_int n ws) as [sp|e] eqn:SP; cbn [bind].
    2:{ right. apply spectrum_fail in SP. destruct SP as (-> & L79 & SP). exists ValueError. split; [reflexivity|]. split; [|auto].
        intros (_ & R & _). destruct (R L79) as [R1 R2]. destruct SP as [SP|(i & w & I & W & N)]; [lia|]. destruct (R2 i w I W) as (z & Z). congruence. }
    assert (SI := spectrum_spec _ _ _ SP).
    destruct (time_step n ws fs stamp L FA RD) as [(t & E & TI & OK)|(E & -> & L5)].
    + left. rewrite E. cbn [bind]. eexists. split; [reflexivity|]. split.
      * exists ws. cbn. auto 10.
      * split; [exact RD|]. split; [|exact OK]. intros L79. split.
        -- destruct (le_lt_dec 519 (length ws)) as [G|G]; [exact G|]. destruct (spectrum_fail_iff n ws L79 (or_introl G)) as (e & X). congruence.
        -- intros i w I W. destruct (to_int w) as [z|] eqn:TZ; [eauto|]. destruct (spectrum_fail_iff n ws L79) as (e & X); [right; exists i, w; auto|]. congruence.
    + right. rewrite E. cbn [bind]. exists IndexError. split; [reflexivity|]. split; [|auto]. intros (_ & _ & [R|R]); [congruence|lia].
Qed.
End Lines.

(** ** Files *)
Section Files.
Context (to_float : string -> option Q) (to_int : string -> option Z) (to_day : Z -> Z -> Z -> option Z) (to_stamp : string -> option Z).
Definition same_fields (a b : string) : Prop := forall ws, logger_fields a ws <-> logger_fields b ws.
Definition item_of (it : result (string * option Z)) (e : string * option Z) : Prop := exists l, it = Ok (l, snd e) /\ same_fields l (fst e).
Lemma fields_det : forall line a b, logger_fields line a -> logger_fields line b -> a = b.
Proof. intros line a b A B. apply fields_unique in A, B. congruence. Qed.
Lemma record_same : forall n a b t r, same_fields a b -> line_record to_float to_int to_day n a t r -> line_record to_float to_int to_day n b t r.
Proof. intros n a b t r S (ws & L & R). exists ws. split; [apply S; exact L|exact R]. Qed.
Lemma fits_dec : forall n ws, fits n ws \/ ~ fits n ws.
Proof. intros n ws. unfold fits. lia. Qed.
Lemma ignored_iff : forall n line ws, logger_fields line ws -> (ignored n line <-> ~ fits n ws).
Proof. intros n line ws L. split; [intros (w & A & B); rewrite (fields_det _ _ _ L A); exact B|intros N; exists ws; auto]. Qed.
Lemma acceptable_iff : forall n e ws, logger_fields (fst e) ws ->
  (acceptable to_float to_int to_day n e <-> (fits n ws -> readable to_float to_int to_day n ws (snd e))).
Proof. intros n e ws L. split; [intros (w & A & B); rewrite (fields_det _ _ _ L A); exact B|intros N; exists ws; auto]. Qed.
(** One telegram. *)
Lemma item_cases : forall n it e, item_of it e -> exists l, it = Ok (l, snd e) /\
  ((ignored n (fst e) /\ read_line to_float to_int to_day n l (snd e) = Ok None /\ acceptable to_float to_int to_day n e) \/
   (~ ignored n (fst e) /\ acceptable to_float to_int to_day n e /\ exists r, read_line to_float to_int to_day n l (snd e) = Ok (Some r) /\ line_record to_float to_int to_day n (fst e) (snd e) r) \/
   (~ ignored n (fst e) /\ ~ acceptable to_float to_int to_day n e /\ exists x, read_line to_float to_int to_day n l (snd e) = Raise x /\ (x = ValueError \/ x = IndexError))).
Proof.
  intros n it e (l & -> & S). exists l. split; [reflexivity|]. set (ws := split_on ";" (strip_char ";" (strip l))).
  assert (L : logger_fields l ws) by apply fields_exist. assert (L' : logger_fields (fst e) ws) by (apply S; exact L).
  rewrite (ignored_iff _ _ _ L'), (acceptable_iff _ _ _ L').
  destruct (read_line_cases to_float to_int to_day n l (snd e) ws L) as [[F R]|[F [(r & R & RR & OK)|(x & R & NR & X)]]].
  - left. split; [exact F|]. split; [exact R|]. intros F'. contradiction.
  - right. left. split; [auto|]. split; [auto|]. exists r. split; [exact R|]. eapply record_same; [exact S|exact RR].
  - right. right. split; [auto|]. split; [auto|]. exists x. split; [exact R|]. destruct X as [X|[X _]]; auto.
Qed.
Lemma read_items_ok : forall n items es rs, Forall2 item_of items es -> read_items to_float to_int to_day n items = Ok rs ->
  Forall (acceptable to_float to_int to_day n) es /\ exists outs, Forall2 (outcome to_float to_int to_day n) es outs /\ gathered outs rs.
Proof.
  intros n items es rs F. revert rs. induction F as [|it e items es I F IH]; intros rs H; cbn [read_items] in H.
  - injection H as <-. split; [constructor|]. exists []. split; constructor.
  - destruct (item_cases n it e I) as (l & -> & C). cbn [bind fst snd] in H.
    destruct C as [(G & R & A)|[(G & A & r & R & RR)|(G & A & x & R & X)]]; rewrite R in H; cbn [bind] in H; [| |discriminate].
    + destruct (read_items to_float to_int to_day n items) as [rest|]; cbn [bind] in H; [|discriminate]. injection H as <-.
      destruct (IH _ eq_refl) as (B & outs & O & GA). split; [constructor; assumption|]. exists (None :: outs). split; constructor; assumption.
    + destruct (read_items to_float to_int to_day n items) as [rest|]; cbn [bind] in H; [|discriminate]. injection H as <-.
      destruct (IH _ eq_refl) as (B & outs & O & GA). split; [constructor; assumption|]. exists (Some r :: outs). split; constructor; assumption.
Qed.
Lemma read_items_raise : forall n items es x, Forall2 item_of items es -> read_items to_float to_int to_day n items = Raise x ->
  ~ Forall (acceptable to_float to_int to_day n) es /\ (x = ValueError \/ x = IndexError).
Proof.
  intros n items es x F. revert x. induction F as [|it e items es I F IH]; intros y H; cbn [read_items] in H; [discriminate|].
  destruct (item_cases n it e I) as (l & -> & C). cbn [bind fst snd] in H.
  destruct C as [(G & R & A)|[(G & A & r & R & RR)|(G & A & x & R & X)]]; rewrite R in H; cbn [bind] in H.
  - destruct (read_items to_float to_int to_day n items) as [rest|] eqn:E; cbn [bind] in H; [discriminate|]. injection H as <-. destruct (IH _ eq_refl) as [N V].
    split; [|exact V]. intros B. inversion B; subst. contradiction.
  - destruct (read_items to_float to_int to_day n items) as [rest|] eqn:E; cbn [bind] in H; [discriminate|]. injection H as <-. destruct (IH _ eq_refl) as [N V].
    split; [|exact V]. intros B. inversion B; subst. contradiction.
  - injection H as <-. split; [|exact X]. intros B. inversion B; subst. contradiction.
Qed.
Lemma read_items_nil : forall n items es, Forall2 item_of items es ->
  (read_items to_float to_int to_day n items = Ok [] <-> Forall (fun e => ignored n (fst e)) es).
Proof.
  intros n items es F. induction F as [|it e items es I F IH]; cbn [read_items].
  - split; [constructor|reflexivity].
  - destruct (item_cases n it e I) as (l & -> & C). cbn [bind fst snd].
    destruct C as [(G & R & A)|[(G & A & r & R & RR)|(G & A & x & R & X)]]; rewrite R; cbn [bind].
    + destruct (read_items to_float to_int to_day n items) as [rest|x] eqn:E; cbn [bind].
      * split; [intros H; injection H as ->; constructor; [exact G|apply IH; reflexivity]|]. intros H. inversion H; subst. apply IH in H3. exact H3.
      * split; [discriminate|]. intros H. inversion H; subst. apply IH in H3. exact H3.
    + split; [destruct (read_items to_float to_int to_day n items); cbn [bind]; discriminate|]. intros H. inversion H; subst. contradiction.
    + split; [discriminate|]. intros H. inversion H; subst. contradiction.
Qed.
(** The items of the three formats. *)
Lemma datetime_lower : all_lower "datetime [utc];".
Proof. unfold all_lower, lower_case. repeat split; cbn; lia. Qed.
Lemma starts_iff : forall s, String.prefix "datetime [utc];" (lower s) = true <-> starts_in "datetime [utc];" s.
Proof.
  intros s. rewrite OutputProofs.prefix_iff. unfold starts_in. split.
  - intros (b & H). destruct (lower_split _ _ _ H) as (u & v & -> & Hu & _). exists u, v. split; [reflexivity|]. apply (lower_same _ datetime_lower). exact Hu.
  - intros (u & v & -> & H). exists (lower v). rewrite lower_append. f_equal. apply (lower_same _ datetime_lower). exact H.
Qed.
Lemma dated_item_ok : forall line telegram t, stamped_line to_stamp line telegram t -> item_of (dated_item to_stamp line) (telegram, Some t).
Proof.
  intros line telegram t (st & W & E & T). unfold item_of, dated_item. rewrite (proj2 (split_first_iff ";" line st telegram)) by (split; [exact W|rewrite E; reflexivity]).
  rewrite T. eexists. split; [reflexivity|]. cbn [fst]. intros ws. split; intros H; apply fields_unique in H; rewrite <- H.
  - rewrite fixed_fields. apply fields_exist.
  - rewrite <- fixed_fields. apply fields_exist.
Qed.
Lemma dated_item_inv : forall line l t, dated_item to_stamp line = Ok (l, t) -> exists telegram u, stamped_line to_stamp line telegram u /\ t = Some u.
Proof.
  intros line l t. unfold dated_item. destruct (split_first ";" line) as [[st tel]|] eqn:E; [|discriminate]. destruct (to_stamp st) as [u|] eqn:T; [|discriminate].
  intros H. injection H as _ <-. apply split_first_iff in E. destruct E as [W E]. exists tel, u. split; [|reflexivity]. exists st. auto.
Qed.
Lemma forall2_imp : forall A B (P Q : A -> B -> Prop) l m, (forall a b, P a b -> Q a b) -> Forall2 P l m -> Forall2 Q l m.
Proof. intros A B P Q l m H F. induction F; constructor; auto. Qed.
Lemma forall2_mapl : forall A B C (f : A -> B) (R : B -> C -> Prop) l m, Forall2 (fun a c => R (f a) c) l m -> Forall2 R (map f l) m.
Proof. intros A B C f R l m F. induction F; constructor; auto. Qed.
Lemma forall2_mapr : forall A B C (f : C -> B) (R : A -> B -> Prop) l m, Forall2 (fun a c => R a (f c)) l m -> Forall2 R l (map f m).
Proof. intros A B C f R l m F. induction F; constructor; auto. Qed.
Lemma items_of_telegrams : forall toa5 lines es, telegrams to_stamp toa5 lines es -> Forall2 item_of (log_items to_stamp toa5 lines) es.
Proof.
  intros toa5 [|first rest] es; cbn [telegrams log_items]; [intros ->; constructor|].
  intros [[O F]|[(O & S & F)|(O & S & ->)]].
  - rewrite (proj2 (contains_iff _ _) O). apply forall2_mapl. eapply forall2_imp; [|exact F]. cbv beta. intros row e (line & t & -> & ->). exists line. split; [reflexivity|].
    intros ws. reflexivity.
  - assert (C : contains "TOA5" first = false) by (destruct (contains "TOA5" first) eqn:C; [apply contains_iff in C; contradiction|reflexivity]). rewrite C.
    rewrite (proj2 (starts_iff first) S). apply forall2_mapl. eapply forall2_imp; [|exact F]. cbv beta. intros line e (tel & t & ST & ->). apply dated_item_ok. exact ST.
  - assert (C : contains "TOA5" first = false) by (destruct (contains "TOA5" first) eqn:C; [apply contains_iff in C; contradiction|reflexivity]). rewrite C.
    assert (C' : String.prefix "datetime [utc];" (lower first) = false) by (destruct (String.prefix "datetime [utc];" (lower first)) eqn:C'; [apply starts_iff in C'; contradiction|reflexivity]).
    rewrite C'. generalize (first :: rest). intros l. induction l as [|x l IH]; cbn [map]; constructor; [|exact IH]. exists x. split; [reflexivity|]. intros ws. reflexivity.
Qed.
Lemma items_ok : forall n items rs, read_items to_float to_int to_day n items = Ok rs -> Forall (fun it => exists l t, it = Ok (l, t)) items.
Proof.
  intros n items. induction items as [|it items IH]; intros rs; cbn [read_items]; [constructor|]. destruct it as [[l t]|x]; cbn [bind]; [|discriminate].
  cbn [fst snd]. destruct (read_line to_float to_int to_day n l t); cbn [bind]; [|discriminate]. destruct (read_items to_float to_int to_day n items) eqn:E; cbn [bind]; [|discriminate].
  intros _. constructor; [eauto|]. eapply IH. reflexivity.
Qed.
Lemma forall_exists2 : forall A B (R : A -> B -> Prop) l, Forall (fun a => exists b, R a b) l -> exists m, Forall2 R l m.
Proof. intros A B R l F. induction F as [|a l (b & H) F (m & IH)]; [exists []; constructor|exists (b :: m); constructor; assumption]. Qed.
Lemma telegrams_exist : forall toa5 lines, Forall (fun it => exists l t, it = Ok (l, t)) (log_items to_stamp toa5 lines) -> exists es, telegrams to_stamp toa5 lines es.
Proof.
  intros toa5 [|first rest]; cbn [telegrams log_items]; [eauto|]. destruct (contains "TOA5" first) eqn:C.
  - intros F. apply contains_iff in C. rewrite Forall_map in F.
    destruct (forall_exists2 _ _ (fun row e => exists line t, row = Some (line, t) /\ e = (line, Some t)) toa5) as (es & E); [|exists es; auto].
    eapply Forall_impl; [|exact F]. cbv beta. intros [[line t]|] (l & u & H); [eauto 6|discriminate].
  - assert (O : ~ occurs "TOA5" first) by (intros O; apply contains_iff in O; congruence).
    destruct (String.prefix "datetime [utc];" (lower first)) eqn:C'.
    + intros F. apply starts_iff in C'. rewrite Forall_map in F.
      destruct (forall_exists2 _ _ (fun line e => exists telegram t, stamped_line to_stamp line telegram t /\ e = (telegram, Some t)) rest) as (es & E); [|exists es; auto].
      eapply Forall_impl; [|exact F]. cbv beta. intros line (l & u & H). destruct (dated_item_inv _ _ _ H) as (tel & t & ST & _). eauto 6.
    + intros _. assert (S : ~ starts_in "datetime [utc];" first) by (intros S; apply starts_iff in S; congruence). eauto 6.
Qed.
Definition width (truncated : option nat) : nat := match truncated with Some k => k | None => 521 end - 1.
Lemma columns_of_iff : forall truncated n, columns_of truncated n <-> n = width truncated.
Proof.
  intros [k|] n; unfold columns_of, width; split.
  - intros [[H _]|(k' & H & ->)]; congruence.
  - intros ->. right. eauto.
  - intros [[_ ->]|(k' & H & _)]; [reflexivity|discriminate].
  - intros ->. left. auto.
Qed.
Lemma read_log_ok : forall truncated toa5 lines rs, read_log to_float to_int to_day to_stamp truncated toa5 lines = Ok rs ->
  exists n es outs, columns_of truncated n /\ telegrams to_stamp toa5 lines es /\ Forall2 (outcome to_float to_int to_day n) es outs /\ gathered outs rs /\ rs <> [].
Proof.
  intros truncated toa5 lines rs. unfold read_log. fold (width truncated). cbv zeta. destruct (read_items to_float to_int to_day (width truncated) (log_items to_stamp toa5 lines)) as [rs'|] eqn:R; cbn [bind]; [|discriminate].
  intros H. destruct (telegrams_exist _ _ (items_ok _ _ _ R)) as (es & T). destruct (read_items_ok _ _ _ _ (items_of_telegrams _ _ _ T) R) as (_ & outs & O & G).
  exists (width truncated), es, outs. split; [apply columns_of_iff; reflexivity|]. destruct rs' as [|r rs']; [discriminate|]. injection H as <-. repeat split; auto. discriminate.
Qed.
Lemma read_log_readable : forall truncated toa5 lines n es, columns_of truncated n -> telegrams to_stamp toa5 lines es ->
  ((exists rs, read_log to_float to_int to_day to_stamp truncated toa5 lines = Ok rs) <->
   Forall (acceptable to_float to_int to_day n) es /\ ~ Forall (fun e => ignored n (fst e)) es) /\
  (read_log to_float to_int to_day to_stamp truncated toa5 lines = Raise ValidTimeStampError <-> Forall (fun e => ignored n (fst e)) es) /\
  (forall x, read_log to_float to_int to_day to_stamp truncated toa5 lines = Raise x -> x = ValidTimeStampError \/ x = ValueError \/ x = IndexError).
Proof.
  intros truncated toa5 lines n es W T. apply columns_of_iff in W. subst n. apply items_of_telegrams in T. unfold read_log. fold (width truncated). cbv zeta.
  assert (NIL := read_items_nil (width truncated) _ _ T).
  destruct (read_items to_float to_int to_day (width truncated) (log_items to_stamp toa5 lines)) as [rs|x] eqn:R; cbn [bind].
  - destruct (read_items_ok _ _ _ _ T R) as (A & _). destruct rs as [|r rs].
    + assert (G := proj1 NIL eq_refl). split; [split; [intros (? & H); discriminate|intros [_ N]; contradiction]|]. split; [split; auto|]. intros x H. injection H as <-. auto.
    + assert (N : ~ Forall (fun e => ignored (width truncated) (fst e)) es) by (intros G; apply NIL in G; discriminate).
      split; [split; [auto|eauto]|]. split; [split; [discriminate|contradiction]|]. discriminate.
  - destruct (read_items_raise _ _ _ _ T R) as (A & V). split; [split; [intros (? & H); discriminate|intros [B _]; contradiction]|]. split.
    + split; [intros H; injection H as ->; destruct V; discriminate|]. intros G. apply NIL in G. discriminate.
    + intros y H. injection H as <-. auto.
Qed.
Lemma read_items_keyerror : forall n items x, read_items to_float to_int to_day n items = Raise x ->
  x = ValueError \/ x = IndexError \/ In (Raise x) items.
Proof.
  intros n items x. induction items as [|it items IH]; cbn [read_items]; [discriminate|]. destruct it as [[l t]|y]; cbn [bind].
  - cbn [fst snd]. destruct (item_cases n (Ok (l, t)) (l, t)) as (l' & E & C); [exists l; split; [reflexivity|intros ws; reflexivity]|]. injection E as <-. cbn [snd] in C.
    destruct C as [(G & R & A)|[(G & A & r & R & RR)|(G & A & y & R & X)]]; rewrite R; cbn [bind].
    + destruct (read_items to_float to_int to_day n items); cbn [bind]; [discriminate|]. intros H. injection H as ->. destruct (IH eq_refl) as [V|[V|V]]; auto. right. right. right. exact V.
    + destruct (read_items to_float to_int to_day n items); cbn [bind]; [discriminate|]. intros H. injection H as ->. destruct (IH eq_refl) as [V|[V|V]]; auto. right. right. right. exact V.
    + intros H. injection H as <-. destruct X; auto.
  - intros H. injection H as ->. right. right. left. reflexivity.
Qed.
Lemma read_log_errors : forall truncated toa5 lines x, read_log to_float to_int to_day to_stamp truncated toa5 lines = Raise x ->
  x = ValidTimeStampError \/ x = ValueError \/ x = IndexError \/ (x = KeyError /\ In None toa5 /\ exists first rest, lines = first :: rest /\ occurs "TOA5" first).
Proof.
  intros truncated toa5 lines x. unfold read_log. fold (width truncated). cbv zeta.
  destruct (read_items to_float to_int to_day (width truncated) (log_items to_stamp toa5 lines)) as [rs|y] eqn:R; cbn [bind].
  - destruct rs; [intros H; injection H as <-; auto|discriminate].
  - intros H. injection H as ->. apply read_items_keyerror in R. destruct R as [R|[R|R]]; auto. unfold log_items in R. destruct lines as [|first rest]; [destruct R|].
    destruct (contains "TOA5" first) eqn:C.
    + apply in_map_iff in R. destruct R as ([[l t]|] & E & I); cbn in E; [discriminate|]. injection E as <-. right. right. right. split; [reflexivity|]. split; [exact I|].
      exists first, rest. split; [reflexivity|]. apply contains_iff. exact C.
    + destruct (String.prefix "datetime [utc];" (lower first)).
      * apply in_map_iff in R. destruct R as (l & E & I). unfold dated_item in E. destruct (split_first ";" l) as [[st tel]|]; [|injection E as <-; auto].
        destruct (to_stamp st); [discriminate|injection E as <-; auto].
      * apply in_map_iff in R. destruct R as (l & E & I). discriminate.
Qed.
End Files.

(** ** Days *)
Lemma day_iff : forall t d, day_of_second t = d <-> (86400 * d <= t < 86400 * (d + 1))%Z.
Proof.
  intros t d. unfold day_of_second. assert (M := Z.div_mod t 86400 ltac:(lia)). assert (B := Z.mod_pos_bound t 86400 ltac:(lia)). split; [intros <-; lia|intros H]. nia.
Qed.
Lemma screen_ok : forall date rs day kp, screen_records date rs = Ok (day, kp) <-> chosen date rs kp day.
Proof.
  intros date rs day kp. unfold screen_records, chosen. destruct date as [d|].
  - assert (K : kept (on_day d) rs (filter (fun r => (day_of_second (th_time r) =? d)%Z) rs)).
    { apply kept_filter. intros r. rewrite Z.eqb_eq. apply day_iff. }
    split.
    + destruct (filter (fun r => (day_of_second (th_time r) =? d)%Z) rs) as [|r l] eqn:E; [discriminate|]. intros H. injection H as <- <-. split; [discriminate|]. auto.
    + intros (N & -> & K'). rewrite (kept_unique _ _ _ K _ K'). destruct kp; [congruence|reflexivity].
  - split.
    + destruct rs as [|r rs]; [discriminate|]. intros H. injection H as <- <-. split; [discriminate|]. split; [reflexivity|]. exists r, rs. split; [reflexivity|]. apply day_iff. reflexivity.
    + intros (_ & -> & r & rest & -> & D). apply day_iff in D. rewrite D. reflexivity.
Qed.
Definition tidy (rs : list record) : Prop := forall r, In r rs -> NoDup (map fst (th_fields r)).
Lemma serial_iff : forall r s, NoDup (map fst (th_fields r)) -> (serial_of r = Some (FText s) <-> In ("_serial_number", FText s) (th_fields r)).
Proof. intros r s N. unfold serial_of. apply get_in. exact N. Qed.
Lemma serial_number_iff : forall rs s, tidy rs -> rs <> [] -> (serial_number rs = Ok s <-> one_serial rs s).
Proof.
  intros rs s T N. unfold serial_number. destruct rs as [|r rs]; [congruence|]. split.
  - destruct (serial_of r) as [[| | |w]|] eqn:E; try discriminate. destruct (forallb (fun x => same_text (serial_of x) (Some (FText w))) (r :: rs)) eqn:F; [|discriminate].
    intros H. injection H as ->. rewrite forallb_forall in F. intros x I. apply serial_iff; [apply T; exact I|]. specialize (F x I).
    destruct (serial_of x) as [[| | |u]|]; cbn in F; try discriminate. apply String.eqb_eq in F. congruence.
  - intros O. rewrite (proj2 (serial_iff r s (T r (or_introl eq_refl))) (O r (or_introl eq_refl))).
    replace (forallb (fun x => same_text (serial_of x) (Some (FText s))) (r :: rs)) with true; [reflexivity|]. symmetry. apply forallb_forall. intros x I.
    rewrite (proj2 (serial_iff x s (T x I)) (O x I)). cbn. apply String.eqb_refl.
Qed.
Lemma serial_number_raise : forall rs x, tidy rs -> serial_number rs = Raise x -> x = DisdrometerDataError \/ x = IndexError.
Proof.
  intros rs x T. unfold serial_number. destruct rs as [|r rs]; [intros H; injection H as <-; auto|].
  destruct (serial_of r) as [[| | |w]|]; try (intros H; injection H as <-; auto; fail).
  destruct (forallb (fun x => same_text (serial_of x) (Some (FText w))) (r :: rs)); [discriminate|intros H; injection H as <-; auto].
Qed.

(** ** Classes *)
Lemma velocity_mid : exists v, velocity_bins = Ok v /\ Forall2 Qeq (b_mid v) velocities.
Proof. eexists. split; [vm_compute; reflexivity|]. cbn [b_mid]. unfold velocities. repeat (constructor; [reflexivity|]). constructor. Qed.
Lemma diameter_mid : exists d, diameter_bins = Ok d /\ Forall2 (fun a x => (a * 10000 == x)%Q) (b_mid d) diameters.
Proof. eexists. split; [vm_compute; reflexivity|]. cbn [b_mid]. unfold diameters. repeat (constructor; [reflexivity|]). constructor. Qed.
Lemma in_units_spec : forall key x, converted key x (in_units key x).
Proof.
  intros key x. unfold converted, in_units.
  assert (R : forall k, In k ["rainfall_rate_1min_total"; "rainfall_rate"; "rainfall_rate_1min_solid"] -> In (k, (1 # 3600000, 0)%Q) conversions) by (intros k [<-|[<-|[<-|[]]]]; unfold conversions; repeat (first [left; reflexivity|right])).
  assert (T : forall k, In k ["T_interior"; "T_ambient"; "T_laser_driver"] -> In (k, (1, 27315 # 100)%Q) conversions) by (intros k [<-|[<-|[<-|[]]]]; unfold conversions; repeat (first [left; reflexivity|right])).
  destruct (mem_str key ["rainfall_rate_1min_total"; "rainfall_rate"; "rainfall_rate_1min_solid"]) eqn:E.
  { apply mem_str_iff in E. left. exists (1 # 3600000)%Q, 0%Q. split; [apply R; exact E|]. field. }
  assert (NE : ~ In key ["rainfall_rate_1min_total"; "rainfall_rate"; "rainfall_rate_1min_solid"]) by (intros I; apply mem_str_iff in I; congruence).
  destruct (String.eqb_spec key "V_sensor_supply") as [->|N1].
  { left. exists (1 # 10)%Q, 0%Q. split; [unfold conversions; repeat (first [left; reflexivity|right])|]. field. }
  destruct (String.eqb_spec key "I_mean_laser") as [->|N2].
  { left. exists (1 # 100)%Q, 0%Q. split; [unfold conversions; repeat (first [left; reflexivity|right])|]. field. }
  destruct (mem_str key ["T_interior"; "T_ambient"; "T_laser_driver"]) eqn:E2.
  { apply mem_str_iff in E2. left. exists 1%Q, (27315 # 100)%Q. split; [apply T; exact E2|]. ring. }
  assert (NE2 : ~ In key ["T_interior"; "T_ambient"; "T_laser_driver"]) by (intros I; apply mem_str_iff in I; congruence).
  right. split; [|reflexivity]. unfold conversions. cbn [map fst In]. cbn [In] in NE, NE2.
  intros [H|[H|[H|[H|[H|[H|[H|[H|[]]]]]]]]]; try (apply N1; congruence); try (apply N2; congruence).
  - apply NE. auto.
  - apply NE. auto.
  - apply NE. auto.
  - apply NE2. auto.
  - apply NE2. auto.
  - apply NE2. auto.
Qed.
Lemma out_value_spec : forall key x, output_value key x (out_value key x).
Proof.
  intros key x. unfold output_value, out_value, too_much. destruct (String.eqb_spec key "rainfall_rate") as [->|N].
  - destruct (qlt 999 x) eqn:E; cbn [option_map].
    + apply GridProofs.qlt_iff in E. left. auto.
    + assert (L : ~ (999 < x)%Q) by (intros L; apply GridProofs.qlt_iff in L; congruence). right. split; [intros [_ L']; contradiction|].
      eexists. split; [reflexivity|]. apply in_units_spec.
  - right. split; [intros [H _]; contradiction|]. eexists. split; [reflexivity|]. apply in_units_spec.
Qed.

(** ** Arrangement *)
Lemma arranged_same : forall A argsort hours (l : list A), is_argsort hours (argsort hours) -> length l = length hours ->
  let ind := in_order_of argsort hours in arranged (length hours) ind l = take l (take (fst ind) (snd ind)).
Proof.
  intros A argsort hours l AS L ind. subst ind. unfold arranged, in_order_of. cbv zeta. cbn [fst snd].
  destruct (sort_dedup _ _ AS) as (_ & T & _). destruct AS as [P _].
  assert (B : forall i, In i (argsort hours) -> i < length l) by (intros i I; apply (Permutation_in _ P) in I; apply in_seq in I; lia).
  unfold along_time at 2. rewrite L, Nat.eqb_refl. unfold along_time. rewrite take_length by exact B. rewrite Nat.eqb_refl. apply T. exact L.
Qed.
Lemma arranged_other : forall A argsort hours (l : list A), is_argsort hours (argsort hours) -> length l <> length hours ->
  arranged (length hours) (in_order_of argsort hours) l = l.
Proof.
  intros A argsort hours l [P _] L. unfold arranged, in_order_of. cbv zeta. cbn [fst snd]. unfold along_time at 2. destruct (Nat.eqb_spec (length l) (length hours)); [contradiction|].
  unfold along_time. apply Permutation_length in P. rewrite seq_length in P. rewrite P. destruct (Nat.eqb_spec (length l) (length hours)); [contradiction|reflexivity].
Qed.
Lemma column_spec : forall key rs, (forall r, In r rs -> exists x, get String.eqb key (th_fields r) = Some (FNum x)) ->
  Forall2 (fun r x => get String.eqb key (th_fields r) = Some (FNum x)) rs (column key rs).
Proof.
  intros key rs. unfold column. induction rs as [|r rs IH]; intros H; cbn [flat_map]; [constructor|]. destruct (H r (or_introl eq_refl)) as (x & X). rewrite X. cbn [app].
  constructor; [exact X|]. apply IH. intros q I. apply H. right. exact I.
Qed.
Lemma spectra_spec : forall rs : list record, (forall r, In r rs -> th_spectrum r <> None) ->
  Forall2 (fun r s => th_spectrum r = Some s) rs (flat_map (fun r => match th_spectrum r with Some s => [s] | None => [] end) rs).
Proof.
  induction rs as [|r rs IH]; intros H; cbn [flat_map]; [constructor|]. assert (X := H r (or_introl eq_refl)). destruct (th_spectrum r) as [s|] eqn:E; [|congruence]. cbn [app].
  constructor; [exact E|]. apply IH. intros q I. apply H. right. exact I.
Qed.
Lemma spectra_none : forall rs : list record, (forall r, In r rs -> th_spectrum r = None) -> flat_map (fun r => match th_spectrum r with Some s => [s] | None => [] end) rs = [].
Proof. induction rs as [|r rs IH]; intros H; cbn [flat_map]; [reflexivity|]. rewrite (H r (or_introl eq_refl)). cbn [app]. apply IH. intros q I. apply H. right. exact I. Qed.
Lemma taken_rows : forall A B (R : A -> B -> Prop) l m J, Forall2 R l m -> (forall i, In i J -> i < length l) ->
  Forall2 (fun i b => exists a, nth_error l i = Some a /\ R a b) J (take m J).
Proof.
  intros A B R l m J F H. apply forall2_nth in F. destruct F as [L F]. assert (P : picks m J (take m J)) by (apply take_picks; intros i I; rewrite <- L; auto).
  assert (G : Forall (fun i => i < length l) J) by (apply Forall_forall; exact H). clear H. unfold picks in P. induction P as [|i b J bs N P IH]; constructor.
  - inversion G; subst. destruct (nth_error l i) as [a|] eqn:E; [|apply nth_error_None in E; lia]. exists a. split; [reflexivity|]. exact (F i a b E N).
  - apply IH. inversion G; assumption.
Qed.
Lemma public_iff : forall key, public key = true <-> ~ exists u, key = ("_" ++ u)%string.
Proof. intros key. unfold public. rewrite negb_true_iff. rewrite <- OutputProofs.prefix_iff. destruct (String.prefix "_" key); split; congruence. Qed.
Lemma public_kind : forall i key k, In (i, key, k) columns -> public key = true -> k = KFloat \/ k = KInt.
Proof.
  intros i key k I P. assert (A : forallb (fun c => let '(_, key, k) := c in negb (public key) || match k with KFloat | KInt => true | _ => false end) columns = true) by reflexivity.
  rewrite forallb_forall in A. specialize (A _ I). cbv beta iota in A. rewrite P in A. destruct k; try discriminate; auto.
Qed.
Section Output.
Context (to_float : string -> option Q) (to_int : string -> option Z) (to_day : Z -> Z -> Z -> option Z) (to_stamp : string -> option Z).
Definition read_with (n : nat) (r : record) : Prop := exists ws, n <= length ws /\ fields_are to_float to_int to_day n ws (th_fields r) /\ spectrum_is to_int n ws (th_spectrum r) /\
  (forall i key k, In (i, key, k) columns -> S i < n -> exists x, value_of to_float to_int to_day k (nth i ws "") x).
Lemma read_log_with : forall truncated toa5 lines rs, read_log to_float to_int to_day to_stamp truncated toa5 lines = Ok rs -> Forall (read_with (width truncated)) rs.
Proof.
  intros truncated toa5 lines rs. unfold read_log. fold (width truncated). cbv zeta. set (n := width truncated). generalize (log_items to_stamp toa5 lines). intros items.
  destruct (read_items to_float to_int to_day n items) as [qs|] eqn:R; cbn [bind]; [|discriminate]. intros H. assert (E : qs = rs) by (destruct qs; [discriminate|congruence]). subst qs. clear H.
  revert rs R. induction items as [|it items IH]; intros rs; cbn [read_items]; [intros H; injection H as <-; constructor|].
  destruct it as [[l t]|]; cbn [bind fst snd]; [|discriminate].
  destruct (read_line_cases to_float to_int to_day n l t _ (fields_exist l)) as [[F R]|[F [(r & R & RR & OK)|(x & R & _)]]]; rewrite R; cbn [bind]; [| |discriminate].
  - destruct (read_items to_float to_int to_day n items); cbn [bind]; [|discriminate]. intros H. injection H as <-. apply IH. reflexivity.
  - destruct (read_items to_float to_int to_day n items); cbn [bind]; [|discriminate]. intros H. injection H as <-. constructor; [|apply IH; reflexivity].
    destruct RR as (ws & LF & FT & FA & SI & _). rewrite (fields_unique _ _ LF) in OK. exists ws. assert (L : n <= length ws) by (destruct FT; lia).
    split; [exact L|]. split; [exact FA|]. split; [exact SI|]. intros i key k I J. destruct OK as (V & _). apply (V i key k _ I J). apply word_at. lia.
Qed.
Lemma read_with_key : forall n r i key k, read_with n r -> In (i, key, k) columns -> S i < n -> public key = true -> exists x, get String.eqb key (th_fields r) = Some (FNum x).
Proof.
  intros n r i key k (ws & L & [ND FA] & _ & V) I J P. destruct (V i key k I J) as (x & X).
  assert (G : get String.eqb key (th_fields r) = Some x) by (apply get_in; [exact ND|]; apply FA; exists i, k, (nth i ws ""); split; [exact I|]; split; [exact J|]; split; [apply word_at; lia|exact X]).
  destruct (public_kind _ _ _ I P) as [-> | ->]; destruct X as (q & _ & ->); eauto.
Qed.
Lemma read_with_keys : forall n r key, read_with n r -> (In key (map fst (th_fields r)) <-> exists i k, In (i, key, k) columns /\ S i < n).
Proof.
  intros n r key (ws & L & [ND FA] & _ & V). rewrite in_map_iff. split.
  - intros ([key' x] & <- & I). apply FA in I. destruct I as (i & k & w & I & J & _). eauto.
  - intros (i & k & I & J). destruct (V i key k I J) as (x & X). exists (key, x). split; [reflexivity|]. apply FA. exists i, k, (nth i ws "").
    split; [exact I|]. split; [exact J|]. split; [apply word_at; lia|exact X].
Qed.
Lemma read_with_spectrum : forall n r, read_with n r -> (n <= 79 -> th_spectrum r = None) /\ (79 < n -> th_spectrum r <> None).
Proof. intros n r (ws & _ & _ & [[L E]|(L & s & E & _)] & _); split; intros; try lia; [exact E|congruence]. Qed.
Lemma chosen_in : forall date rs kp day, chosen date rs kp day -> forall r, In r kp -> In r rs.
Proof.
  intros date rs kp day (_ & H). destruct date as [d|].
  - destruct H as [_ K]. intros r. induction K; cbn [In]; [auto| |right; auto]. intros [->|I]; [left; reflexivity|right; auto].
  - destruct H as [-> _]. auto.
Qed.
Lemma chosen_day : forall date rs r kp day, chosen date rs (r :: kp) day -> day = day_of_second (th_time r).
Proof.
  intros date rs r kp day (_ & H). symmetry. apply day_iff. destruct date as [d|].
  - destruct H as [-> K]. assert (I : In r (r :: kp)) by (left; reflexivity). revert I. generalize (r :: kp) K. intros l K'. clear K. induction K' as [|x l out P K IH|x l out P K IH]; [intros []| |auto].
    intros [->|I]; [exact P|auto].
  - destruct H as (E & q & rest & -> & D). injection E as -> _. exact D.
Qed.
Lemma hour_spec : forall first t, hour_on (day_of_second first) t (record_hour first t).
Proof. intros first t. unfold hour_on, record_hour. rewrite Z.mul_comm. field. Qed.
Lemma ok_inj : forall A (a b : A), Ok a = Ok b -> a = b.
Proof. congruence. Qed.
Lemma thies_data_output : forall argsort date n rs o, (forall l, is_argsort l (argsort l)) -> Forall (read_with n) rs -> thies_data argsort date rs = Ok o ->
  exists kp, chosen date rs kp (to_date o) /\ one_serial kp (to_serial o) /\ output_of n kp o.
Proof.
  intros argsort date n rs o AS RW. unfold thies_data. destruct (screen_records date rs) as [[day kp]|] eqn:SC; cbn [bind fst snd]; [|discriminate].
  apply screen_ok in SC. assert (IN := chosen_in _ _ _ _ SC). assert (RK : forall r, In r kp -> read_with n r) by (rewrite Forall_forall in RW; auto).
  assert (TD : tidy kp) by (intros r I; destruct (RK r I) as (ws & _ & [ND _] & _); exact ND). assert (NE := proj1 SC).
  destruct (serial_number kp) as [serial|] eqn:SN; cbn [bind]; [|discriminate]. apply (serial_number_iff kp serial TD NE) in SN.
  destruct velocity_mid as (v & EV & V). destruct diameter_mid as (d & ED & D). rewrite EV, ED. cbn [bind].
  destruct kp as [|r0 kp']; [congruence|]. cbv beta iota zeta. set (kp := r0 :: kp') in *. assert (DAY := chosen_day _ _ _ _ _ SC).
  set (hours := map (fun r => record_hour (th_time r0) (th_time r)) kp).
  intros H. apply ok_inj in H. subst o. exists kp. cbn [to_date to_serial]. split; [exact SC|]. split; [exact SN|].
  assert (HL : length hours = length kp) by (apply map_length).
  set (ind := in_order_of argsort hours). exists (take (fst ind) (snd ind)).
  destruct (sort_dedup _ _ (AS hours)) as (B & T & SI & ALL). change (take (argsort hours) (unique_index (take hours (argsort hours)))) with (take (fst ind) (snd ind)) in *. cbv zeta in B, T, SI, ALL.
  set (J := take (fst ind) (snd ind)) in *.
  assert (BK : forall i, In i J -> i < length kp) by (intros i I; rewrite <- HL; apply B; exact I).
  assert (AR : forall A (l : list A), length l = length kp -> arranged (length hours) ind l = take l J) by (intros A l L; apply arranged_same; [apply AS|lia]).
  assert (HOURS : Forall2 (fun r h => hour_on day (th_time r) h) kp hours).
  { unfold hours. rewrite DAY. generalize kp. intros l. induction l as [|r l IH]; cbn [map]; constructor; [apply hour_spec|exact IH]. }
  cbn [to_hours to_cols to_spectra to_velocity to_diameter]. rewrite (AR _ hours HL).
  split; [exact (taken_rows _ _ _ _ _ _ HOURS BK)|]. split; [exact SI|]. split.
  { intros r I. apply In_nth_error in I. destruct I as (i & I). apply forall2_nth in HOURS. destruct HOURS as [_ HO].
    assert (i < length kp) by (apply nth_error_Some; congruence). destruct (nth_error hours i) as [h|] eqn:E; [|apply nth_error_None in E; lia].
    destruct (ALL h (nth_error_In _ _ E)) as (y & Y & Q). exists y. split; [exact Y|]. unfold hour_on. rewrite Q. exact (HO i r h I E). }
  assert (R0 : read_with n r0) by (apply RK; left; reflexivity).
  assert (KEYS : forall key, In key (keys_of kp) <-> exists i k, In (i, key, k) columns /\ S i < n /\ ~ exists u, key = ("_" ++ u)%string).
  { intros key. unfold keys_of. change kp with (r0 :: kp') at 1. cbv iota. rewrite filter_In, public_iff, (read_with_keys n r0 key R0). split.
    - intros [(i & k & I & L) P]. exists i, k. auto.
    - intros (i & k & I & L & P). split; [eauto|exact P]. }
  split; [intros key; rewrite map_map; cbn [fst]; rewrite map_id; apply KEYS|]. split.
  { intros key col I. apply in_map_iff in I. destruct I as (key' & E & I). injection E as -> <-. apply KEYS in I. destruct I as (i & k & I & L & P). apply public_iff in P.
    assert (CS := column_spec key kp (fun r IR => read_with_key n r i key k (RK r IR) I L P)). assert (CL := CS). apply forall2_nth in CL. destruct CL as [CL _].
    rewrite AR by (symmetry; exact CL). apply forall2_mapr.
    eapply forall2_imp; [|exact (taken_rows _ _ _ _ _ _ CS BK)]. cbv beta. intros j x (r & N & G). exists r, x. split; [exact N|]. split; [|apply out_value_spec].
    apply get_in; [apply TD; eapply nth_error_In; exact N|exact G]. }
  split.
  { intros L. rewrite (spectra_none kp) by (intros r I; apply (read_with_spectrum n r (RK r I)); exact L). unfold ind. rewrite arranged_other; [reflexivity|apply AS|]. rewrite HL. unfold kp. discriminate. }
  split.
  { intros L. assert (SS := spectra_spec kp (fun r I => proj2 (read_with_spectrum n r (RK r I)) L)). assert (SL := SS). apply forall2_nth in SL. destruct SL as [SL _].
    rewrite AR by (symmetry; exact SL). exact (taken_rows _ _ _ _ _ _ SS BK). }
  split.
  { intros N. unfold ind. rewrite arranged_other; [exact V|apply AS|]. apply forall2_nth in V. destruct V as [V _]. rewrite V, HL. cbn. auto. }
  intros N. unfold ind. rewrite arranged_other; [|apply AS|apply forall2_nth in D; destruct D as [D _]; rewrite D, HL; cbn; auto].
  apply forall2_mapl. eapply forall2_imp; [|exact D]. cbv beta. intros a x E. rewrite <- E. field.
Qed.
End Output.

(** ** The whole *)
Section Whole.
Context (to_float : string -> option Q) (to_int : string -> option Z) (to_day : Z -> Z -> Z -> option Z) (to_stamp : string -> option Z).
Lemma thies_data_raise : forall argsort date n rs x, Forall (read_with to_float to_int to_day n) rs -> thies_data argsort date rs = Raise x -> x = DisdrometerDataError \/ x = IndexError.
Proof.
  intros argsort date n rs x RW. unfold thies_data. destruct (screen_records date rs) as [[day kp]|y] eqn:SC; cbn [bind fst snd].
  - apply screen_ok in SC. assert (TD : tidy kp).
    { intros r I. apply (chosen_in _ _ _ _ SC) in I. rewrite Forall_forall in RW. destruct (RW r I) as (ws & _ & [ND _] & _). exact ND. }
    destruct (serial_number kp) as [serial|y] eqn:SN; cbn [bind].
    + destruct velocity_mid as (v & EV & _). destruct diameter_mid as (d & ED & _). rewrite EV, ED. cbn [bind]. discriminate.
    + intros H. injection H as <-. exact (serial_number_raise _ _ TD SN).
  - intros H. injection H as <-. unfold screen_records in SC. destruct date; [destruct (filter _ rs); [|discriminate]|destruct rs; [|discriminate]]; injection SC as <-; auto.
Qed.
Lemma thies_data_ok : forall argsort date n rs kp day s, Forall (read_with to_float to_int to_day n) rs -> chosen date rs kp day -> one_serial kp s ->
  exists o, thies_data argsort date rs = Ok o /\ to_date o = day /\ to_serial o = s /\ map fst (to_cols o) = keys_of kp.
Proof.
  intros argsort date n rs kp day s RW C O. unfold thies_data. rewrite (proj2 (screen_ok _ _ _ _) C). cbn [bind fst snd].
  assert (TD : tidy kp).
  { intros r I. apply (chosen_in _ _ _ _ C) in I. rewrite Forall_forall in RW. destruct (RW r I) as (ws & _ & [ND _] & _). exact ND. }
  rewrite (proj2 (serial_number_iff kp s TD (proj1 C)) O). cbn [bind].
  destruct velocity_mid as (v & EV & _). destruct diameter_mid as (d & ED & _). rewrite EV, ED. cbn [bind]. eexists. split; [reflexivity|]. cbn [to_date to_serial to_cols].
  split; [reflexivity|]. split; [reflexivity|]. rewrite map_map. cbn [fst]. apply map_id.
Qed.
Lemma thies_data_serials : forall argsort date n rs kp day, Forall (read_with to_float to_int to_day n) rs -> chosen date rs kp day -> (forall s, ~ one_serial kp s) ->
  exists x, thies_data argsort date rs = Raise x /\ (x = DisdrometerDataError \/ x = IndexError).
Proof.
  intros argsort date n rs kp day RW C O. assert (E : exists x, thies_data argsort date rs = Raise x).
  { unfold thies_data. rewrite (proj2 (screen_ok _ _ _ _) C). cbn [bind fst snd].
    assert (TD : tidy kp).
    { intros r I. apply (chosen_in _ _ _ _ C) in I. rewrite Forall_forall in RW. destruct (RW r I) as (ws & _ & [ND _] & _). exact ND. }
    destruct (serial_number kp) as [s|x] eqn:SN; [apply (serial_number_iff kp s TD (proj1 C)) in SN; exfalso; exact (O s SN)|]. cbn [bind]. eauto. }
  destruct E as (x & E). exists x. split; [exact E|]. eapply thies_data_raise; [exact RW|exact E].
Qed.
Lemma rain_column : In (13, "rainfall_rate", KFloat) columns.
Proof. unfold columns. repeat (first [left; reflexivity|right]). Qed.
Lemma rain_key : forall n kp, kp <> [] -> (forall r, In r kp -> read_with to_float to_int to_day n r) -> (In "rainfall_rate" (keys_of kp) <-> 14 < n).
Proof.
  intros n [|r kp] N RW; [congruence|]. unfold keys_of. rewrite filter_In, (read_with_keys to_float to_int to_day n r _ (RW r (or_introl eq_refl))). split.
  - intros [(i & k & I & J) _]. destruct (column_unique _ _ _ _ _ I rain_column) as [-> _]. lia.
  - intros L. split; [|reflexivity]. exists 13, KFloat. split; [exact rain_column|lia].
Qed.
Lemma rain_exists : forall cols : list (string * list (masked Q)), existsb (fun kc => String.eqb (fst kc) "rainfall_rate") cols = true <-> In "rainfall_rate" (map fst cols).
Proof.
  intros cols. rewrite existsb_exists, in_map_iff. split; intros (x & H); exists x; rewrite String.eqb_eq in *; tauto.
Qed.
Lemma chosen_read : forall date n rs kp day, Forall (read_with to_float to_int to_day n) rs -> chosen date rs kp day -> forall r, In r kp -> read_with to_float to_int to_day n r.
Proof. intros date n rs kp day RW C r I. rewrite Forall_forall in RW. apply RW. exact (chosen_in _ _ _ _ C r I). Qed.
Lemma thies2nc_ok : forall argsort truncated date toa5 lines o, thies2nc to_float to_int to_day to_stamp argsort truncated date toa5 lines = Ok o ->
  exists rs, read_log to_float to_int to_day to_stamp truncated toa5 lines = Ok rs /\ thies_data argsort date rs = Ok o.
Proof.
  intros argsort truncated date toa5 lines o. unfold thies2nc.
  destruct (read_log to_float to_int to_day to_stamp truncated toa5 lines) as [rs|x]; cbn [bind unreadable]; [|destruct x; discriminate].
  destruct (thies_data argsort date rs) as [o'|x] eqn:E; cbn [bind unreadable]; [|destruct x; discriminate].
  destruct (existsb (fun kc => String.eqb (fst kc) "rainfall_rate") (to_cols o')); [|discriminate]. intros H. apply ok_inj in H. subst o'. eauto.
Qed.
Lemma thies2nc_success : forall argsort truncated date toa5 lines n rs kp day s, columns_of truncated n ->
  read_log to_float to_int to_day to_stamp truncated toa5 lines = Ok rs -> chosen date rs kp day -> one_serial kp s ->
  (14 < n -> exists o, thies2nc to_float to_int to_day to_stamp argsort truncated date toa5 lines = Ok o /\ to_date o = day /\ to_serial o = s) /\
  (n <= 14 -> thies2nc to_float to_int to_day to_stamp argsort truncated date toa5 lines = Raise KeyError).
Proof.
  intros argsort truncated date toa5 lines n rs kp day s W R C O. apply columns_of_iff in W. subst n. assert (RW := read_log_with _ _ _ _ _ _ _ _ R).
  destruct (thies_data_ok argsort date _ rs kp day s RW C O) as (o & E & D & S & K). unfold thies2nc. rewrite R. cbn [bind]. rewrite E. cbn [bind unreadable].
  assert (X := rain_key (width truncated) kp (proj1 C) (chosen_read _ _ _ _ _ RW C)). rewrite <- K, <- rain_exists in X. split; intros L.
  - rewrite (proj2 X L). exists o. auto.
  - destruct (existsb (fun kc => String.eqb (fst kc) "rainfall_rate") (to_cols o)); [|reflexivity]. assert (14 < width truncated) by (apply X; reflexivity). lia.
Qed.
Lemma thies2nc_no_day : forall argsort truncated d toa5 lines rs, read_log to_float to_int to_day to_stamp truncated toa5 lines = Ok rs ->
  (forall r, In r rs -> ~ on_day d r) -> thies2nc to_float to_int to_day to_stamp argsort truncated (Some d) toa5 lines = Raise DisdrometerDataError.
Proof.
  intros argsort truncated d toa5 lines rs R N. unfold thies2nc. rewrite R. cbn [bind]. unfold thies_data, screen_records.
  assert (E : filter (fun r => (day_of_second (th_time r) =? d)%Z) rs = []).
  { destruct (filter (fun r => (day_of_second (th_time r) =? d)%Z) rs) as [|r l] eqn:E; [reflexivity|]. exfalso.
    assert (I : In r (filter (fun r => (day_of_second (th_time r) =? d)%Z) rs)) by (rewrite E; left; reflexivity). apply filter_In in I. destruct I as [I D].
    apply Z.eqb_eq, day_iff in D. exact (N r I D). }
  rewrite E. reflexivity.
Qed.
Lemma thies2nc_serials : forall argsort truncated date toa5 lines rs kp day, read_log to_float to_int to_day to_stamp truncated toa5 lines = Ok rs ->
  chosen date rs kp day -> (forall s, ~ one_serial kp s) -> thies2nc to_float to_int to_day to_stamp argsort truncated date toa5 lines = Raise DisdrometerDataError.
Proof.
  intros argsort truncated date toa5 lines rs kp day R C O. destruct (thies_data_serials argsort date _ rs kp day (read_log_with _ _ _ _ _ _ _ _ R) C O) as (x & E & X).
  unfold thies2nc. rewrite R. cbn [bind]. rewrite E. destruct X as [-> | ->]; reflexivity.
Qed.
Lemma thies2nc_unreadable : forall argsort truncated date toa5 lines x, read_log to_float to_int to_day to_stamp truncated toa5 lines = Raise x -> x = ValueError \/ x = IndexError ->
  thies2nc to_float to_int to_day to_stamp argsort truncated date toa5 lines = Raise DisdrometerDataError.
Proof. intros argsort truncated date toa5 lines x R X. unfold thies2nc. rewrite R. destruct X as [-> | ->]; reflexivity. Qed.
Lemma thies2nc_raises : forall argsort truncated date toa5 lines n x, columns_of truncated n -> thies2nc to_float to_int to_day to_stamp argsort truncated date toa5 lines = Raise x ->
  x = ValidTimeStampError \/ x = DisdrometerDataError \/ (x = KeyError /\ (n <= 14 \/ (In None toa5 /\ exists first rest, lines = first :: rest /\ occurs "TOA5" first))).
Proof.
  intros argsort truncated date toa5 lines n x W H. apply columns_of_iff in W. subst n. unfold thies2nc in H.
  destruct (read_log to_float to_int to_day to_stamp truncated toa5 lines) as [rs|y] eqn:R; cbn [bind] in H.
  - assert (RW := read_log_with _ _ _ _ _ _ _ _ R). destruct (thies_data argsort date rs) as [o|y] eqn:E; cbn [bind unreadable] in H.
    + destruct (existsb (fun kc => String.eqb (fst kc) "rainfall_rate") (to_cols o)) eqn:X; [discriminate|]. injection H as <-. right. right. split; [reflexivity|]. left.
      assert (E' := E). unfold thies_data in E'. destruct (screen_records date rs) as [[day kp]|] eqn:SC; cbn [bind fst snd] in E'; [|discriminate]. apply screen_ok in SC.
      assert (TD : tidy kp) by (intros r I; destruct (chosen_read _ _ _ _ _ RW SC r I) as (ws & _ & [ND _] & _); exact ND).
      destruct (serial_number kp) as [s|] eqn:SN; cbn [bind] in E'; [|discriminate]. apply (serial_number_iff kp s TD (proj1 SC)) in SN.
      destruct (thies_data_ok argsort date _ rs kp day s RW SC SN) as (o' & E2 & _ & _ & K). rewrite E2 in E. apply ok_inj in E. subst o'.
      assert (Y := rain_key (width truncated) kp (proj1 SC) (chosen_read _ _ _ _ _ RW SC)). rewrite <- K, <- rain_exists, X in Y.
      destruct (le_lt_dec (width truncated) 14) as [L|L]; [exact L|]. apply Y in L. discriminate.
    + destruct (thies_data_raise _ _ _ _ _ RW E) as [-> | ->]; cbn in H; injection H as <-; auto.
  - destruct (read_log_errors _ _ _ _ _ _ _ _ R) as [-> |[-> |[-> |(-> & I & F)]]]; cbn in H; injection H as <-; auto 6.
Qed.
End Whole.

(** ** Files of coefficients *)
Lemma put_in : forall path x files, In (path, x) (put_file path x files).
Proof.
  intros path x files. induction files as [|[p y] r IH]; cbn [put_file]; [left; reflexivity|]. destruct (String.eqb_spec p path) as [->|N]; [left; reflexivity|right; exact IH].
Qed.
Lemma put_keeps : forall path x files q z, q <> path -> In (q, z) files -> In (q, z) (put_file path x files).
Proof.
  intros path x files q z N. induction files as [|[p y] r IH]; cbn [put_file In]; [intros []|]. destruct (String.eqb_spec p path) as [->|D].
  - intros [H|H]; [congruence|right; exact H].
  - intros [H|H]; [left; exact H|right; apply IH; exact H].
Qed.
Lemma put_keys : forall path x files, NoDup (map fst files) -> NoDup (map fst (put_file path x files)) /\ forall q, In q (map fst (put_file path x files)) <-> q = path \/ In q (map fst files).
Proof.
  intros path x files. induction files as [|[p y] r IH]; intros N; cbn [put_file map fst].
  - split; [repeat constructor; auto|]. intros q. cbn. split; [intros [H|[]]; auto|intros [H|[]]; auto].
  - cbn in N. inversion N as [|? ? NI N']; subst. destruct (String.eqb_spec p path) as [->|D]; cbn [map fst].
    + split; [constructor; assumption|]. intros q. cbn. split; [intros [H|H]; auto|intros [H|[H|H]]; auto].
    + destruct (IH N') as [A B]. split; [constructor; [|exact A]|].
      * intros I. apply B in I. destruct I; [congruence|contradiction].
      * intros q. cbn. rewrite B. split; [intros [H|[H|H]]; auto|intros [H|[H|H]]; auto].
Qed.
Lemma coefficient_step : forall content folder links files paths,
  let out := fold_left (fun st link => let path := (folder ++ "/" ++ basename link)%string in (put_file path (content link) (fst st), snd st ++ [path])) links (files, paths) in
  snd out = paths ++ map (fun l => (folder ++ "/" ++ basename l)%string) links /\
  (NoDup (map fst files) -> NoDup (map fst (fst out))) /\
  (forall i link, nth_error links i = Some link -> (forall j l, nth_error links j = Some l -> i < j -> basename l <> basename link) ->
     In ((folder ++ "/" ++ basename link)%string, content link) (fst out)) /\
  (forall q z, In (q, z) files -> (forall l, In l links -> q <> (folder ++ "/" ++ basename l)%string) -> In (q, z) (fst out)).
Proof.
  intros content folder links. induction links as [|l links IH]; intros files paths; cbv zeta; cbn [fold_left].
  - split; [symmetry; apply app_nil_r|]. split; [auto|]. split; [intros [|i] link H; discriminate|]. auto.
  - cbn [fst snd]. specialize (IH (put_file (folder ++ "/" ++ basename l) (content l) files) (paths ++ [(folder ++ "/" ++ basename l)%string])). cbv zeta in IH. cbn [fst snd] in IH.
    destruct IH as (A & B & C & D). split; [rewrite A, <- app_assoc; reflexivity|]. split; [intros N; apply B; apply put_keys; exact N|]. split.
    + intros [|i] link E H.
      * cbn in E. injection E as ->. apply D; [apply put_in|]. intros m I Q. apply In_nth_error in I. destruct I as (j & I).
        apply (H (S j) m I ltac:(lia)). clear - Q. induction folder as [|c f IH]; [cbn in Q; congruence|]. cbn in Q. injection Q as Q. apply IH. exact Q.
      * apply (C i link E). intros j m J L. apply (H (S j) m J). lia.
    + intros q z I H. apply D; [|intros m M; apply H; right; exact M]. apply put_keeps; [apply H; left; reflexivity|exact I].
Qed.
