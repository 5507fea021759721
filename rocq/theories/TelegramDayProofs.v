(** Proofs about the Parsivel reader of level 1b files: names of columns, several files, days. *)
From Coq Require Import DecimalString DecimalNat DecimalFacts.
From Verif Require Import Base GridModel ArrayProofs OutputModel OutputSpec OutputProofs SiteModel SiteSpec SiteProofs
  GridProofs ReaderModel ReaderSpec ReaderProofs StationModel StationProofs TelegramModel TelegramSpec TelegramProofs
  TelegramFileProofs.
Local Open Scope string_scope.
Local Open Scope nat_scope.
Local Notation length := List.length (only parsing).

(** ** Names *)
Lemma append_inj_l : forall p a b, p ++ a = p ++ b -> a = b.
Proof. induction p as [|x p IH]; intros a b H; [exact H|]. cbn in H. injection H as H. apply IH. exact H. Qed.
Lemma to_uint_nonnil : forall n, Nat.to_uint n <> Decimal.Nil.
Proof.
  intros n H. pose proof (Unsigned.of_to n) as E. rewrite H in E. cbn in E. subst n. discriminate.
Qed.
Lemma unknown_name_inj : forall i j, unknown_name i = unknown_name j -> i = j.
Proof.
  intros i j H. apply append_inj_l in H.
  assert (E := f_equal NilZero.uint_of_string H). rewrite !NilZero.usu in E by apply to_uint_nonnil.
  apply Unsigned.to_uint_inj. congruence.
Qed.
Lemma unknown_starts : forall i, starts_with "_unknown_" (unknown_name i).
Proof. intros i. eexists. reflexivity. Qed.
Lemma names_not_unknown : forall n name, number_name n name -> ~ starts_with "_unknown_" name.
Proof.
  assert (F : Forall (fun p => ~ starts_with "_unknown_" (fst p)) quantities).
  { repeat constructor; cbn [fst]; intros (r & E); discriminate. }
  rewrite Forall_forall in F. intros n name (ns & I & _). exact (F (name, ns) I).
Qed.
Definition item_name (i : nat) (o : option Z) : option string :=
  match o with None => Some (unknown_name i) | Some n => get Z.eqb n telegram_names end.
Lemma telegram_from_ok : forall telegram i ns, telegram_from i telegram = Ok ns <->
  length ns = length telegram /\
  forall j o, nth_error telegram j = Some o -> item_name (i + j) o = nth_error ns j.
Proof.
  induction telegram as [|o telegram IH]; intros i ns.
  - cbn [telegram_from]. split.
    + intros H. assert (ns = []) by congruence. subst. split; [reflexivity|]. intros [|j] o; discriminate.
    + intros [L _]. destruct ns; [reflexivity|discriminate].
  - assert (E : telegram_from i (o :: telegram) = match item_name i o with
                 | Some name => bind (telegram_from (S i) telegram) (fun ns => Ok (name :: ns))
                 | None => Raise KeyError end) by (destruct o; reflexivity).
    rewrite E. clear E. split.
    + destruct (item_name i o) as [name|] eqn:N; [|discriminate]. intros H. apply bind_ok in H.
      destruct H as (ns' & A & B). assert (ns = name :: ns') by congruence. subst ns. apply IH in A. destruct A as [L A].
      split; [cbn; congruence|]. intros [|j] o' X.
      * cbn in X. assert (o' = o) by congruence. subst o'. rewrite Nat.add_0_r. exact N.
      * cbn in X |- *. rewrite <- (A j o' X). f_equal. lia.
    + intros [L A]. destruct ns as [|name ns]; [discriminate|].
      pose proof (A 0 o eq_refl) as A0. rewrite Nat.add_0_r in A0. rewrite A0. cbn [nth_error].
      rewrite (proj2 (IH (S i) ns)); [reflexivity|]. split; [cbn in L; congruence|].
      intros j o' X. specialize (A (S j) o' X). cbn [nth_error] in A. rewrite <- A. f_equal. lia.
Qed.
Lemma telegram_from_raise : forall telegram i e, telegram_from i telegram = Raise e ->
  e = KeyError /\ exists n, In (Some n) telegram /\ forall name, ~ number_name n name.
Proof.
  induction telegram as [|[n|] telegram IH]; intros i e H; cbn [telegram_from] in H; [discriminate| |].
  - destruct (get Z.eqb n telegram_names) as [name|] eqn:G.
    + apply bind_raise in H. destruct H as [H|(a & _ & H)]; [|discriminate]. destruct (IH _ _ H) as (-> & m & I & U).
      split; [reflexivity|]. exists m. split; [right; exact I|exact U].
    + split; [congruence|]. exists n. split; [left; reflexivity|]. intros name X. apply number_name_iff in X. congruence.
  - apply bind_raise in H. destruct H as [H|(a & _ & H)]; [|discriminate]. destruct (IH _ _ H) as (-> & m & I & U).
    split; [reflexivity|]. exists m. split; [right; exact I|exact U].
Qed.
Lemma nodup_of_nth : forall A (l : list A), (forall i j x, nth_error l i = Some x -> nth_error l j = Some x -> i = j) -> NoDup l.
Proof.
  intros A l H. apply NoDup_nth_error. intros i j L E. destruct (nth_error l i) as [x|] eqn:X.
  - apply (H i j x); congruence.
  - apply nth_error_None in X. lia.
Qed.
Lemma parse_telegram_spec : forall telegram,
  (forall i j n m, nth_error telegram i = Some (Some n) -> nth_error telegram j = Some (Some m) ->
     same_quantity n m -> i = j) ->
  (parse_telegram telegram = Raise KeyError /\ exists n, In (Some n) telegram /\ forall name, ~ number_name n name) \/
  ((forall n, In (Some n) telegram -> exists name, number_name n name) /\
   exists names, parse_telegram telegram = Ok names /\ telegram_columns telegram names).
Proof.
  intros telegram DQ. unfold parse_telegram. destruct (telegram_from 0 telegram) as [names|e] eqn:E.
  - right. apply telegram_from_ok in E. destruct E as [L A]. cbn [plus] in A.
    assert (IT : forall i name, nth_error names i = Some name -> exists o, nth_error telegram i = Some o /\ item_name i o = Some name).
    { intros i name X. assert (I : i < length telegram) by (rewrite <- L; apply nth_error_Some; congruence).
      apply nth_error_Some in I. destruct (nth_error telegram i) as [o|] eqn:O; [|congruence].
      exists o. split; [reflexivity|]. rewrite (A i o O). exact X. }
    split.
    + intros n I. apply In_nth_error in I. destruct I as [i I]. specialize (A i _ I). cbn [item_name] in A.
      assert (X : i < length names) by (rewrite L; apply nth_error_Some; congruence). apply nth_error_Some in X.
      destruct (nth_error names i) as [name|]; [|congruence]. exists name. apply number_name_iff. exact A.
    + exists names. split; [reflexivity|]. split; [exact L|]. split.
      * apply nodup_of_nth. intros i j x Xi Xj. apply IT in Xi, Xj.
        destruct Xi as (o & O & N), Xj as (o' & O' & N'). destruct o as [n|], o' as [m|]; cbn [item_name] in N, N'.
        -- apply number_name_iff in N, N'. apply (DQ i j n m O O'). exists x. auto.
        -- apply number_name_iff in N. destruct (names_not_unknown _ _ N). assert (x = unknown_name j) by congruence.
           subst x. apply unknown_starts.
        -- apply number_name_iff in N'. destruct (names_not_unknown _ _ N'). assert (x = unknown_name i) by congruence.
           subst x. apply unknown_starts.
        -- apply unknown_name_inj. congruence.
      * intros i name X. apply IT in X. destruct X as (o & O & N). split.
        -- intros n Y. assert (o = Some n) by congruence. subst o. apply number_name_iff. exact N.
        -- intros Y. assert (o = None) by congruence. subst o. cbn [item_name] in N. assert (name = unknown_name i) by congruence.
           subst name. apply unknown_starts.
  - left. apply telegram_from_raise in E. destruct E as [-> X]. auto.
Qed.
Lemma csv_nodup : NoDup (map fst csv_headers).
Proof.
  unfold csv_headers. cbn [map fst].
  repeat (constructor; [cbn [In]; intros X; repeat (destruct X as [X|X]; [discriminate|]); exact X|]). constructor.
Qed.
Lemma title_iff : forall t name, get String.eqb t csv_headers = Some name <-> In (name, t) header_titles.
Proof.
  intros t name. rewrite (get_in _ _ _ string_spec) by apply csv_nodup. split.
  - assert (F : Forall (fun p => existsb (fun q => String.eqb (fst q) (snd p) && String.eqb (fst p) (snd q)) header_titles = true)
                  csv_headers) by (repeat constructor).
    rewrite Forall_forall in F. intros I. specialize (F _ I). cbn [fst snd] in F. apply existsb_exists in F.
    destruct F as ([x u] & I' & F). cbn [fst snd] in F. apply andb_true_iff in F. destruct F as [E F].
    apply String.eqb_eq in E, F. subst. exact I'.
  - assert (F : Forall (fun q => get String.eqb (snd q) csv_headers = Some (fst q)) header_titles) by (repeat constructor).
    rewrite Forall_forall in F. intros I. specialize (F _ I). apply (get_in _ _ _ string_spec); [apply csv_nodup|exact F].
Qed.
Lemma header_names_ok : forall fields ns, header_names fields = Ok ns <->
  Forall2 (fun f name => exists t, stripped f t /\ In (name, t) header_titles) fields ns.
Proof.
  induction fields as [|f fields IH]; intros ns; cbn [header_names].
  - split; [intros H; assert (ns = []) by congruence; subst; constructor|intros H; inversion H; reflexivity].
  - split.
    + destruct (get String.eqb (strip f) csv_headers) as [name|] eqn:G; [|discriminate]. intros H. apply bind_ok in H.
      destruct H as (ns' & A & B). assert (ns = name :: ns') by congruence. subst ns. constructor; [|apply IH; exact A].
      exists (strip f). split; [apply strip_stripped|]. apply title_iff. exact G.
    + intros H. inversion H as [|? name ? ns' (t & ST & I) F]; subst. apply stripped_iff in ST. subst t.
      apply title_iff in I. rewrite I. apply IH in F. rewrite F. reflexivity.
Qed.
Lemma header_names_raise : forall fields e, header_names fields = Raise e -> e = KeyError /\
  exists f t, In f fields /\ stripped f t /\ forall name, ~ In (name, t) header_titles.
Proof.
  induction fields as [|f fields IH]; intros e H; cbn [header_names] in H; [discriminate|].
  destruct (get String.eqb (strip f) csv_headers) as [name|] eqn:G.
  - apply bind_raise in H. destruct H as [H|(a & _ & H)]; [|discriminate]. destruct (IH _ H) as (-> & f' & t & I & X).
    split; [reflexivity|]. exists f', t. split; [right; exact I|exact X].
  - split; [congruence|]. exists f, (strip f). split; [left; reflexivity|]. split; [apply strip_stripped|].
    intros name I. apply title_iff in I. congruence.
Qed.

Section Days.
Context {D T : Type} (to_int : string -> option Z) (to_float : string -> option Q)
  (mk_date : Z -> Z -> Z -> option D) (mk_time : Z -> Z -> Z -> option T)
  (to_stamp : string -> option (D * T)) (toa5_name atmos_name : string -> option string).
Notation cell := (@cell D T).
Notation table := (@table D T).
Notation scol := (@col string (option cell) String.eqb).
Notation rfile := (read_file to_int to_float mk_date mk_time to_stamp toa5_name atmos_name).
Notation rrows := (read_rows to_int to_float mk_date mk_time).
Notation rtable := (rows_table to_int to_float mk_date mk_time).
Notation readable := (row_readable to_int to_float mk_date mk_time).

Lemma hcol : forall (d : table) k c, NoDup (map fst d) -> has_column d k c <-> scol d k = c.
Proof. exact (has_column_iff _ string_spec). Qed.
Lemma contains_false : forall p s, contains p s = false <-> ~ occurs p s.
Proof. intros p s. rewrite <- contains_iff. destruct (contains p s); split; congruence. Qed.
Lemma rows_outcome : forall names rows, NoDup names ->
  (rrows names rows = Raise DisdrometerDataError /\ forall row, In row rows -> row <> "" /\ ~ readable names row) \/
  ((exists row, In row rows /\ (row = "" \/ readable names row)) /\ exists d, rrows names rows = Ok d /\ rtable names rows d).
Proof.
  intros names rows N. destruct (read_rows_spec to_int to_float mk_date mk_time names rows N) as [X|[X (d & A & B & C & E)]].
  - left. exact X.
  - right. split; [exact X|]. exists d. split; [exact A|]. split; [exact B|]. split; [exact C|].
    intros i name c I H. apply hcol in H; [|exact B]. rewrite <- H. exact (E i name I).
Qed.
Lemma file_plain : forall telegram f first rest, pf_lines f = first :: rest -> no_mark first ->
  rfile telegram f = match telegram with
    | Some t => bind (parse_telegram t) (fun headers => rrows headers (pf_lines f))
    | None => Raise ValueError end.
Proof.
  intros telegram f first rest E (A & B & C & F & G). unfold read_file. rewrite E.
  rewrite (proj2 (contains_false _ _) A), (proj2 (contains_false _ _) B), (proj2 (contains_false _ _) C),
    (proj2 (contains_false _ _) F), (proj2 (contains_false _ _) G). reflexivity.
Qed.
Lemma file_csv : forall telegram f first rest, pf_lines f = first :: rest -> csv_mark first ->
  rfile telegram f = bind (parse_headers first) (fun headers => rrows headers rest).
Proof.
  intros telegram f first rest E (A & B & C & F). unfold read_file. rewrite E.
  rewrite (proj2 (contains_false _ _) A), (proj2 (contains_false _ _) B), (proj2 (contains_false _ _) C),
    (proj2 (contains_iff _ _) F). reflexivity.
Qed.

(** ** Keys are distinct *)
Lemma append_all_nodup : forall ps (d : table), NoDup (map fst d) -> NoDup (map fst (append_all ps d)).
Proof.
  unfold append_all. induction ps as [|[k v] ps IH]; intros d N; cbn [fold_left]; [exact N|].
  apply IH. apply push_nodup; [apply string_spec|exact N].
Qed.
Lemma rows_loop_nodup : forall hs rows (d : table) n d' n', NoDup (map fst d) ->
  rows_loop to_int to_float mk_date mk_time hs rows d n = Ok (d', n') -> NoDup (map fst d').
Proof.
  intros hs. induction rows as [|row rows IH]; intros d n d' n' N H; cbn [rows_loop] in H; [congruence|].
  destruct (String.eqb row ""); [exact (IH _ _ _ _ N H)|].
  destruct (parse_row to_int to_float mk_date mk_time hs row) as [cs|e].
  - apply (IH (append_all (combine hs cs) d) n d' n' (append_all_nodup _ _ N) H).
  - destruct e; try discriminate; exact (IH _ _ _ _ N H).
Qed.
Lemma read_rows_nodup : forall hs rows d, rrows hs rows = Ok d -> NoDup (map fst d).
Proof.
  intros hs rows d H. unfold read_rows in H. apply bind_ok in H. destruct H as ([d' n] & A & B). cbn [fst snd] in B.
  destruct (n =? length rows); [discriminate|]. assert (d = d') by congruence. subst d'.
  eapply rows_loop_nodup; [|exact A]. apply (proj1 (@empty_cols_spec D T hs)).
Qed.
Lemma raw_nodup : forall hs rows d, read_raw_rows to_int to_float to_stamp hs rows = Ok d -> NoDup (map fst d).
Proof.
  intros hs rows d H. destruct (read_raw_rows_spec to_int to_float to_stamp hs rows) as [[X _]|[_ [[X _]|(d' & X & N & _)]]]; congruence.
Qed.
Lemma fmi_nodup : forall rs (d d' : table), NoDup (map fst d) -> fmi_loop to_int to_float mk_date mk_time rs d = Ok d' -> NoDup (map fst d').
Proof.
  induction rs as [|r rs IH]; intros d d' N H; cbn [fmi_loop] in H; [congruence|].
  destruct (read_op4a to_int to_float mk_date mk_time (fr_lines r)) as [record|e].
  - destruct (fr_stamp r) as [s|]; [|discriminate]. refine (IH _ _ _ H). apply push_nodup; [apply string_spec|].
    unfold add_values.
    assert (X : forall (f : string * list (option cell) -> string * list (option cell)) d0, (forall kc, fst (f kc) = fst kc) -> NoDup (map fst d0) -> NoDup (map fst (map f d0))).
    { intros f d0 F N0. rewrite map_map. erewrite map_ext; [exact N0|]. exact F. }
    apply X.
    + intros [k c]. cbn [fst snd]. destruct (get String.eqb k record); [reflexivity|]. destruct (String.eqb k "_datetime"); reflexivity.
    + clear -N. revert d N. induction record as [|kv record IHr]; intros d N; cbn [fold_left]; [exact N|].
      apply IHr. apply add_value_nodup. exact N.
  - destruct e; try discriminate. exact (IH _ _ N H).
Qed.
Lemma read_file_nodup : forall telegram f d, rfile telegram f = Ok d -> NoDup (map fst d).
Proof.
  intros telegram f d H. unfold read_file in H. destruct (pf_lines f) as [|first rest]; [discriminate|].
  destruct (contains "TOA5" first).
  { unfold read_toa5_file in H. destruct (pf_csv f) as [|a [|b [|c [|e r]]]]; try discriminate. exact (raw_nodup _ _ _ H). }
  destruct (contains "N00" first); [exact (raw_nodup _ _ _ H)|].
  destruct (contains "TYP OP4A" first).
  { apply bind_ok in H. destruct H as (r & A & B). apply (op4a_ok _ _ _ _ to_stamp) in A. destruct A as (es & _ & ->).
    assert (E : d = map (fun kv : string * cell => (fst kv, [Some (snd kv)])) (fold_left put_opt es [])) by congruence.
    subst d. rewrite map_map. cbn [fst]. apply put_opt_nodup. constructor. }
  destruct (contains "Date" first).
  { apply bind_ok in H. destruct H as (hs & _ & B). exact (read_rows_nodup _ _ _ B). }
  destruct (contains "[" first).
  { eapply fmi_nodup; [|exact H]. repeat constructor. intros []. }
  destruct telegram as [t|]; [|discriminate]. apply bind_ok in H. destruct H as (hs & _ & B). exact (read_rows_nodup _ _ _ B).
Qed.
Lemma add_stamps_spec : forall d d', @add_stamps D T d = Ok d' -> NoDup (map fst d) ->
  NoDup (map fst d') /\ In "_datetime" (map fst d').
Proof.
  intros d d' H N. unfold add_stamps in H. destruct (column_of String.eqb "_datetime" d) as [c|] eqn:E.
  - assert (d' = d) by congruence. subst d'. split; [exact N|].
    destruct (in_dec string_dec "_datetime" (map fst d)) as [I|I]; [exact I|].
    apply (column_of_none _ string_spec) in I. congruence.
  - apply (column_of_none _ string_spec) in E.
    destruct (column_of String.eqb "_date" d) as [ds|]; [|discriminate].
    destruct (column_of String.eqb "_time" d) as [ts|]; [|discriminate].
    destruct (length ds =? length ts); [|discriminate]. apply bind_ok in H. destruct H as (ss & _ & H).
    assert (d' = (d ++ [("_datetime", ss)])%list) by congruence. subst d'. rewrite map_app. cbn [map fst]. split.
    + apply NoDup_app; [exact N|repeat constructor; intros []|]. intros x I [<-|[]]. exact (E I).
    + apply in_or_app. right. left. reflexivity.
Qed.

(** ** Several files *)
Lemma column_extend : forall k vs (d : table) k', column_of String.eqb k' (extend_col k vs d) =
  if String.eqb k' k then Some (scol d k ++ vs)%list else column_of String.eqb k' d.
Proof.
  intros k vs d k'. unfold col. induction d as [|[k2 c2] d IH]; cbn.
  - destruct (String.eqb k' k); reflexivity.
  - destruct (String.eqb_spec k k2) as [->|N]; cbn.
    + destruct (String.eqb k' k2); reflexivity.
    + rewrite IH. destruct (String.eqb_spec k' k) as [EQ|N']; [|reflexivity].
      destruct (String.eqb_spec k' k2) as [EQ'|_]; [congruence|].
      destruct (String.eqb_spec k k2); [contradiction|reflexivity].
Qed.
Lemma extend_keys' : forall k vs (d : table) k', In k' (map fst (extend_col k vs d)) <-> k' = k \/ In k' (map fst d).
Proof.
  intros k vs d k'. induction d as [|[k2 c2] d IH]; cbn.
  - split; [intros [H|[]]; auto|intros [H|[]]; auto].
  - destruct (String.eqb_spec k k2) as [->|N]; cbn.
    + split; [intros [H|H]; auto|intros [H|[H|H]]; auto].
    + rewrite IH. split; [intros [H|[H|H]]; auto|intros [H|[H|H]]; auto].
Qed.
Lemma extend_nodup' : forall k vs (d : table), NoDup (map fst d) -> NoDup (map fst (extend_col k vs d)).
Proof.
  intros k vs d. induction d as [|[k2 c2] d IH]; cbn; intros N.
  - constructor; [intros []|constructor].
  - inversion N as [|? ? NI N']; subst. destruct (String.eqb_spec k k2) as [->|NE]; cbn; constructor; auto.
    intros I. apply extend_keys' in I. destruct I as [->|I]; [congruence|contradiction].
Qed.
Definition join (data t : table) : table := fold_left (fun c kv => extend_col (fst kv) (snd kv) c) t data.
Lemma join_spec : forall (t data : table), NoDup (map fst data) ->
  NoDup (map fst (join data t)) /\ (forall k, In k (map fst (join data t)) <-> In k (map fst data) \/ In k (map fst t)) /\
  (NoDup (map fst t) -> forall k, scol (join data t) k = (scol data k ++ scol t k)%list).
Proof.
  unfold join. induction t as [|[k2 vs] t IH]; intros data N; cbn [fold_left fst snd].
  - split; [exact N|]. split; [intros k; cbn; split; [auto|intros [H|[]]; exact H]|].
    intros _ k. unfold col at 3; cbn. rewrite app_nil_r. reflexivity.
  - destruct (IH (extend_col k2 vs data) (extend_nodup' _ _ _ N)) as [A [B C]]. split; [exact A|]. split.
    + intros k. rewrite B, extend_keys'. cbn. split; [intros [[->|H]|H]; auto|intros [H|[->|H]]; auto].
    + intros NT k. inversion NT as [|? ? NI NT']; subst. rewrite (C NT'). unfold col at 1. rewrite column_extend.
      unfold col at 4; cbn. destruct (String.eqb_spec k k2) as [->|NE].
      * replace (scol t k2) with (@nil (option cell)); [rewrite app_nil_r; reflexivity|].
        unfold col. rewrite (proj2 (column_of_none _ string_spec t k2) NI). reflexivity.
      * reflexivity.
Qed.
(** One file, with time stamps if they are not given. *)
Definition alone (telegram : option (list (option Z))) (no_stamps : bool) (f : pfile) : result table :=
  bind (rfile telegram f) (fun d => if no_stamps then add_stamps d else Ok d).
Lemma alone_nodup : forall telegram b f d, alone telegram b f = Ok d -> NoDup (map fst d).
Proof.
  intros telegram b f d H. apply bind_ok in H. destruct H as (d0 & A & B). apply read_file_nodup in A.
  destruct b; [exact (proj1 (add_stamps_spec _ _ B A))|congruence].
Qed.
Notation rfiles := (read_files to_int to_float mk_date mk_time to_stamp toa5_name atmos_name).
Lemma read_files_step : forall telegram b f rest c, rfiles telegram b (f :: rest) c =
  bind (alone telegram b f) (fun d => rfiles telegram b rest (join c d)).
Proof. intros. cbn [read_files]. unfold alone. destruct (rfile telegram f); reflexivity. Qed.
Lemma read_files_ok : forall telegram b files c r, NoDup (map fst c) -> rfiles telegram b files c = Ok r ->
  NoDup (map fst r) /\ exists ds, Forall2 (fun f d => alone telegram b f = Ok d) files ds /\
  (forall k, scol r k = (scol c k ++ List.concat (map (fun d => scol d k) ds))%list) /\
  forall k, In k (map fst r) <-> In k (map fst c) \/ exists d, In d ds /\ In k (map fst d).
Proof.
  intros telegram b. induction files as [|f files IH]; intros c r N H.
  - cbn [read_files] in H. assert (r = c) by congruence. subst r. split; [exact N|]. exists []. split; [constructor|]. split.
    + intros k. cbn. rewrite app_nil_r. reflexivity.
    + intros k. split; [auto|intros [X|(d & [] & _)]; exact X].
  - rewrite read_files_step in H. apply bind_ok in H. destruct H as (d & A & B).
    destruct (join_spec d c N) as (N1 & K1 & C1). destruct (IH _ _ N1 B) as (NR & ds & F & C & K).
    split; [exact NR|]. exists (d :: ds). split; [constructor; assumption|]. split.
    + intros k. rewrite C, (C1 (alone_nodup _ _ _ _ A)). cbn [map List.concat]. rewrite app_assoc. reflexivity.
    + intros k. rewrite K, K1. split.
      * intros [[X|X]|(d' & I & X)]; [auto|right; exists d; cbn; auto|right; exists d'; cbn; auto].
      * intros [X|(d' & [<-|I] & X)]; [auto|auto|right; exists d'; auto].
Qed.
Lemma read_files_raise : forall telegram b files c e, rfiles telegram b files c = Raise e ->
  exists l f r, files = (l ++ f :: r)%list /\ (forall g, In g l -> exists d, alone telegram b g = Ok d) /\ alone telegram b f = Raise e.
Proof.
  intros telegram b. induction files as [|f files IH]; intros c e H; [discriminate|].
  rewrite read_files_step in H. apply bind_raise in H. destruct H as [H|(d & A & H)].
  - exists [], f, files. split; [reflexivity|]. split; [intros g []|exact H].
  - destruct (IH _ _ H) as (l & f' & r & -> & G & X). exists (f :: l), f', r. split; [reflexivity|]. split; [|exact X].
    intros g [<-|I]; [exists d; exact A|exact (G g I)].
Qed.
Notation rpars := (read_parsivel to_int to_float mk_date mk_time to_stamp toa5_name atmos_name).
Lemma column_some_in : forall (d : table) k, In k (map fst d) <-> exists c, column_of String.eqb k d = Some c.
Proof.
  intros d k. destruct (column_of String.eqb k d) as [c|] eqn:E.
  - split; [eauto|]. intros _. destruct (in_dec string_dec k (map fst d)) as [I|I]; [exact I|].
    apply (column_of_none _ string_spec) in I. congruence.
  - apply (column_of_none _ string_spec) in E. split; [contradiction|intros [c X]; discriminate].
Qed.
Lemma scol_put : forall k c (d : table) k', scol (put String.eqb k c d) k' = if String.eqb k' k then c else scol d k'.
Proof.
  intros k c d k'. unfold col. rewrite !column_get, (get_put _ _ _ string_spec). destruct (String.eqb k' k); reflexivity.
Qed.
(** One file without given time stamps. *)
Lemma one_file : forall telegram f, rpars [f] telegram None =
  bind (alone telegram true f) (fun d => Ok (put String.eqb "time" (scol d "_datetime") (join [] d))).
Proof.
  intros telegram f. unfold read_parsivel. rewrite read_files_step. destruct (alone telegram true f) as [d|e] eqn:A; [|reflexivity].
  cbn [bind read_files]. pose proof (alone_nodup _ _ _ _ A) as N. apply bind_ok in A. destruct A as (d0 & A & B).
  apply read_file_nodup in A. destruct (add_stamps_spec _ _ B A) as [_ I].
  destruct (join_spec d [] (NoDup_nil _)) as (NJ & KJ & CJ). specialize (CJ N "_datetime").
  assert (J : In "_datetime" (map fst (join [] d))) by (apply KJ; right; exact I).
  apply column_some_in in J. destruct J as [c J]. rewrite J. unfold col in CJ at 1. rewrite J in CJ. rewrite CJ. reflexivity.
Qed.
Lemma several_files : forall telegram files r, rpars files telegram None = Ok r ->
  files <> [] /\ NoDup (map fst r) /\
  exists ds, Forall2 (fun f d => rpars [f] telegram None = Ok d) files ds /\
    (forall k, In k (map fst r) <-> exists d, In d ds /\ In k (map fst d)) /\
    forall k c, has_column r k c -> exists cs, Forall2 (fun d x => has_column d k x) ds cs /\ c = List.concat cs.
Proof.
  intros telegram files r H. unfold read_parsivel in H. apply bind_ok in H. destruct H as (d & A & B).
  destruct (read_files_ok _ _ _ [] _ (NoDup_nil _) A) as (N & ds & F & C & K).
  destruct (column_of String.eqb "_datetime" d) as [t|] eqn:E; [|discriminate].
  assert (ER : r = put String.eqb "time" t d) by congruence. clear B. subst r.
  assert (NR : NoDup (map fst (put String.eqb "time" t d))) by (apply put_nodup; [apply string_spec|exact N]).
  set (g := fun x : table => put String.eqb "time" (scol x "_datetime") (join [] x)).
  assert (F' : Forall2 (fun f x => rpars [f] telegram None = Ok x) files (map g ds)).
  { clear -F. induction F as [|f x files ds A F IH]; cbn [map]; constructor; [|exact IH]. rewrite one_file, A. reflexivity. }
  assert (ND : forall x, In x ds -> NoDup (map fst x) /\ In "_datetime" (map fst x)).
  { clear -F. induction F as [|f x files ds A F IH]; intros y [].
    - subst y. apply bind_ok in A. destruct A as (d0 & A & B). apply read_file_nodup in A. exact (add_stamps_spec _ _ B A).
    - apply IH. assumption. }
  assert (NE : ds <> []).
  { intros ->. assert (X : In "_datetime" (map fst d)) by (apply column_some_in; eauto). apply K in X.
    destruct X as [[]|(x & [] & _)]. }
  split; [intros ->; inversion F; subst; congruence|]. split; [exact NR|]. exists (map g ds). split; [exact F'|].
  assert (KG : forall x k, In x ds -> In k (map fst (g x)) <-> k = "time" \/ In k (map fst x)).
  { intros x k I. unfold g. rewrite put_keys by apply string_spec. destruct (join_spec x [] (NoDup_nil _)) as (_ & KJ & _).
    rewrite KJ. cbn [map In]. split; [intros [X|[[]|X]]; auto|intros [X|X]; auto]. }
  split.
  - intros k. rewrite put_keys by apply string_spec. rewrite K. cbn [map In]. split.
    + intros [X|[[]|(x & I & X)]].
      * destruct ds as [|x ds]; [congruence|]. exists (g x). split; [left; reflexivity|]. apply KG; [left; reflexivity|]. auto.
      * exists (g x). split; [apply in_map; exact I|]. apply KG; auto.
    + intros (y & I & X). apply in_map_iff in I. destruct I as (x & <- & I). apply KG in X; [|exact I].
      destruct X as [X|X]; [auto|]. right. right. exists x. auto.
  - intros k c HC. apply hcol in HC; [|exact NR]. exists (map (fun x => scol (g x) k) ds). split.
    + clear -ND. induction ds as [|x ds IH]; cbn [map]; constructor.
      * destruct (ND x (or_introl eq_refl)) as [Nx _]. apply hcol; [ |reflexivity].
        apply put_nodup; [apply string_spec|]. apply (join_spec x [] (NoDup_nil _)).
      * apply IH. intros y I. apply ND. right. exact I.
    + subst c. rewrite scol_put.
      assert (G : forall k0, (forall x, In x ds -> scol (g x) k = scol x k0) ->
                 List.concat (map (fun x => scol (g x) k) ds) = scol d k0).
      { intros k0 X. rewrite C. unfold col at 2. cbn [column_of app]. f_equal. apply map_ext_in. exact X. }
      destruct (String.eqb_spec k "time") as [->|NK].
      * rewrite (G "_datetime"); [unfold col; rewrite E; reflexivity|]. intros x I. unfold g. rewrite scol_put. reflexivity.
      * symmetry. apply G. intros x I. unfold g. rewrite scol_put. apply String.eqb_neq in NK. rewrite NK.
        destruct (ND x I) as [Nx _]. destruct (join_spec x [] (NoDup_nil _)) as (_ & _ & CJ). rewrite (CJ Nx). reflexivity.
Qed.
Lemma several_raise : forall telegram files e, files <> [] -> rpars files telegram None = Raise e ->
  exists l f r, files = (l ++ f :: r)%list /\ (forall g, In g l -> exists d, rpars [g] telegram None = Ok d) /\
    rpars [f] telegram None = Raise e.
Proof.
  intros telegram files e NE H. unfold read_parsivel in H. apply bind_raise in H. destruct H as [H|(d & A & B)].
  - apply read_files_raise in H. destruct H as (l & f & r & -> & G & X). exists l, f, r. split; [reflexivity|]. split.
    + intros g I. destruct (G g I) as [d Y]. rewrite one_file, Y. eexists. reflexivity.
    + rewrite one_file, X. reflexivity.
  - exfalso. destruct (read_files_ok _ _ _ [] _ (NoDup_nil _) A) as (N & ds & F & C & K).
    destruct (column_of String.eqb "_datetime" d) as [t|] eqn:E; [discriminate|].
    apply (column_of_none _ string_spec) in E. apply E. apply K. right.
    destruct F as [|f x files ds A' F]; [congruence|]. exists x. split; [left; reflexivity|].
    apply bind_ok in A'. destruct A' as (d0 & A' & B'). apply read_file_nodup in A'. apply (add_stamps_spec _ _ B' A').
Qed.
(** Given time stamps. *)
Lemma given_stamps : forall telegram files stamps r, rpars files telegram (Some stamps) = Ok r ->
  NoDup (map fst r) /\ has_column r "time" (map (fun s => Some (CStamp s)) stamps) /\
  exists ds, Forall2 (fun f d => rfile telegram f = Ok d) files ds /\
    forall k c, k <> "time" -> k <> "_datetime" -> has_column r k c ->
      exists cs, Forall2 (fun d x => has_column d k x) ds cs /\ c = List.concat cs.
Proof.
  intros telegram files stamps r H. unfold read_parsivel in H. apply bind_ok in H. destruct H as (d & A & B).
  destruct (read_files_ok _ _ _ [] _ (NoDup_nil _) A) as (N & ds & F & C & K).
  set (ts := map (fun s => Some (@CStamp D T s)) stamps) in *.
  set (d1 := put String.eqb "_datetime" ts d) in *.
  assert (E1 : column_of String.eqb "_datetime" d1 = Some ts).
  { unfold d1. rewrite column_get, (get_put _ _ _ string_spec), String.eqb_refl. reflexivity. }
  cbn zeta in B. rewrite E1 in B. assert (ER : r = put String.eqb "time" ts d1) by congruence. subst r. clear B.
  assert (N1 : NoDup (map fst d1)) by (apply put_nodup; [apply string_spec|exact N]).
  assert (NR : NoDup (map fst (put String.eqb "time" ts d1))) by (apply put_nodup; [apply string_spec|exact N1]).
  assert (F' : Forall2 (fun f x => rfile telegram f = Ok x) files ds).
  { clear -F. induction F as [|f x files ds A F IH]; constructor; [|exact IH]. apply bind_ok in A. destruct A as (x' & A & B).
    congruence. }
  split; [exact NR|]. split; [apply hcol; [exact NR|rewrite scol_put; reflexivity]|].
  exists ds. split; [exact F'|]. intros k c K1 K2 HC. apply hcol in HC; [|exact NR].
  exists (map (fun x => scol x k) ds). split.
  - clear -F'. induction F' as [|f x files ds A F IH]; cbn [map]; constructor; [|exact IH].
    apply hcol; [exact (read_file_nodup _ _ _ A)|reflexivity].
  - subst c. rewrite scol_put. apply String.eqb_neq in K1, K2. rewrite K1. unfold d1. rewrite scol_put, K2, C. reflexivity.
Qed.

(** ** The wanted day *)
Lemma mask_column_spec : forall A (P : option cell -> bool) (day : D) time (c : list A),
  (forall t, P t = true <-> dated day t) ->
  (length c <> length time /\ mask_column (map P time) c = Raise IndexError) \/
  (length c = length time /\ exists c', mask_column (map P time) c = Ok c' /\ rows_of_day day time c c').
Proof.
  intros A P day time c HP. unfold mask_column. rewrite map_length. destruct (length time =? length c) eqn:E.
  - right. apply Nat.eqb_eq in E. split; [congruence|]. eexists. split; [reflexivity|]. unfold rows_of_day. clear E.
    revert c. induction time as [|t time IH]; intros [|x c]; cbn [map combine filter fst]; try apply collects_nil.
    specialize (IH c). destruct (P t) eqn:Pt; cbn [map snd].
    + apply collects_take; [|exact IH]. cbn [fst snd]. split; [apply HP; exact Pt|reflexivity].
    + apply collects_skip; [|exact IH]. intros b [X _]. cbn [fst] in X. apply HP in X. congruence.
  - left. apply Nat.eqb_neq in E. split; [congruence|reflexivity].
Qed.
Lemma mask_table_spec : forall (P : option cell -> bool) (day : D) time, (forall t, P t = true <-> dated day t) ->
  forall d : table,
  (mask_table (map P time) d = Raise IndexError /\ exists k c, In (k, c) d /\ length c <> length time) \/
  ((forall k c, In (k, c) d -> length c = length time) /\
   exists d', mask_table (map P time) d = Ok d' /\
   Forall2 (fun kc kc' => fst kc' = fst kc /\ rows_of_day day time (snd kc) (snd kc')) d d').
Proof.
  intros P day time HP. induction d as [|[k c] d IH]; cbn [mask_table].
  - right. split; [intros k c []|]. exists []. split; [reflexivity|constructor].
  - destruct (mask_column_spec _ P day time c HP) as [[L E]|[L (c' & E & R)]]; rewrite E; cbn [bind].
    + left. split; [reflexivity|]. exists k, c. split; [left; reflexivity|exact L].
    + destruct IH as [[E' (k' & x & I & L')]|[L' (d' & E' & F)]]; rewrite E'; cbn [bind].
      * left. split; [reflexivity|]. exists k', x. split; [right; exact I|exact L'].
      * right. split; [intros k' x [X|X]; [congruence|exact (L' k' x X)]|]. eexists. split; [reflexivity|].
        constructor; [split; [reflexivity|exact R]|exact F].
Qed.
Variable date_eqb : D -> D -> bool.
Hypothesis date_spec : forall a b, date_eqb a b = true <-> a = b.
Lemma screen_day_spec : forall day (d : table) time, NoDup (map fst d) -> In ("time", time) d ->
  (screen_day date_eqb (Some day) d = Raise DisdrometerDataError /\ forall t, In t time -> ~ dated day t) \/
  ((exists t, In t time /\ dated day t) /\
   ((screen_day date_eqb (Some day) d = Raise IndexError /\ exists k c, In (k, c) d /\ length c <> length time) \/
    ((forall k c, In (k, c) d -> length c = length time) /\
     exists d', screen_day date_eqb (Some day) d = Ok (day, d') /\ map fst d' = map fst d /\
       forall k c c', In (k, c) d -> In (k, c') d' -> rows_of_day day time c c'))).
Proof.
  intros day d time N I. unfold screen_day.
  assert (E : column_of String.eqb "time" d = Some time).
  { rewrite column_get. apply (get_in _ _ _ string_spec); [exact N|exact I]. }
  rewrite E. set (P := fun t : option cell => match date_of t with Some x => date_eqb x day | None => false end).
  assert (HP : forall t, P t = true <-> dated day t).
  { intros t. unfold P, dated, date_of. destruct t as [[| | | |[x y]| | |]|]; try (split; [discriminate|intros (? & X); discriminate]).
    cbn [fst]. rewrite date_spec. split; [intros ->; eauto|intros (? & X); congruence]. }
  destruct (existsb (fun b => b) (map P time)) eqn:X.
  - right. split.
    { apply existsb_exists in X. destruct X as (b & X & ->). apply in_map_iff in X. destruct X as (t & A & B).
      exists t. split; [exact B|apply HP; exact A]. }
    destruct (mask_table_spec P day time HP d) as [[A B]|[L (d' & A & F)]]; rewrite A; cbn [bind].
    + left. auto.
    + right. split; [exact L|]. exists d'. split; [reflexivity|].
      assert (K : map fst d' = map fst d).
      { clear -F. induction F as [|a b l l' [H _] F IH]; cbn [map]; [reflexivity|]. rewrite H, IH. reflexivity. }
      split; [exact K|]. intros k c c' I1 I2. rewrite <- K in N.
      apply In_nth_error in I2. destruct I2 as [i I2].
      apply In_nth_error in I1. destruct I1 as [j I1].
      assert (i = j).
      { apply (nodup_nth _ (map fst d') i j k N).
        - rewrite nth_error_map', I2. reflexivity.
        - rewrite K, nth_error_map', I1. reflexivity. }
      subst j. clear -F I1 I2. revert i I1 I2. induction F as [|a b l l' [_ H] F IH]; intros [|i] I1 I2; cbn in I1, I2; try discriminate.
      * assert (a = (k, c)) by congruence. assert (b = (k, c')) by congruence. subst. exact H.
      * exact (IH i I1 I2).
  - left. split; [reflexivity|]. intros t A B. apply HP in B.
    assert (Y : existsb (fun b => b) (map P time) = true).
    { apply existsb_exists. exists true. split; [|reflexivity]. rewrite <- B. apply in_map. exact A. }
    congruence.
Qed.
End Days.
Section Serial.
Context {D T : Type}.
Notation cell := (@cell D T).
Notation table := (@table D T).
Lemma serial_spec : forall (d : table) s ids, NoDup (map fst d) -> In ("_sensor_id", Some (CText s) :: ids) d ->
  (serial_number d = Raise DisdrometerDataError /\ exists s', In (Some (CText s')) ids /\ s' <> s) \/
  (serial_number d = Ok (Some (Some s)) /\ forall s', In (Some (CText s')) ids -> s' = s).
Proof.
  intros d s ids N I. unfold serial_number.
  assert (E : column_of String.eqb "_sensor_id" d = Some (Some (CText s) :: ids)).
  { rewrite column_get. apply (get_in _ _ _ string_spec); [exact N|exact I]. }
  rewrite E. cbn [map cell_text].
  destruct (existsb (differs (Some s)) (Some s :: map cell_text ids)) eqn:X.
  - left. split; [reflexivity|]. apply existsb_exists in X. destruct X as (o & I' & X).
    unfold differs in X. destruct o as [s'|]; [|discriminate]. apply negb_true_iff in X. apply String.eqb_neq in X.
    destruct I' as [I'|I']; [congruence|]. apply in_map_iff in I'. destruct I' as (c & A & B). exists s'. split; [|congruence].
    destruct c as [[]|]; cbn in A; try discriminate. congruence.
  - right. split; [reflexivity|]. intros s' A.
    destruct (String.eqb_spec s s') as [EQ|NE]; [congruence|]. exfalso.
    assert (Y : existsb (differs (Some s)) (Some s :: map cell_text ids) = true).
    { apply existsb_exists. exists (Some s'). split; [right; apply (in_map cell_text) in A; exact A|].
      cbn [differs]. apply String.eqb_neq in NE. rewrite NE. reflexivity. }
    congruence.
Qed.
End Serial.

(** ** Fields of logger files *)
Lemma lstrip_char_spec : forall c s, exists l, s = l ++ lstrip_char c s /\ only_char c l /\ forall u, lstrip_char c s <> String c u.
Proof.
  intros c s. induction s as [|x s IH]; cbn [lstrip_char].
  - exists "". split; [reflexivity|]. split; [intros a y b E; destruct a; discriminate|discriminate].
  - destruct (Ascii.eqb_spec x c) as [->|N].
    + destruct IH as (l & E & O & F). exists (String c l). split; [cbn; congruence|]. split; [|exact F].
      intros [|z a] y b X; cbn in X; [congruence|]. injection X as _ X. exact (O a y b X).
    + exists "". split; [reflexivity|]. split; [intros a y b E; destruct a; discriminate|]. intros u X. congruence.
Qed.
Lemma bare_spec : forall c t, bare c t (strip_char c t).
Proof.
  intros c t. unfold strip_char. destruct (lstrip_char_spec c t) as (l & E & OL & F).
  set (s := lstrip_char c t) in *. clearbody s.
  destruct (rstrip_char_trimmed c s) as (r & E' & OR & G). exists l, r. split; [congruence|]. split; [exact OL|]. split; [exact OR|]. split.
  - intros u X. rewrite X in E'. apply (F (u ++ r)). exact E'.
  - intros u X. destruct G as [G|(p & x & G & NE)].
    + rewrite G in X. destruct u; discriminate.
    + rewrite G in X. apply append_last_inj in X. destruct X as [_ X]. congruence.
Qed.
Lemma atmos_fields_spec : forall line, logger_fields line (atmos_fields line).
Proof.
  intros line. exists (strip line), (strip_char ";" (strip line)). split; [apply strip_stripped|]. split; [apply bare_spec|].
  apply split_on_spec.
Qed.
