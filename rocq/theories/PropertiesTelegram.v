(** Properties C71-C75: level 1b files of the Parsivel disdrometer. *)
From Verif Require Import Base GridModel OutputModel OutputSpec OutputProofs SiteModel SiteSpec SiteProofs ReaderModel ReaderSpec ReaderProofs
  StationModel StationProofs TelegramModel TelegramSpec TelegramProofs TelegramFileProofs TelegramDayProofs.
Local Open Scope string_scope.
Local Open Scope nat_scope.
Local Notation length := List.length (only parsing).

(** Readers for the examples: a date or a time is its three numbers. *)
Definition ex_date (y m d : Z) : option (Z * Z * Z) :=
  if (1 <=? m)%Z && (m <=? 12)%Z && (1 <=? d)%Z && (d <=? 31)%Z then Some (y, m, d) else None.
Definition ex_time (h m s : Z) : option (Z * Z * Z) :=
  if (h <? 24)%Z && (m <? 60)%Z && (s <? 60)%Z then Some (h, m, s) else None.
Definition ex_day := (2024%Z, 2%Z, 1%Z).
Definition ex_day_eqb (a b : Z * Z * Z) : bool :=
  let '(y, m, d) := a in let '(y', m', d') := b in (y =? y')%Z && (m =? m')%Z && (d =? d')%Z.
Lemma ex_day_spec : forall a b, ex_day_eqb a b = true <-> a = b.
Proof.
  intros [[y m] d] [[y' m'] d']. unfold ex_day_eqb. rewrite !andb_true_iff, !Z.eqb_eq. split; [intros [[-> ->] ->]; reflexivity|].
  intros E. assert (y = y' /\ m = m' /\ d = d') by (repeat split; congruence). tauto.
Qed.
Definition ex_stamp (s : string) : option (Z * Z * Z * (Z * Z * Z)) :=
  match words s with
  | [d; t] => match split_on "-" d, split_on ":" t with
              | [y; m; d], [h; mi; s] => match int3 parse_int ex_date y m d, int3 parse_int ex_time h mi s with
                                         | Some d, Some t => Some (d, t) | _, _ => None end
              | _, _ => None end
  | _ => None
  end.
Definition ex_name (s : string) : option string :=
  if String.eqb s "TIMESTAMP" then Some "_datetime" else if String.eqb s "rain" then Some "rainfall_rate" else None.
Notation ex_file := (read_file parse_int parse_float ex_date ex_time ex_stamp ex_name ex_name).
Notation ex_pars := (read_parsivel parse_int parse_float ex_date ex_time ex_stamp ex_name ex_name).
Definition lines_file (lines : list string) : @pfile (Z * Z * Z) (Z * Z * Z) :=
  {| pf_lines := lines; pf_csv := []; pf_records := [] |}.
Definition ex_at (h : Z) : option (@cell (Z * Z * Z) (Z * Z * Z)) := Some (CStamp (ex_day, (h, 0%Z, 0%Z))).

(** ** C71: files with one row for each time *)
(** Full statement: every readable row gives one entry in every column and a file
    without a readable row is an error.  For a telegram this holds if no two items
    are the same quantity; a blank line counts as a row here. *)
Theorem C71_telegram_partial : forall D T to_int to_float mk_date mk_time to_stamp toa5_name atmos_name
    telegram (f : @pfile D T) first rest,
  pf_lines f = first :: rest -> no_mark first ->
  (forall i j n m, nth_error telegram i = Some (Some n) -> nth_error telegram j = Some (Some m) ->
     same_quantity n m -> i = j) ->
  let r := read_file to_int to_float mk_date mk_time to_stamp toa5_name atmos_name (Some telegram) f in
  (r = Raise KeyError /\ exists n, In (Some n) telegram /\ forall name, ~ number_name n name) \/
  ((forall n, In (Some n) telegram -> exists name, number_name n name) /\
   exists names, telegram_columns telegram names /\
   ((r = Raise DisdrometerDataError /\
     forall row, In row (pf_lines f) -> row <> "" /\ ~ row_readable to_int to_float mk_date mk_time names row) \/
    ((exists row, In row (pf_lines f) /\ (row = "" \/ row_readable to_int to_float mk_date mk_time names row)) /\
     exists d, r = Ok d /\ rows_table to_int to_float mk_date mk_time names (pf_lines f) d))).
Proof.
  intros D T to_int to_float mk_date mk_time to_stamp toa5 atmos telegram f first rest E M DQ r.
  unfold r. rewrite (file_plain _ _ _ _ _ _ _ _ _ _ _ E M).
  destruct (parse_telegram_spec telegram DQ) as [[A B]|[A (names & B & C)]]; [left|right]; (split; [try exact A|]).
  - rewrite A. reflexivity.
  - exact B.
  - exists names. split; [exact C|]. rewrite B. cbn [bind]. apply rows_outcome. apply C.
Qed.
(** The same for files with a header line. *)
Theorem C71_headers_partial : forall D T to_int to_float mk_date mk_time to_stamp toa5_name atmos_name
    telegram (f : @pfile D T) first rest,
  pf_lines f = first :: rest -> csv_mark first ->
  let r := read_file to_int to_float mk_date mk_time to_stamp toa5_name atmos_name telegram f in
  (r = Raise KeyError /\ exists fields w t, separated ";" first fields /\ In w fields /\ stripped w t /\
     forall name, ~ In (name, t) header_titles) \/
  exists names, header_columns first names /\ (NoDup names ->
   ((r = Raise DisdrometerDataError /\
     forall row, In row rest -> row <> "" /\ ~ row_readable to_int to_float mk_date mk_time names row) \/
    ((exists row, In row rest /\ (row = "" \/ row_readable to_int to_float mk_date mk_time names row)) /\
     exists d, r = Ok d /\ rows_table to_int to_float mk_date mk_time names rest d))).
Proof.
  intros D T to_int to_float mk_date mk_time to_stamp toa5 atmos telegram f first rest E M r.
  unfold r. rewrite (file_csv _ _ _ _ _ _ _ _ _ _ _ E M). unfold parse_headers.
  destruct (header_names (split_on ";" first)) as [names|e] eqn:H.
  - right. exists names. split.
    + exists (split_on ";" first). split; [apply split_on_spec|apply header_names_ok; exact H].
    + cbn [bind]. apply rows_outcome.
  - left. apply header_names_raise in H. destruct H as (-> & w & t & A & B & C). split; [reflexivity|].
    exists (split_on ";" first), w, t. split; [apply split_on_spec|auto].
Qed.
Theorem C71_no_format : forall D T to_int to_float mk_date mk_time to_stamp toa5_name atmos_name (f : @pfile D T),
  let r telegram := read_file to_int to_float mk_date mk_time to_stamp toa5_name atmos_name telegram f in
  (pf_lines f = [] -> forall telegram, r telegram = Raise DisdrometerDataError) /\
  (forall first rest, pf_lines f = first :: rest -> no_mark first -> r None = Raise ValueError).
Proof.
  intros D T to_int to_float mk_date mk_time to_stamp toa5 atmos f r. split.
  - intros E telegram. unfold r, read_file. rewrite E. reflexivity.
  - intros first rest E M. unfold r. rewrite (file_plain _ _ _ _ _ _ _ _ _ _ _ E M). reflexivity.
Qed.
(** Two numbers for the rain rate: its column has two entries for one row. *)
Theorem C71_same_quantity_refuted : exists telegram f d t c,
  ex_file (Some telegram) f = Ok d /\ has_column d "_time" t /\ has_column d "rainfall_rate" c /\
  length t = 1 /\ length c = 2.
Proof.
  exists [Some 20%Z; Some 1%Z; Some 30%Z], (lines_file ["00:00:00;1.5;1.6"]).
  eexists. eexists. eexists. split; [reflexivity|].
  assert (N : forall (a b : list (option (@cell (Z * Z * Z) (Z * Z * Z)))), NoDup (map fst [("_time", a); ("rainfall_rate", b)])).
  { intros a b. cbn. constructor; [intros [X|[]]; discriminate|]. repeat constructor. intros []. }
  split; [left; split; [left; reflexivity|apply N]|]. split; [left; split; [right; left; reflexivity|apply N]|].
  split; reflexivity.
Qed.
(** A blank line hides that no row can be read. *)
Theorem C71_blank_line_refuted : exists telegram f d,
  ex_file (Some telegram) f = Ok d /\ d <> [] /\ forall k c, In (k, c) d -> c = [].
Proof.
  exists [Some 20%Z; Some 1%Z], (lines_file ["00:00"; ""]). eexists. split; [reflexivity|]. split; [discriminate|].
  intros k c [X|[X|[]]]; congruence.
Qed.
Example C71_nonvacuous :
  ex_file (Some [Some 21%Z; Some 20%Z; Some 1%Z; None])
          (lines_file ["2024/02/01;00:00:00;1.5;x;"; "junk"; "01.02.2024;01:00:00;0,5;y"]) =
    Ok [("_date", [Some (CDate ex_day); Some (CDate ex_day)]);
        ("_time", [Some (CTime (0, 0, 0)%Z); Some (CTime (1, 0, 0)%Z)]);
        ("rainfall_rate", [Some (CFloat (15 # 10)); Some (CFloat (5 # 10))]);
        ("_unknown_3", [Some (CText "x"); Some (CText "y")])] /\
  ex_file (Some [Some 29%Z]) (lines_file ["1"]) = Raise KeyError /\
  ex_file None (lines_file ["Date;Kinetic Energy"; "2024/02/01;3"]) =
    Ok [("_date", [Some (CDate ex_day)]); ("kinetic_energy", [Some (CFloat (3 # 1))])] /\
  ex_file None (lines_file ["Date;Energy"; "2024/02/01;3"]) = Raise KeyError /\
  ex_file None (lines_file ["Date;Time"; "2024/13/01;00:00:00"]) = Raise DisdrometerDataError.
Proof. repeat split; reflexivity. Qed.
Print Assumptions C71_telegram_partial.
Print Assumptions C71_headers_partial.
Print Assumptions C71_no_format.
Print Assumptions C71_same_quantity_refuted.
Print Assumptions C71_blank_line_refuted.

(** ** C72: data logger files *)
Theorem C72_toa5 : forall D T to_int to_float mk_date mk_time to_stamp toa5_name atmos_name telegram (f : @pfile D T) first rest,
  pf_lines f = first :: rest -> occurs "TOA5" first ->
  let r := read_file to_int to_float mk_date mk_time to_stamp toa5_name atmos_name telegram f in
  (length (pf_csv f) < 4 /\ r = Raise StopIteration) \/
  exists a header b c rows, pf_csv f = a :: header :: b :: c :: rows /\
    logger_outcome to_int to_float to_stamp (map toa5_name header) rows r.
Proof.
  intros D T to_int to_float mk_date mk_time to_stamp toa5 atmos telegram f first rest E M r. unfold r, read_file.
  rewrite E, (proj2 (contains_iff _ _) M). unfold read_toa5_file.
  destruct (pf_csv f) as [|a [|h [|b [|c rows]]]]; try (left; split; [cbn; lia|reflexivity]).
  right. exists a, h, b, c, rows. split; [reflexivity|]. apply read_raw_rows_spec.
Qed.
Theorem C72_semicolons : forall D T to_int to_float mk_date mk_time to_stamp toa5_name atmos_name telegram (f : @pfile D T) first rest,
  pf_lines f = first :: rest -> ~ occurs "TOA5" first -> occurs "N00" first ->
  exists header rows, logger_fields first header /\ Forall2 logger_fields rest rows /\
    logger_outcome to_int to_float to_stamp (map atmos_name header) rows
      (read_file to_int to_float mk_date mk_time to_stamp toa5_name atmos_name telegram f).
Proof.
  intros D T to_int to_float mk_date mk_time to_stamp toa5 atmos telegram f first rest E M M'.
  exists (atmos_fields first), (map atmos_fields rest). split; [apply atmos_fields_spec|]. split.
  - clear E. induction rest as [|l rest IH]; cbn [map]; constructor; [apply atmos_fields_spec|exact IH].
  - unfold read_file. rewrite E, (proj2 (contains_false _ _) M), (proj2 (contains_iff _ _) M'). apply read_raw_rows_spec.
Qed.
Example C72_nonvacuous :
  ex_file None {| pf_lines := ["TOA5,x"]; pf_records := [];
                  pf_csv := [["TOA5"; "x"]; ["TIMESTAMP"; "other"; "rain"]; []; [];
                             ["2024-02-01 00:00:00"; "1"; "0.5"]; ["2024-02-01 01:00:00"; "NAN"];
                             ["2024-02-01 02:00:00"; "1"; "x"]; ["2024-02-01 03:00:00"; "?"; "2"]] |} =
    Ok [("_datetime", [ex_at 0; ex_at 3]); ("rainfall_rate", [Some (CFloat (5 # 10)); Some (CFloat (2 # 1))])] /\
  ex_file None {| pf_lines := ["TOA5,x"]; pf_records := []; pf_csv := [["TOA5"; "x"]; []] |} = Raise StopIteration /\
  ex_file None (lines_file ["TIMESTAMP;N00;rain;"; "2024-02-01 00:00:00;1;0.5;"]) =
    Ok [("_datetime", [ex_at 0]); ("rainfall_rate", [Some (CFloat (5 # 10))])] /\
  ex_file None (lines_file ["TIMESTAMP;N00;rain;"; "2024-02-01 00:00:00;1"]) = Raise DisdrometerDataError.
Proof. repeat split; reflexivity. Qed.
Print Assumptions C72_toa5.
Print Assumptions C72_semicolons.

(** ** C73: records *)
(** A file that is one record. *)
Theorem C73_one_record : forall D T to_int to_float mk_date mk_time to_stamp toa5_name atmos_name telegram (f : @pfile D T) first rest,
  pf_lines f = first :: rest -> ~ occurs "TOA5" first -> ~ occurs "N00" first -> occurs "TYP OP4A" first ->
  let r := read_file to_int to_float mk_date mk_time to_stamp toa5_name atmos_name telegram f in
  (exists d es, r = Ok d /\ record_says to_int to_float mk_date mk_time (pf_lines f) es /\ NoDup (map fst d) /\
     forall name c, In (name, c) d <-> exists v, said es name (Some v) /\ c = [Some v]) \/
  (r = Raise StopIteration /\ stops_at to_int to_float mk_date mk_time (cut_off to_int to_float) (pf_lines f)) \/
  (r = Raise ValueError /\
   stops_at to_int to_float mk_date mk_time
     (fun line => (forall o, ~ says to_int to_float mk_date mk_time line o) /\ ~ cut_off to_int to_float line) (pf_lines f)).
Proof.
  intros D T to_int to_float mk_date mk_time to_stamp toa5 atmos telegram f first rest E M1 M2 M3 r. unfold r, read_file.
  rewrite E, (proj2 (contains_false _ _) M1), (proj2 (contains_false _ _) M2), (proj2 (contains_iff _ _) M3), <- E.
  unfold read_op4a. destruct (op4a_values to_int to_float mk_date mk_time (pf_lines f) []) as [d|e] eqn:H; cbn [bind].
  - left. apply (op4a_ok _ _ _ _ to_stamp) in H. destruct H as (es & F & ->). eexists. exists es. split; [reflexivity|].
    split; [exact F|]. assert (N : NoDup (map fst (fold_left put_opt es []))) by (apply put_opt_nodup; constructor). split.
    + rewrite map_map. cbn [fst]. exact N.
    + intros name c. rewrite in_map_iff. split.
      * intros ([k v] & X & I). cbn [fst snd] in X. assert (k = name) by congruence. assert (c = [Some v]) by congruence. subst.
        exists v. split; [|reflexivity]. apply (get_in _ _ _ string_spec) in I; [|exact N]. rewrite <- I. apply said_get.
      * intros (v & S & ->). exists (name, v). split; [reflexivity|]. apply (get_in _ _ _ string_spec); [exact N|].
        apply (said_unique es name); [apply said_get|exact S].
  - right. apply (op4a_raise _ _ _ _ to_stamp) in H. destruct H as [[-> H]|[-> H]]; [left|right]; auto.
Qed.
(** Full statement: a file of records gives one entry in every column for each record
    that can be read (missing if the record does not have the value), and the others
    are skipped.  It holds as long as no record ends within a vector, no stamp of a
    readable record is impossible and no record has a value for the time stamp. *)
Theorem C73_records_partial : forall D T to_int to_float mk_date mk_time (to_stamp : string -> option (D * T)) records,
  let says_all (r : @fmi_record D T) es := record_says to_int to_float mk_date mk_time (fr_lines r) es in
  let cut (r : @fmi_record D T) := stops_at to_int to_float mk_date mk_time (cut_off to_int to_float) (fr_lines r) in
  (forall r es c, In r records -> says_all r es -> ~ In (Some ("_datetime", c)) es) ->
  match read_fmi to_int to_float mk_date mk_time records with
  | Ok d => NoDup (map fst d) /\ (forall r, In r records -> ~ cut r) /\
     (forall r es, In r records -> says_all r es -> fr_stamp r <> None) /\
     (forall k, In k (map fst d) <-> k = "_datetime" \/ exists r es c, In r records /\ says_all r es /\ In (Some (k, c)) es) /\
     (forall c, has_column d "_datetime" c ->
        collects (fun r o => exists es s, says_all r es /\ fr_stamp r = Some s /\ o = Some (CStamp s)) records c) /\
     (forall k c, k <> "_datetime" -> In k (map fst d) -> has_column d k c ->
        collects (fun r o => exists es, says_all r es /\ said es k o) records c)
  | Raise e => (e = StopIteration /\ exists r, In r records /\ cut r) \/
               (e = ValueError /\ exists r es, In r records /\ says_all r es /\ fr_stamp r = None)
  end.
Proof.
  intros D T to_int to_float mk_date mk_time to_stamp records says_all cut HD. unfold read_fmi.
  assert (N0 : NoDup (map fst [("_datetime", @nil (option (@cell D T)))])) by (repeat constructor; intros []).
  pose proof (fmi_loop_spec to_int to_float mk_date mk_time to_stamp records [("_datetime", [])] [] HD N0 eq_refl) as S.
  assert (L0 : forall k c, column_of String.eqb k [("_datetime", @nil (option (@cell D T)))] = Some c -> length c = length (@nil (option (@cell D T)))).
  { intros k c X. cbn [column_of] in X. destruct (String.eqb k "_datetime"); [|discriminate]. injection X as <-. reflexivity. }
  specialize (S L0). destruct (fmi_loop to_int to_float mk_date mk_time records [("_datetime", [])]) as [d|e]; [|exact S].
  destruct S as (N & C & (t & Ht & Ct) & ST & K & V).
  assert (HC : forall k c c', has_column d k c -> column_of String.eqb k d = Some c' -> c = c').
  { intros k c c' X Y. apply (has_column_iff _ string_spec) in X; [|exact N]. unfold col in X. rewrite Y in X. congruence. }
  split; [exact N|]. split; [exact C|]. split; [exact ST|]. split.
  - intros k. destruct (String.eqb_spec k "_datetime") as [->|NE].
    + split; [auto|]. intros _. apply column_some_in. eauto.
    + rewrite (K k NE). cbn [map fst In]. split; [intros [[X|[]]|X]; [congruence|auto]|intros [X|X]; [congruence|auto]].
  - split.
    + intros c X. rewrite (HC _ _ _ X Ht). exact Ct.
    + intros k c NE I X. destruct (V k NE I) as (c' & E & CC). rewrite (HC _ _ _ X E).
      assert (B : @base D T (length (@nil (option (@cell D T)))) [("_datetime", [])] k = []).
      { unfold base. cbn [column_of]. apply String.eqb_neq in NE. rewrite NE. reflexivity. }
      rewrite B. exact CC.
Qed.
Definition ex_rec (s : option (Z * Z * Z * (Z * Z * Z))) (lines : list string) : @fmi_record (Z * Z * Z) (Z * Z * Z) :=
  {| fr_stamp := s; fr_lines := lines |}.
Definition ex_st (h : Z) : option (Z * Z * Z * (Z * Z * Z)) := Some (ex_day, (h, 0%Z, 0%Z)).
Notation ex_fmi := (read_fmi parse_int parse_float ex_date ex_time).
Notation ex_says := (record_says parse_int parse_float ex_date ex_time).
(** One record that ends within a vector stops the whole file; others are skipped. *)
Theorem C73_cut_off_refuted : exists a b c,
  ex_fmi [a; b] = Raise StopIteration /\ (exists d, ex_fmi [a] = Ok d) /\ (exists d, ex_fmi [a; c] = Ok d) /\
  (forall es, ~ ex_says (fr_lines b) es) /\ (forall es, ~ ex_says (fr_lines c) es).
Proof.
  exists (ex_rec (ex_st 0) ["01:0.5"]), (ex_rec (ex_st 1) ["90:1.0;2.0"]), (ex_rec (ex_st 1) ["90:1.0;x"]).
  split; [reflexivity|]. split; [eexists; reflexivity|]. split; [eexists; reflexivity|].
  split; intros es F; inversion F as [|? o ? ? S _]; subst; apply (op4a_one_iff _ _ _ _ ex_stamp) in S; discriminate S.
Qed.
Theorem C73_impossible_stamp_refuted : exists a b,
  ex_fmi [a; b] = Raise ValueError /\ (exists d, ex_fmi [a] = Ok d) /\ fr_stamp b = None.
Proof.
  exists (ex_rec (ex_st 0) ["01:0.5"]), (ex_rec None ["01:0.7"]).
  split; [reflexivity|]. split; [eexists; reflexivity|reflexivity].
Qed.
(** The number 19 is skipped in records, but not if it is written "019". *)
Theorem C73_time_stamp_twice_refuted : exists r d t c,
  ex_fmi [r] = Ok d /\ has_column d "_datetime" t /\ has_column d "rainfall_rate" c /\ length t = 2 /\ length c = 1.
Proof.
  exists (ex_rec (ex_st 0) ["01:0.5"; "019:20240201000000"]). eexists. eexists. eexists. split; [reflexivity|].
  assert (N : forall (a b : list (option (@cell (Z * Z * Z) (Z * Z * Z)))), NoDup (map fst [("_datetime", a); ("rainfall_rate", b)])).
  { intros a b. cbn. constructor; [intros [X|[]]; discriminate|]. repeat constructor. intros []. }
  split; [left; split; [left; reflexivity|apply N]|]. split; [left; split; [right; left; reflexivity|apply N]|].
  split; reflexivity.
Qed.
Example C73_nonvacuous :
  ex_fmi [ex_rec (ex_st 0) ["01:0.5"; "33:-9.9"; "text"]; ex_rec (ex_st 1) ["01:x"]; ex_rec (ex_st 2) ["07:12.5"]] =
    Ok [("_datetime", [ex_at 0; ex_at 2]); ("rainfall_rate", [Some (CFloat (5 # 10)); None]);
        ("radar_reflectivity", [None; Some (CFloat (125 # 10))])] /\
  ex_file None (lines_file ["TYP OP4A"; "01:0.5"; "07:12.5"; "01:0.7"]) =
    Ok [("rainfall_rate", [Some (CFloat (7 # 10))]); ("radar_reflectivity", [Some (CFloat (125 # 10))])] /\
  ex_file None (lines_file ["TYP OP4A"; "01:x"]) = Raise ValueError /\
  ex_file None (lines_file ["TYP OP4A"; "91:1.0"]) = Raise StopIteration.
Proof. repeat split; reflexivity. Qed.
Print Assumptions C73_one_record.
Print Assumptions C73_records_partial.
Print Assumptions C73_cut_off_refuted.
Print Assumptions C73_impossible_stamp_refuted.
Print Assumptions C73_time_stamp_twice_refuted.

(** ** C74: several files *)
(** Reading several files is reading each of them and joining the columns. *)
Theorem C74_joined : forall D T to_int to_float mk_date mk_time (to_stamp : string -> option (D * T)) toa5_name atmos_name telegram files,
  files <> [] ->
  let read fs := read_parsivel to_int to_float mk_date mk_time to_stamp toa5_name atmos_name fs telegram None in
  match read files with
  | Ok d => NoDup (map fst d) /\
      exists ds, Forall2 (fun f x => read [f] = Ok x) files ds /\
        (forall k, In k (map fst d) <-> exists x, In x ds /\ In k (map fst x)) /\
        forall k c, has_column d k c -> exists cs, Forall2 (fun x c => has_column x k c) ds cs /\ c = List.concat cs
  | Raise e => exists l f r, files = (l ++ f :: r)%list /\ (forall g, In g l -> exists x, read [g] = Ok x) /\ read [f] = Raise e
  end.
Proof.
  intros D T to_int to_float mk_date mk_time to_stamp toa5 atmos telegram files NE read. unfold read.
  destruct (read_parsivel to_int to_float mk_date mk_time to_stamp toa5 atmos files telegram None) as [d|e] eqn:H.
  - destruct (several_files _ _ _ _ _ _ _ _ _ _ H) as (_ & N & X). split; [exact N|exact X].
  - exact (several_raise _ _ _ _ _ _ _ _ _ _ NE H).
Qed.
Theorem C74_no_file : forall D T to_int to_float mk_date mk_time (to_stamp : string -> option (D * T)) toa5_name atmos_name telegram,
  read_parsivel to_int to_float mk_date mk_time to_stamp toa5_name atmos_name [] telegram None = Raise KeyError.
Proof. reflexivity. Qed.
(** Full statement: if the columns of each file have as many entries as it has times,
    so do the columns of all files.  It holds if the files have the same columns. *)
Theorem C74_aligned_partial : forall D T to_int to_float mk_date mk_time (to_stamp : string -> option (D * T)) toa5_name atmos_name telegram files d,
  let read fs := read_parsivel to_int to_float mk_date mk_time to_stamp toa5_name atmos_name fs telegram None in
  read files = Ok d -> (forall f x, In f files -> read [f] = Ok x -> aligned x) ->
  (forall f g x y k, In f files -> In g files -> read [f] = Ok x -> read [g] = Ok y -> In k (map fst x) -> In k (map fst y)) ->
  aligned d.
Proof.
  intros D T to_int to_float mk_date mk_time to_stamp toa5 atmos telegram files d read H AL SAME t k c HT HC I.
  destruct (several_files _ _ _ _ _ _ _ _ _ _ H) as (_ & N & ds & F & K & C).
  destruct (C "time" t HT) as (ts & FT & ->). destruct (C k c HC) as (cs & FC & ->).
  assert (IN : forall x, In x ds -> aligned x /\ In k (map fst x)).
  { apply K in I. destruct I as (y & Iy & Ik).
    assert (SRC : forall x, In x ds -> exists f, In f files /\ read [f] = Ok x).
    { clear -F. induction F as [|f x files ds A F IH]; intros z J; [destruct J|]. destruct J as [<-|J].
      - exists f. split; [left; reflexivity|exact A].
      - destruct (IH z J) as (g & J' & B). exists g. split; [right; exact J'|exact B]. }
    intros x Ix. destruct (SRC x Ix) as (f & If & Rf), (SRC y Iy) as (g & Ig & Rg).
    split; [exact (AL f x If Rf)|exact (SAME g f y x k Ig If Rg Rf Ik)]. }
  clear -FT FC IN. revert cs FC. induction FT as [|x t ds ts HT FT IH]; intros cs FC; inversion FC as [|? c ? cs' HC FC']; subst; [reflexivity|].
  cbn [List.concat]. rewrite !app_length. f_equal.
  - destruct (IN x (or_introl eq_refl)) as [A J]. exact (A t k c HT HC J).
  - apply IH; [|exact FC']. intros y J. apply IN. right. exact J.
Qed.
Theorem C74_missing_column_refuted : exists f g d x y,
  ex_pars [f] None None = Ok x /\ ex_pars [g] None None = Ok y /\ aligned x /\ aligned y /\
  ex_pars [f; g] None None = Ok d /\ ~ aligned d.
Proof.
  assert (AL : forall l : list (string * list (option (@cell (Z * Z * Z) (Z * Z * Z)))),
            NoDup (map fst l) -> (forall k c, In (k, c) l -> length c = 1) -> In "time" (map fst l) -> aligned l).
  { intros l N A J t k c [[HT _]|[_ HT]] [[HC _]|[_ HC]] I; try contradiction. rewrite (A _ _ HT), (A _ _ HC). reflexivity. }
  exists (lines_file ["Date;Time;Snow intensity (mm/h)"; "2024/02/01;00:00:00;0.5"]), (lines_file ["Date;Time"; "2024/02/01;01:00:00"]).
  eexists. eexists. eexists. split; [reflexivity|]. split; [reflexivity|].
  split; [apply AL|split; [apply AL|split; [reflexivity|]]].
  - cbn. repeat (constructor; [cbn [In]; intros X; repeat (destruct X as [X|X]; [discriminate|]); exact X|]). constructor.
  - cbn. intros k c X. repeat (destruct X as [X|X]; [injection X as <- <-; reflexivity|]). destruct X.
  - cbn. auto 10.
  - cbn. repeat (constructor; [cbn [In]; intros X; repeat (destruct X as [X|X]; [discriminate|]); exact X|]). constructor.
  - cbn. intros k c X. repeat (destruct X as [X|X]; [injection X as <- <-; reflexivity|]). destruct X.
  - cbn. auto 10.
  - intros A.
    assert (N : NoDup (map fst [("_date", [Some (@CDate (Z * Z * Z) (Z * Z * Z) ex_day); Some (CDate ex_day)]);
       ("_time", [Some (CTime (0, 0, 0)%Z); Some (CTime (1, 0, 0)%Z)]); ("snowfall_rate", [Some (CFloat (5 # 10))]);
       ("_datetime", [ex_at 0; ex_at 1]); ("time", [ex_at 0; ex_at 1])])).
    { cbn. repeat (constructor; [cbn [In]; intros X; repeat (destruct X as [X|X]; [discriminate|]); exact X|]). constructor. }
    specialize (A [ex_at 0; ex_at 1] "snowfall_rate" [Some (CFloat (5 # 10))]).
    assert (X : 1 = 2); [|discriminate]. apply A.
    + left. split; [|exact N]. cbn. auto 10.
    + left. split; [|exact N]. cbn. auto 10.
    + cbn. auto 10.
Qed.
(** Time stamps that are given replace those of the files, whatever their number. *)
Theorem C74_given_stamps : forall D T to_int to_float mk_date mk_time (to_stamp : string -> option (D * T)) toa5_name atmos_name telegram files stamps d,
  read_parsivel to_int to_float mk_date mk_time to_stamp toa5_name atmos_name files telegram (Some stamps) = Ok d ->
  has_column d "time" (map (fun s => Some (CStamp s)) stamps) /\
  exists ds, Forall2 (fun f x => read_file to_int to_float mk_date mk_time to_stamp toa5_name atmos_name telegram f = Ok x) files ds /\
    forall k c, k <> "time" -> k <> "_datetime" -> has_column d k c ->
      exists cs, Forall2 (fun x c => has_column x k c) ds cs /\ c = List.concat cs.
Proof.
  intros D T to_int to_float mk_date mk_time to_stamp toa5 atmos telegram files stamps d H.
  apply (given_stamps _ _ _ _ _ _ _ _ _ _ _ H).
Qed.
Theorem C74_given_stamps_refuted : exists f stamps d t c,
  ex_pars [f] None (Some stamps) = Ok d /\ has_column d "time" t /\ has_column d "kinetic_energy" c /\ length c = 1 /\ length t = 2.
Proof.
  exists (lines_file ["Date;Kinetic Energy"; "2024/02/01;3"]), [(ex_day, (0, 0, 0)%Z); (ex_day, (1, 0, 0)%Z)].
  eexists. eexists. eexists. split; [reflexivity|].
  assert (N : forall (a b c d : list (option (@cell (Z * Z * Z) (Z * Z * Z)))), NoDup (map fst [("_date", a); ("kinetic_energy", b); ("_datetime", c); ("time", d)])).
  { intros a b c d. cbn. repeat (constructor; [cbn [In]; intros X; repeat (destruct X as [X|X]; [discriminate|]); exact X|]). constructor. }
  split; [left; split; [cbn; right; right; right; left; reflexivity|apply N]|].
  split; [left; split; [cbn; right; left; reflexivity|apply N]|]. split; reflexivity.
Qed.
Example C74_nonvacuous :
  ex_pars [lines_file ["Date;Time;Kinetic Energy"; "2024/02/01;00:00:00;3"];
           lines_file ["Kinetic Energy;Date;Time"; "4;2024/02/01;01:00:00"]] None None =
    Ok [("_date", [Some (CDate ex_day); Some (CDate ex_day)]);
        ("_time", [Some (CTime (0, 0, 0)%Z); Some (CTime (1, 0, 0)%Z)]);
        ("kinetic_energy", [Some (CFloat (3 # 1)); Some (CFloat (4 # 1))]);
        ("_datetime", [ex_at 0; ex_at 1]); ("time", [ex_at 0; ex_at 1])] /\
  ex_pars [lines_file ["Date;Time;Kinetic Energy"; "2024/02/01;00:00:00;3"]; lines_file []] None None = Raise DisdrometerDataError /\
  ex_pars [lines_file ["Date;Kinetic Energy"; "2024/02/01;3"]] None None = Raise KeyError.
Proof. repeat split; reflexivity. Qed.
Print Assumptions C74_joined.
Print Assumptions C74_no_file.
Print Assumptions C74_aligned_partial.
Print Assumptions C74_missing_column_refuted.
Print Assumptions C74_given_stamps.
Print Assumptions C74_given_stamps_refuted.

(** ** C75: the wanted day and the serial number *)
Theorem C75_day : forall D T (date_eqb : D -> D -> bool), (forall a b, date_eqb a b = true <-> a = b) ->
  forall day (d : @table D T) time, NoDup (map fst d) -> In ("time", time) d ->
  let r := screen_day date_eqb (Some day) d in
  (r = Raise DisdrometerDataError /\ forall t, In t time -> ~ dated day t) \/
  ((exists t, In t time /\ dated day t) /\
   ((r = Raise IndexError /\ exists k c, In (k, c) d /\ length c <> length time) \/
    ((forall k c, In (k, c) d -> length c = length time) /\
     exists d', r = Ok (day, d') /\ map fst d' = map fst d /\
       forall k c c', In (k, c) d -> In (k, c') d' -> rows_of_day day time c c'))).
Proof. intros D T de S day d time. apply screen_day_spec. exact S. Qed.
Theorem C75_any_day : forall D T (date_eqb : D -> D -> bool) (d : @table D T) day x ts, NoDup (map fst d) ->
  In ("time", Some (CStamp (day, x)) :: ts) d -> screen_day date_eqb None d = Ok (day, d).
Proof.
  intros D T de d day x ts N I. unfold screen_day.
  assert (E : column_of String.eqb "time" d = Some (Some (CStamp (day, x)) :: ts)).
  { rewrite column_get. apply (get_in _ _ _ string_spec); [exact N|exact I]. }
  rewrite E. reflexivity.
Qed.
(** Full statement: data of two instruments are rejected.  It holds if the first row has
    a serial number. *)
Theorem C75_serial_number_partial : forall D T (d : @table D T) s ids, NoDup (map fst d) ->
  In ("_sensor_id", Some (CText s) :: ids) d ->
  (serial_number d = Raise DisdrometerDataError /\ exists s', In (Some (CText s')) ids /\ s' <> s) \/
  (serial_number d = Ok (Some (Some s)) /\ forall s', In (Some (CText s')) ids -> s' = s).
Proof. intros D T d s ids. apply serial_spec. Qed.
Theorem C75_no_serial_number : forall D T (d : @table D T), ~ In "_sensor_id" (map fst d) -> serial_number d = Ok None.
Proof. intros D T d N. unfold serial_number. apply (column_of_none _ string_spec) in N. rewrite N. reflexivity. Qed.
Theorem C75_serial_number_refuted : exists a b c d s s' r,
  ex_fmi [a; b; c] = Ok d /\ has_column d "_sensor_id" [None; Some (CText s); Some (CText s')] /\ s <> s' /\
  serial_number d = Ok r.
Proof.
  exists (ex_rec (ex_st 0) ["01:0.5"]), (ex_rec (ex_st 1) ["13:450000"]), (ex_rec (ex_st 2) ["13:450001"]).
  eexists. exists "450000", "450001". eexists. split; [reflexivity|]. split.
  - left. split; [right; right; left; reflexivity|].
    cbn. repeat (constructor; [cbn [In]; intros X; repeat (destruct X as [X|X]; [discriminate|]); exact X|]). constructor.
  - split; [discriminate|reflexivity].
Qed.
Definition ex_table : @table (Z * Z * Z) (Z * Z * Z) :=
  [("time", [ex_at 0; Some (CStamp ((2024, 2, 2)%Z, (0, 0, 0)%Z)); ex_at 2]);
   ("visibility", [Some (CInt 1); Some (CInt 2); Some (CInt 3)]);
   ("_sensor_id", [Some (CText "a"); Some (CText "b"); Some (CText "a")])].
Example C75_nonvacuous :
  screen_day ex_day_eqb (Some ex_day) ex_table =
    Ok (ex_day, [("time", [ex_at 0; ex_at 2]); ("visibility", [Some (CInt 1); Some (CInt 3)]);
                 ("_sensor_id", [Some (CText "a"); Some (CText "a")])]) /\
  screen_day ex_day_eqb (Some (2024, 2, 3)%Z) ex_table = Raise DisdrometerDataError /\
  screen_day ex_day_eqb (Some ex_day) (("x", []) :: ex_table) = Raise IndexError /\
  screen_day ex_day_eqb None ex_table = Ok (ex_day, ex_table) /\
  serial_number ex_table = Raise DisdrometerDataError /\
  parsivel_data parse_int parse_float ex_date ex_time ex_stamp ex_name ex_name ex_day_eqb
    [lines_file ["Date;Time"; "2024/02/01;00:00:00"]] None None (Some ex_day) =
    Ok (ex_day, [("_date", [Some (CDate ex_day)]); ("_time", [Some (CTime (0, 0, 0)%Z)]);
                 ("_datetime", [ex_at 0]); ("time", [ex_at 0])], None).
Proof. repeat split; reflexivity. Qed.
Print Assumptions C75_day.
Print Assumptions C75_any_day.
Print Assumptions C75_serial_number_partial.
Print Assumptions C75_no_serial_number.
Print Assumptions C75_serial_number_refuted.
