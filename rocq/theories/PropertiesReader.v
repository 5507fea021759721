(** Properties of the text readers (C62-C64). *)
From Verif Require Import Base OutputModel OutputSpec SiteModel SiteSpec SiteProofs ReaderModel ReaderSpec ReaderProofs.
Local Open Scope string_scope.
Local Open Scope nat_scope.
Local Notation length := List.length (only parsing).

(** Readers for the examples: digits are numbers, every text but "-" is a date or a time. *)
Definition ex_text (s : string) : option string := if String.eqb s "-" then None else Some s.
Definition ex_stamp (s : string) : option (string * string) := if String.eqb s "-" then None else Some (s, s).

(** ** C62: Thies LPM files *)
Theorem C62_raw_columns : forall (D T : Type) to_int to_float (to_date : string -> option D) (to_time : string -> option T)
  lines time data,
  read_raw to_int to_float to_date to_time lines = (time, data) ->
  (forall k c, 2 <= k -> has_column data k c ->
     collects (fun line v => readable_to to_int to_float to_date to_time line k /\
                             lpm_value_at to_int to_float to_date to_time line k v) lines c) /\
  collects (fun line s => readable to_int to_float to_date to_time line /\
                          lpm_value_at to_int to_float to_date to_time line 5 (LDate (fst s)) /\
                          lpm_value_at to_int to_float to_date to_time line 6 (LTime (snd s))) lines time.
Proof.
  intros D T to_int to_float to_date to_time lines time data H.
  destruct (raw_columns to_int to_float to_date to_time lines time data H) as (A & B & _). split; [exact A|exact B].
Qed.
Print Assumptions C62_raw_columns.
(** The full claim is that every column has one entry for each time stamp.  This
    holds for a column exactly if the lines that can be read up to this column can
    be read completely; then the entries go together line by line. *)
Theorem C62_raw_aligned_partial : forall (D T : Type) to_int to_float (to_date : string -> option D) (to_time : string -> option T)
  lines time data k c,
  read_raw to_int to_float to_date to_time lines = (time, data) -> 2 <= k <= 520 -> has_column data k c ->
  length time <= length c /\
  (length time = length c <->
   forall line, In line lines -> readable_to to_int to_float to_date to_time line k ->
                readable to_int to_float to_date to_time line) /\
  (length time = length c ->
   collects (fun line p => lpm_value_at to_int to_float to_date to_time line 5 (LDate (fst (fst p))) /\
                           lpm_value_at to_int to_float to_date to_time line 6 (LTime (snd (fst p))) /\
                           lpm_value_at to_int to_float to_date to_time line k (snd p) /\
                           readable to_int to_float to_date to_time line)
            lines (combine time c)).
Proof.
  intros D T to_int to_float to_date to_time lines time data k c H K HC.
  destruct (raw_columns to_int to_float to_date to_time lines time data H) as (A & B & _).
  specialize (A k c ltac:(lia) HC).
  destruct (collects_length_le _ _ _ _ _ _ _ _ (fun line s _ X =>
    let '(ex_intro _ v (conj P Q)) := readable_value to_int to_float to_date to_time line k (proj1 X) K in
    ex_intro _ v (proj1 (line_value_iff to_int to_float to_date to_time line k v ltac:(lia)) P)) A B) as [L E].
  assert (EQ : (length time = length c <->
     forall line, In line lines -> readable_to to_int to_float to_date to_time line k ->
                  readable to_int to_float to_date to_time line)).
  { rewrite E. split.
    - intros X line I R. destruct (R k ltac:(lia)) as [v V]. destruct (X line v I (conj R V)) as (s & S & _). exact S.
    - intros X line v I [R V]. pose proof (X line I R) as RD.
      destruct (readable_value to_int to_float to_date to_time line 5 RD ltac:(lia)) as (c5 & _ & V5).
      destruct (readable_value to_int to_float to_date to_time line 6 RD ltac:(lia)) as (c6 & _ & V6).
      pose proof V5 as V5'. destruct V5' as (w5 & x5 & _ & _ & _ & M5). apply lpm_value_iff, value_5 in M5. destruct M5 as [d ->].
      pose proof V6 as V6'. destruct V6' as (w6 & x6 & _ & _ & _ & M6). apply lpm_value_iff, value_6 in M6. destruct M6 as [t ->].
      exists (d, t). auto. }
  split; [exact L|]. split; [exact EQ|]. intros LE. pose proof (proj1 E LE) as DOM.
  eapply collects_ext; [|apply (collects_combine _ _ _ _ _ _ _ _) with (2 := B) (3 := A)].
  - intros line [s v] _. cbn [fst snd]. split.
    + intros ((R & V5 & V6) & _ & V). auto.
    + intros (V5 & V6 & V & R). split; [auto|]. split; [|exact V].
      destruct R as (ws & TG & RT). intros j J. apply RT. destruct V as (ws' & w & TG' & B' & _).
      apply telegram_iff in TG, TG'. destruct TG as [<- _], TG' as [<- _]. lia.
  - intros line I. split.
    + intros (s & R & _). destruct (readable_value to_int to_float to_date to_time line k R K) as (v & P & Q).
      exists v. apply line_value_iff; [lia|exact P].
    + intros (v & RV). exact (DOM line v I RV).
Qed.
Print Assumptions C62_raw_aligned_partial.
(** A telegram of 520 fields, all "1", with [x] in column 5 and [y] in column 7. *)
Definition ex_lpm (x y : string) : string :=
  String.concat ";" (["1"; "1"; "1"; x; "12:00:00"; y] ++ repeat "1" 514)%list.
Definition ex_lpm_lines : list string := [ex_lpm "16.11.26" "7"; ex_lpm "17.11.26" "?"; ex_lpm "18.11.26" "9"].
(** In the second line column 7 cannot be read: the columns before it are longer
    than the list of time stamps, so their entries belong to other lines. *)
Theorem C62_raw_aligned_refuted : exists lines time data,
  read_raw parse_int parse_float ex_text ex_text lines = (time, data) /\
  time = [("16.11.26", "12:00:00"); ("18.11.26", "12:00:00")] /\
  has_column data 7 [LInt 7; LInt 9] /\
  has_column data 5 [LDate "16.11.26"; LDate "17.11.26"; LDate "18.11.26"].
Proof.
  exists ex_lpm_lines.
  destruct (read_raw parse_int parse_float ex_text ex_text ex_lpm_lines) as [time data] eqn:E.
  exists time, data. split; [reflexivity|].
  assert (N : NoDup (map fst data)) by (destruct (raw_columns _ _ _ _ _ _ _ E) as (_ & _ & N); exact N).
  rewrite !(has_column_iff Nat.eqb nat_eqb_spec _ _ _ N).
  destruct (read_raw_spec _ _ _ _ _ _ _ _ _ E) as (C & _ & ->). rewrite !C.
  split; [reflexivity|]. split; reflexivity.
Qed.
Print Assumptions C62_raw_aligned_refuted.
(** Files with a time stamp before each telegram. *)
Definition stamped (line ts tg : string) : Prop := line = ts ++ String ";" tg /\ without ";" ts.
Theorem C62_logger_columns : forall (D T : Type) to_int to_float (to_date : string -> option D) (to_time : string -> option T)
  to_stamp lines,
  match read_pyatmoslogger to_int to_float to_date to_time to_stamp lines with
  | Ok (time, data) =>
      (forall line, In line lines -> exists ts tg, stamped line ts tg) /\
      collects (fun line s => exists ts tg, stamped line ts tg /\
                  readable to_int to_float to_date to_time tg /\ to_stamp ts = Some s) lines time /\
      (forall k c, 2 <= k -> has_column data k c ->
         collects (fun line v => exists ts tg, stamped line ts tg /\
                     readable_to to_int to_float to_date to_time tg k /\
                     lpm_value_at to_int to_float to_date to_time tg k v) lines c)
  | Raise e => e = ValueError /\ exists line, In line lines /\ without ";" line
  end.
Proof.
  intros D T to_int to_float to_date to_time to_stamp lines. unfold read_pyatmoslogger.
  match goal with |- match ?r with _ => _ end => destruct (pyatmos_spec to_int to_float to_date to_time to_stamp lines [] [] r eq_refl)
    as [[-> X]|(NW & time & data & -> & C & N & ->)] end; [auto|].
  assert (ND : NoDup (map fst data)) by (apply N; constructor).
  assert (ST : forall line ts tg, partition ";" line = Some (ts, tg) <-> stamped line ts tg) by (intros; apply partition_some).
  split; [|split].
  - intros line I. destruct (partition ";" line) as [[ts tg]|] eqn:P.
    + exists ts, tg. apply ST. exact P.
    + apply partition_none in P. destruct (NW line I P).
  - cbn [app]. apply collects_flat_map. intros line s _. unfold py_stamp. split.
    + destruct (partition ";" line) as [[ts tg]|] eqn:P; [|discriminate].
      destruct (lpm_ok to_int to_float to_date to_time tg) eqn:O; [|discriminate]. apply lpm_ok_iff in O.
      intros E. exists ts, tg. split; [apply ST; exact P|]. auto.
    + intros (ts & tg & S & R & E). apply ST in S. rewrite S. apply lpm_ok_iff in R. rewrite R. exact E.
  - intros k c K HC. apply (has_column_iff Nat.eqb nat_eqb_spec _ _ _ ND) in HC. rewrite <- HC, C.
    change (col Nat.eqb [] k) with (@nil (@lpm_cell D T)). cbn [app]. apply collects_flat_map.
    intros line v _. unfold py_value. split.
    + destruct (partition ";" line) as [[ts tg]|] eqn:P; [|discriminate]. intros E.
      exists ts, tg. split; [apply ST; exact P|]. apply line_value_iff; [exact K|exact E].
    + intros (ts & tg & S & R). apply ST in S. rewrite S. apply line_value_iff; [exact K|exact R].
Qed.
Print Assumptions C62_logger_columns.
Definition ex_logger : list string :=
  ["00:00;" ++ ex_lpm "16.11.26" "7"; "-;" ++ ex_lpm "16.11.26" "8"; "00:02;" ++ ex_lpm "16.11.26" "9"].
(** A time stamp that cannot be read: the telegram is kept without it. *)
Theorem C62_logger_aligned_refuted : exists lines time data,
  read_pyatmoslogger parse_int parse_float ex_text ex_text ex_stamp lines = Ok (time, data) /\
  time = [("00:00", "00:00"); ("00:02", "00:02")] /\ has_column data 7 [LInt 7; LInt 8; LInt 9].
Proof.
  exists ex_logger. unfold read_pyatmoslogger.
  destruct (pyatmos_spec parse_int parse_float ex_text ex_text ex_stamp ex_logger [] [] _ eq_refl)
    as [[_ (line & I & W)]|(_ & time & data & E & C & N & T)].
  - exfalso. apply partition_none in W. cbn [In ex_logger] in I.
    destruct I as [<-|[<-|[<-|[]]]]; discriminate W.
  - exists time, data. split; [exact E|]. rewrite T. split; [reflexivity|].
    apply (has_column_iff Nat.eqb nat_eqb_spec); [apply N; constructor|]. rewrite C. reflexivity.
Qed.
Print Assumptions C62_logger_aligned_refuted.
Definition ex_lpm_good : list string := [ex_lpm "16.11.26" "7"; "noise"; ex_lpm "18.11.26" "9"].
Example C62_nonvacuous :
  fst (read_raw parse_int parse_float ex_text ex_text ex_lpm_good) =
    [("16.11.26", "12:00:00"); ("18.11.26", "12:00:00")] /\
  has_column (snd (read_raw parse_int parse_float ex_text ex_text ex_lpm_good)) 7 [LInt 7; LInt 9] /\
  read_pyatmoslogger parse_int parse_float ex_text ex_text ex_stamp ["no semicolon"] = Raise ValueError.
Proof.
  destruct (read_raw parse_int parse_float ex_text ex_text ex_lpm_good) as [time data] eqn:E.
  destruct (read_raw_spec _ _ _ _ _ _ _ _ _ E) as (C & N & ->). cbn [fst snd].
  split; [reflexivity|]. split; [|reflexivity].
  apply (has_column_iff Nat.eqb nat_eqb_spec); [apply N; constructor|]. rewrite C. reflexivity.
Qed.

(** ** C63: Parsivel text files *)
Theorem C63_lines : forall (D T : Type) to_int to_float sep dec (telegram : list (@item D T)) lines, timed telegram ->
  exists times data, read_lines to_int to_float sep dec telegram lines = Ok (times, data) /\
    collects (stamp_in_line to_int to_float sep dec telegram) lines times /\
    (forall n c, has_column data n c -> collects (value_in_line to_int to_float sep dec telegram n) lines c).
Proof.
  intros D T to_int to_float sep dec telegram lines TM.
  destruct (read_lines_spec to_int to_float sep dec telegram lines TM) as (times & data & A & B & _ & C).
  exists times, data. auto.
Qed.
Print Assumptions C63_lines.
Theorem C63_aligned : forall (D T : Type) to_int to_float sep dec (telegram : list (@item D T)) lines times data n c,
  timed telegram -> read_lines to_int to_float sep dec telegram lines = Ok (times, data) ->
  In (ItNum n) telegram -> has_column data n c ->
  length c = length times /\
  collects (fun line p => stamp_in_line to_int to_float sep dec telegram line (fst p) /\
                          value_in_line to_int to_float sep dec telegram n line (snd p)) lines (combine times c).
Proof. exact @read_lines_aligned. Qed.
Print Assumptions C63_aligned.
Definition ex_pv_telegram : list (@item string string) := [ItDate ex_text; ItTime ex_text; ItNum 1; ItNum 3; ItSkip; ItNum 90].
Definition ex_pv_line (a b c : string) : string :=
  a ++ ";12:00;" ++ b ++ ";" ++ c ++ ";x;" ++ String.concat ";" (repeat "5" 32) ++ ";".
Example C63_nonvacuous :
  timed ex_pv_telegram /\
  read_lines parse_int parse_float ";" "," ex_pv_telegram
    [ex_pv_line "d1" "0,5" "61"; ex_pv_line "d2" "0,7" "?"; "short"; ex_pv_line "-" "1,5" "61"; ex_pv_line "d3" "2,5" "62"] =
  Ok ([("d1", "12:00"); ("d3", "12:00")],
      [(1, [PFloat (5 # 10); PFloat (25 # 10)]); (3, [PInt 61; PInt 62]); (90, [PVec (repeat (5 # 1) 32); PVec (repeat (5 # 1) 32)])]).
Proof.
  split.
  - right. split; [exists (ItDate ex_text)|exists (ItTime ex_text)]; (split; [cbn; auto|eexists; reflexivity]).
  - vm_compute. reflexivity.
Qed.

(** ** C64: Parsivel records *)
Theorem C64_records : forall (D T : Type) to_int to_float (rs : list (@hy_record D T)),
  match read_hyytiala to_int to_float rs with
  | Ok (time, data) =>
      (forall r, In r rs -> hr_lines r <> []) /\
      exists l, collects (fun r p => good_record to_int to_float r (fst p) (snd p)) rs l /\
      time = map fst l /\ NoDup (map fst data) /\
      (forall k c, In (k, c) data -> Forall2 (fun p o => record_value (snd p) k o) l c) /\
      (forall k, In k (map fst data) <-> exists p c, In p l /\ In (k, Some c) (snd p))
  | Raise e => e = IndexError /\ exists r, In r rs /\ hr_lines r = []
  end.
Proof. exact @hyytiala_correct. Qed.
Print Assumptions C64_records.
Theorem C64_aligned : forall (D T : Type) to_int to_float (rs : list (@hy_record D T)) time data k c,
  read_hyytiala to_int to_float rs = Ok (time, data) -> In (k, c) data -> length c = length time.
Proof.
  intros D T to_int to_float rs time data k c H I. pose proof (hyytiala_correct to_int to_float rs) as X.
  rewrite H in X. destruct X as (_ & l & _ & -> & _ & F & _). apply F in I. apply forall2_len in I.
  rewrite map_length. congruence.
Qed.
Print Assumptions C64_aligned.
(** Records that cannot be read are to be skipped; one without text stops the reader. *)
Theorem C64_skips_invalid_refuted : exists (rs : list (@hy_record string string)) r1 r2,
  rs = [r1; r2] /\ (exists t es, good_record parse_int parse_float r1 t es /\ es <> []) /\
  (forall t es, ~ good_record parse_int parse_float r2 t es) /\
  read_hyytiala parse_int parse_float rs = Raise IndexError.
Proof.
  exists [{| hr_stamp := Some ("d", "t"); hr_lines := ["TYP OP4A"; "3:61"] |}; {| hr_stamp := Some ("d", "t"); hr_lines := [] |}].
  eexists _, _. split; [reflexivity|]. split; [|split].
  - exists ("d", "t"), [(3%Z, Some (RInt 61))]. split; [|discriminate]. split; [reflexivity|].
    exists ["3:61"]. split; [reflexivity|]. constructor; [|constructor]. apply line_entry_iff. reflexivity.
  - intros t es (_ & rest & H & _). discriminate.
  - reflexivity.
Qed.
Print Assumptions C64_skips_invalid_refuted.
Example C64_nonvacuous :
  read_hyytiala parse_int parse_float
    [{| hr_stamp := Some ("d", "1"); hr_lines := ["TYP OP4A"; "1:0.5"; "3:61"] |};
     {| hr_stamp := Some ("d", "2"); hr_lines := ["TYP OP4A"; "1:x"; "3:61"] |};
     {| hr_stamp := None; hr_lines := ["TYP OP4A"; "1:0.7"] |};
     {| hr_stamp := Some ("d", "3"); hr_lines := ["TYP OP4A"; "3:62"; "90:1;2;"; "22:?"; "3:63"] |}] =
  Ok ([("d", "1"); ("d", "3")],
      [(1%Z, [Some (RFloat (5 # 10)); None]); (3%Z, [Some (RInt 61); Some (RInt 63)]);
       (90%Z, [None; Some (RVec [1 # 1; 2 # 1])])]).
Proof. vm_compute. reflexivity. Qed.
