(** Properties C95 to C98: readers of Radiometrics microwave radiometers. *)
From Verif Require Import Base GridModel OutputModel SiteModel TimeSpec SiteSpec SiteProofs TelegramSpec
  RadiometricsModel RadiometricsSpec RadiometricsProofs MpProofs WvrProofs RadiometricsFilesProofs.
From Coq Require Import String Ascii Lqa Permutation.
Open Scope string_scope.
Open Scope nat_scope.
Open Scope list_scope.
Local Notation length := List.length (only parsing).

(** Conversions for the concrete cases: whole numbers, decimal numbers with a sign, and
    a calendar with months of 31 days. *)
Definition ex_float (s : string) : option (masked Q) :=
  match s with
  | String "-"%char s' => option_map (fun q => Some (- q)%Q) (parse_float s')
  | _ => option_map Some (parse_float s)
  end.
Definition ex_ordinal (y m d : Z) : option Z := Some (372 * (y - 2020) + 31 * (m - 1) + (d - 1))%Z.

(** * C95: records of level 2 files *)
(** If the rows are read, the ranges are the height columns of the latest header of the
    types 10 and 400, and there is exactly one record for each data row that has a header,
    in the order of the row numbers. *)
Theorem C95_records to_int ordinal rows ranges records :
  read_raw to_int ordinal rows = Ok (ranges, records) -> read_ok to_int ordinal rows ranges records.
Proof.
  intros H. destruct (read_raw_cases to_int ordinal rows) as [(a & b & E & R & _)|(i & row & e & _ & _ & _ & _ & E)]; [|congruence].
  assert (a = ranges /\ b = records) as [-> ->] by (split; congruence). exact R.
Qed.
Print Assumptions C95_records.

(** Reading succeeds exactly if every row is understood. *)
Theorem C95_succeeds_iff to_int ordinal rows :
  (exists out, read_raw to_int ordinal rows = Ok out) <->
  forall i row, nth_error rows i = Some row -> understood to_int ordinal (firstn i rows) row.
Proof.
  destruct (read_raw_cases to_int ordinal rows) as [(a & b & E & _ & U)|(i & row & e & N & X & _ & _ & E)].
  - split; [intros _; exact U|eauto].
  - split; [intros [out H]; congruence|]. intros U. exfalso. apply X, U. exact N.
Qed.
Print Assumptions C95_succeeds_iff.

(** Otherwise the first row that is not understood decides the error. *)
Theorem C95_error to_int ordinal rows i row : nth_error rows i = Some row -> ~ understood to_int ordinal (firstn i rows) row ->
  (forall j row', j < i -> nth_error rows j = Some row' -> understood to_int ordinal (firstn j rows) row') ->
  exists e, row_error row e /\ read_raw to_int ordinal rows = Raise e.
Proof.
  intros N X Y. destruct (read_raw_cases to_int ordinal rows) as [(a & b & E & _ & U)|(i' & row' & e & N' & X' & Y' & R & E)].
  - exfalso. apply X, U. exact N.
  - assert (i' = i).
    { destruct (Nat.lt_trichotomy i' i) as [L|[L|L]]; [exfalso; apply X', (Y i' row' L N')|exact L|exfalso; apply X, (Y' i row L N)]. }
    subst i'. assert (row' = row) by congruence. subst row'. eauto.
Qed.
Print Assumptions C95_error.

Definition ex_rows : list (list string) :=
  [["Record"; "Date/Time"; "10"; "Tir(K)"; "0.00"; "0.10"; "DataQuality"]; ["7"; "01/02/22 00:00:10"; "11"; "280"; "1"; "2.5"; "0"];
   ["3"; "01/02/22 00:00:05"; "11"; "281"; "3"; "4"; "0"]; ["4"; "x"; "31"; "5"]].
Definition ex_records : list record :=
  [{| k_row := 3; k_type := 10; k_index := 0; k_time := 64368005;
      k_values := [("DataQuality", "0"); ("0.10", "4"); ("0.00", "3"); ("Tir(K)", "281")] |};
   {| k_row := 7; k_type := 10; k_index := 0; k_time := 64368010;
      k_values := [("DataQuality", "0"); ("0.10", "2.5"); ("0.00", "1"); ("Tir(K)", "280")] |}].
Example C95_nonvacuous :
  read_raw parse_int ex_ordinal ex_rows = Ok (["0.00"; "0.10"], ex_records) /\
  (* an unexpected header, a row without time, a missing value *)
  read_raw parse_int ex_ordinal [["Record"; "Time"; "10"]] = Raise RuntimeError /\
  read_raw parse_int ex_ordinal [["Record"; "Date/Time"; "30"; "A"]; ["1"; "2022"; "31"; "5"]] = Raise ValueError /\
  read_raw parse_int ex_ordinal [["Record"; "Date/Time"; "30"; "A"]; ["1"; "01/02/22 00:00:10"; "31"]] = Raise ValueError.
Proof. repeat split; reflexivity. Qed.

(** Each value of a record would be the field below its column.  An empty field is left
    out, and if the row has one field more than the header, the values move to other
    columns without an error. *)
Theorem C95_columns_refuted : ~ (forall to_int ordinal rows ranges records,
  read_raw to_int ordinal rows = Ok (ranges, records) ->
  forall r c v, In r records -> OutputModel.lookup c (k_values r) = Some v ->
  exists i j row columns k, nth_error rows i = Some row /\ record_of to_int ordinal (firstn i rows) row r /\
    nth_error rows j = Some columns /\ nth_error columns k = Some c /\ nth_error row k = Some v).
Proof.
  intros H.
  destruct (H parse_int ex_ordinal [["Record"; "Date/Time"; "30"; "A"; "B"]; ["1"; "01/02/22 00:00:10"; "31"; ""; "5"; "6"]] [] _ eq_refl
    _ "A" "5" (or_introl eq_refl) eq_refl) as (i & j & row & columns & k & A & B & C & D & E).
  destruct i as [|[|i]]; cbn [nth_error] in A; [| |destruct i; discriminate A].
  - assert (row = ["Record"; "Date/Time"; "30"; "A"; "B"]) by congruence. subst row.
    destruct B as (r0 & r1 & r2 & rest & ty & cols & X & Y & _). assert (r0 = "Record") by congruence. contradiction.
  - assert (row = ["1"; "01/02/22 00:00:10"; "31"; ""; "5"; "6"]) by congruence. subst row.
    assert (K : k = 4) by (do 6 (destruct k as [|k]; [cbn in E; try discriminate E; try reflexivity|]); destruct k; discriminate E).
    subst k. destruct j as [|[|j]]; cbn [nth_error] in C; [| |destruct j; discriminate C].
    + assert (columns = ["Record"; "Date/Time"; "30"; "A"; "B"]) by congruence. subst columns. discriminate D.
    + assert (columns = ["1"; "01/02/22 00:00:10"; "31"; ""; "5"; "6"]) by congruence. subst columns. discriminate D.
Qed.
Print Assumptions C95_columns_refuted.

(** A blank line would not matter; the row of a blank line has no first field. *)
Theorem C95_blank_line_refuted : exists to_int ordinal rows out,
  read_raw to_int ordinal rows = Ok out /\ read_raw to_int ordinal (rows ++ [[]]) = Raise IndexError.
Proof. exists parse_int, ex_ordinal, ex_rows. eexists. split; reflexivity. Qed.
Print Assumptions C95_blank_line_refuted.

(** * C96: data of level 2 files *)
(** Records contribute by their type, index and title, only for zenith observations where
    the processor is known; the times are those of the integrals, the other quantities
    have the value of the nearest time, in the units of the output. *)
Theorem C96_data to_int to_float ranges records d :
  read_mp to_int to_float ranges records = Ok d -> exists items, mp_ok to_int to_float ranges records d items.
Proof. apply read_mp_fwd. Qed.
Print Assumptions C96_data.

(** Reading succeeds exactly if the contribution of each record can be determined. *)
Theorem C96_succeeds_iff to_int to_float ranges records :
  (exists d, read_mp to_int to_float ranges records = Ok d) <-> exists items, all_items to_int to_float ranges [] records items.
Proof.
  split.
  - intros [d H]. apply read_mp_fwd in H as (items & A & _). eauto.
  - intros [items A]. apply read_mp_bwd with (items := items). exact A.
Qed.
Print Assumptions C96_succeeds_iff.

Definition ex_record (n t i time : Z) (v : list (string * string)) : record :=
  {| k_row := n; k_type := t; k_index := i; k_time := time; k_values := v |}.
Definition ex_mp : list record :=
  [ex_record 1 100 0 5 [("Record Type", "402"); ("Title", "Temperature (K)")];
   ex_record 2 200 0 10 [("Tir(K)", "250")];
   ex_record 3 300 0 12 [("Int. Liquid(mm)", "1"); ("Int. Vapor(cm)", "2")];
   ex_record 4 300 0 13 [("Int. Liquid(mm)", "3"); ("Int. Vapor(cm)", "4")];
   ex_record 5 400 1 14 [("LV2 Processor", "Zenith"); ("0.0", "280")];
   ex_record 6 400 1 15 [("LV2 Processor", "Angle20(N)"); ("0.0", "281")];
   ex_record 7 200 0 20 [("Tir(K)", "260")];
   ex_record 8 300 0 21 [("Int. Liquid(mm)", "5"); ("Int. Vapor(cm)", "6")]].
Example C96_nonvacuous :
  read_mp parse_int ex_float ["0.0"] ex_mp =
  Ok {| d_time := [12; 21]%Z; d_lwp := [Some 1; Some 5]%Q; d_iwv := [Some (2 * 10); Some (6 * 10)]%Q;
        d_irt := Some [Some 250; Some 260]%Q; d_temperature := Some [[Some 280]; [Some 280]]%Q; d_rh := None; d_ah := None |}.
Proof. reflexivity. Qed.

(** A number in a profile would be read as this number; a sign or an exponent makes it
    missing. *)
Theorem C96_negative_refuted : ~ (forall to_int to_float ranges records d, read_mp to_int to_float ranges records = Ok d ->
  forall r c v x profiles, records = [r] -> ranges = [c] -> k_type r = 10%Z -> k_index r = 0%Z ->
    has r c v -> to_float v = Some (Some x) -> d_temperature d = Some profiles -> profiles = [[Some x]]).
Proof.
  intros H.
  assert (X := H parse_int ex_float ["0.0"] [ex_record 1 10 0 5 [("Lqint(mm)", "1"); ("Vint(cm)", "2"); ("Tir(K)", "250"); ("0.0", "-5.0")]] _ eq_refl
    _ "0.0" "-5.0" _ _ eq_refl eq_refl eq_refl eq_refl eq_refl eq_refl eq_refl). discriminate X.
Qed.
Print Assumptions C96_negative_refuted.

(** Integrals would be read from any records with numbers in them; more of them than
    processor records in a superblock raise IndexError. *)
Theorem C96_more_integrals_refuted : exists to_int to_float records,
  Forall (fun r => k_type r = 300%Z -> exists a b, number_of to_float r "Int. Liquid(mm)" a /\ number_of to_float r "Int. Vapor(cm)" b) records /\
  Forall (fun r => k_type r = 400%Z -> exists p, has r "LV2 Processor" p) records /\
  read_mp to_int to_float [] records = Raise IndexError.
Proof.
  exists parse_int, ex_float,
    [ex_record 1 300 0 12 [("Int. Liquid(mm)", "1"); ("Int. Vapor(cm)", "2")];
     ex_record 2 300 0 13 [("Int. Liquid(mm)", "3"); ("Int. Vapor(cm)", "4")];
     ex_record 3 400 1 14 [("LV2 Processor", "Zenith")]].
  split; [|split; [|reflexivity]].
  - apply Forall_cons; [intros _; do 2 eexists; split; eexists; split; reflexivity|].
    apply Forall_cons; [intros _; do 2 eexists; split; eexists; split; reflexivity|]. apply Forall_cons; [discriminate|constructor].
  - apply Forall_cons; [discriminate|]. apply Forall_cons; [discriminate|]. apply Forall_cons; [intros _; eexists; reflexivity|constructor].
Qed.
Print Assumptions C96_more_integrals_refuted.

(** * C97: line files of the WVR-1100 *)
(** The line [line] is the first that starts with the words date and time. *)
Definition first_header (lines pre : list string) (line : string) (rest headers : list string) : Prop :=
  lines = pre ++ line :: rest /\ words_of line headers /\ header_fields headers /\
  forall l f, In l pre -> words_of l f -> ~ header_fields f.
Definition all_readable to_int to_float ordinal (headers rest : list string) : Prop :=
  forall l f, In l rest -> words_of l f -> length f = length headers -> readable to_int to_float ordinal headers f.
Lemma first_header_unique lines p1 l1 r1 h1 p2 l2 r2 h2 : first_header lines p1 l1 r1 h1 -> first_header lines p2 l2 r2 h2 -> r1 = r2 /\ h1 = h2.
Proof.
  intros (E1 & W1 & H1 & N1) (E2 & W2 & H2 & N2). revert lines p2 E1 E2 N1 N2. induction p1 as [|x p1 IH]; intros lines [|y p2] E1 E2 N1 N2; subst lines; cbn [app] in E2.
  - assert (l1 = l2 /\ r1 = r2) as [-> ->] by (split; congruence). split; [reflexivity|].
    apply words_iff in W1. apply words_iff in W2. congruence.
  - assert (l1 = y) by congruence. subst y. exfalso. apply (N2 l1 h1); [left; reflexivity|exact W1|exact H1].
  - assert (x = l2) by congruence. subst x. exfalso. apply (N1 l2 h2); [left; reflexivity|exact W2|exact H2].
  - assert (x = y) by congruence. subst y. apply (IH (p1 ++ l1 :: r1) p2); [reflexivity|congruence| |];
      intros l f I; [apply (N1 l f (or_intror I))|apply (N2 l f (or_intror I))].
Qed.
(** The headers are different words; the code merges columns of the same name. *)
Definition distinct_headers (lines : list string) : Prop := forall l f, In l lines -> words_of l f -> header_fields f -> NoDup f.

(** The data are exactly the valid observations at zenith below the header, in order. *)
Theorem C97_observations to_int to_float ordinal lines time lwp iwv : distinct_headers lines ->
  read_wvr to_int to_float ordinal lines = Ok (time, lwp, iwv) ->
  exists pre line rest headers out, first_header lines pre line rest headers /\ los_data to_int to_float ordinal headers rest out /\
    time = map fst out /\ lwp = map (fun o => fst (snd o)) out /\ iwv = map (fun o => snd (snd o)) out.
Proof.
  intros _ H. destruct (read_wvr_cases to_int to_float ordinal lines)
    as [(pre & line & rest & headers & A & B & C & D & [(out & _ & _ & L & E)|[[E _]|[E _]]])|[_ E]]; try congruence.
  exists pre, line, rest, headers, out. split; [repeat split; assumption|]. split; [exact L|].
  rewrite E in H. injection H as <- <- <-. auto.
Qed.
Print Assumptions C97_observations.

(** It succeeds exactly with a header that has all needed columns, and readable lines. *)
Theorem C97_succeeds_iff to_int to_float ordinal lines : distinct_headers lines ->
  (exists out, read_wvr to_int to_float ordinal lines = Ok out) <->
  exists pre line rest headers, first_header lines pre line rest headers /\ incl needed headers /\
    all_readable to_int to_float ordinal headers rest.
Proof.
  intros _. destruct (read_wvr_cases to_int to_float ordinal lines)
    as [(pre & line & rest & headers & A & B & C & D & [(out & I & R & L & E)|[[E R]|[E [I R]]]])|[N E]].
  - split; [|eauto]. intros _. exists pre, line, rest, headers. split; [repeat split; assumption|]. auto.
  - split; [intros [o Ho]; congruence|]. intros (p' & l' & r' & h' & F & I & R'). exfalso.
    destruct (first_header_unique lines pre line rest headers p' l' r' h') as [-> ->]; [repeat split; assumption|exact F|].
    destruct R as (l & f & Il & W & Lf & X). apply X, (R' l f); assumption.
  - split; [intros [o Ho]; congruence|]. intros (p' & l' & r' & h' & F & I' & _). exfalso.
    destruct (first_header_unique lines pre line rest headers p' l' r' h') as [-> ->]; [repeat split; assumption|exact F|]. contradiction.
  - split; [intros [o Ho]; congruence|]. intros (p' & l' & r' & h' & (-> & W & H & _) & _). exfalso.
    apply (N l' h'); [apply in_or_app; right; left; reflexivity|exact W|exact H].
Qed.
Print Assumptions C97_succeeds_iff.

(** The errors: no header, a line that cannot be read, a missing column. *)
Theorem C97_errors to_int to_float ordinal lines : distinct_headers lines ->
  ((forall l f, In l lines -> words_of l f -> ~ header_fields f) -> read_wvr to_int to_float ordinal lines = Raise RuntimeError) /\
  forall pre line rest headers, first_header lines pre line rest headers ->
    (forall l f, In l rest -> words_of l f -> length f = length headers -> ~ readable to_int to_float ordinal headers f ->
       read_wvr to_int to_float ordinal lines = Raise ValueError) /\
    (all_readable to_int to_float ordinal headers rest -> ~ incl needed headers ->
       read_wvr to_int to_float ordinal lines = Raise KeyError).
Proof.
  intros _. destruct (read_wvr_cases to_int to_float ordinal lines)
    as [(pre & line & rest & headers & A & B & C & D & H)|[N E]].
  - split.
    { intros X. exfalso. apply (X line headers); [subst lines; apply in_or_app; right; left; reflexivity|exact B|exact C]. }
    intros p' l' r' h' F.
    destruct (first_header_unique lines pre line rest headers p' l' r' h') as [<- <-]; [repeat split; assumption|exact F|].
    destruct H as [(out & I & R & L & E)|[[E (l0 & f0 & I0 & W0 & L0 & X0)]|[E [I R]]]].
    + split; [intros l f I1 W1 L1 X; exfalso; apply X, (R l f); assumption|]. intros _ X. contradiction.
    + split; [intros; exact E|]. intros R. exfalso. apply X0, (R l0 f0); assumption.
    + split; [intros l f I1 W1 L1 X; exfalso; apply X, (R l f); assumption|]. intros _ _. exact E.
  - split; [intros _; exact E|]. intros p' l' r' h' (-> & W & H & _). exfalso.
    apply (N l' h'); [apply in_or_app; right; left; reflexivity|exact W|exact H].
Qed.
Print Assumptions C97_errors.

Definition ex_los : list string :=
  ["RETRIEVAL COEFFICIENTS"; "date time TbSky23 TbSky31 VapCM LiqCM ELact"; "";
   "01/02/22 00:00:10 30 20 1.5 0.01 90.2"; "01/02/22 00:00:20 30 20 1.5 0.01 45"; "01/02/22 00:00:30 30 *** 1.5 0.01 90";
   "01/02/22 00:00:40 30 20 *** 0.02 89.5"].
Example C97_nonvacuous :
  read_wvr parse_int ex_float ex_ordinal ex_los =
    Ok ([64368010; 64368040]%Z, [Some ((1 # 100) * 10); Some ((2 # 100) * 10)]%Q, [Some ((15 # 10) * 10)%Q; None]) /\
  distinct_headers ex_los /\
  read_wvr parse_int ex_float ex_ordinal ["a"; "b"] = Raise RuntimeError /\
  read_wvr parse_int ex_float ex_ordinal ["date time"; "01/02/22 25:00:00"] = Raise ValueError /\
  read_wvr parse_int ex_float ex_ordinal ["date time"; "01/02/22 12:00:00"] = Raise KeyError.
Proof.
  split; [reflexivity|]. split; [|repeat split; reflexivity]. intros l f I W [r Hr]. apply words_iff in W. subst f. cbn [ex_los In] in I.
  destruct I as [<-|[<-|[<-|[<-|[<-|[<-|[<-|[]]]]]]]]; try discriminate Hr.
  change (NoDup ["date"; "time"; "TbSky23"; "TbSky31"; "VapCM"; "LiqCM"; "ELact"]).
  repeat (constructor; [cbn [In]; intros X; repeat (destruct X as [X|X]; [discriminate|]); exact X|]). constructor.
Qed.

(** * C98: several files *)
(** With a date, the written file has exactly the profiles of this day, sorted by time;
    every variable has the rows of the same profiles; hours are counted from midnight. *)
Theorem C98_day {P} to_float argsort names altitude (o0 : obj P) objs d :
  sorts argsort -> combinable to_float names altitude o0 objs ->
  (exists t, In t (all_times (o0 :: objs)) /\ on_day d t) ->
  exists w, radiometrics2nc to_float argsort (o0 :: objs) altitude (Some d) = Ok w /\ f_date w = d /\
    in_metres to_float altitude (o_ranges o0) (f_range w) (f_height w) /\
    exists idx time, NoDup idx /\ (forall i, In i idx <-> exists t, nth_error (all_times (o0 :: objs)) i = Some t /\ on_day d t) /\
      rows_are names (o0 :: objs) idx time (f_vars w) /\ StronglySorted Z.le time /\
      hours_since d time (f_hours w) /\ Forall (fun h => (0 <= h < 24)%Q) (f_hours w).
Proof. apply files_day. Qed.
Print Assumptions C98_day.

(** Without a profile of the day the file is rejected. *)
Theorem C98_no_profile {P} to_float argsort names altitude (o0 : obj P) objs d : combinable to_float names altitude o0 objs ->
  (forall t, In t (all_times (o0 :: objs)) -> ~ on_day d t) ->
  radiometrics2nc to_float argsort (o0 :: objs) altitude (Some d) = Raise ValidTimeStampError.
Proof. apply files_none. Qed.
Print Assumptions C98_no_profile.

(** Files with other ranges are rejected. *)
Theorem C98_inconsistent {P} to_float argsort altitude (o0 : obj P) objs date : (exists o, In o objs /\ o_ranges o <> o_ranges o0) ->
  radiometrics2nc to_float argsort (o0 :: objs) altitude date = Raise InconsistentDataError.
Proof. apply files_inconsistent. Qed.
Print Assumptions C98_inconsistent.

(** Without a date all profiles are kept.  Missing for the full claim: the date of the
    file is the day that hours are counted from, and hours are below 24. *)
Theorem C98_no_date_partial {P} to_float argsort names altitude (o0 : obj P) objs t0 rest :
  sorts argsort -> combinable to_float names altitude o0 objs -> all_times (o0 :: objs) = t0 :: rest ->
  exists w, radiometrics2nc to_float argsort (o0 :: objs) altitude None = Ok w /\ on_day (f_date w) t0 /\
    in_metres to_float altitude (o_ranges o0) (f_range w) (f_height w) /\
    exists idx time d, Permutation idx (seq 0 (length (t0 :: rest))) /\
      rows_are names (o0 :: objs) idx time (f_vars w) /\ StronglySorted Z.le time /\
      (forall t ts, time = t :: ts -> on_day d t) /\ hours_since d time (f_hours w).
Proof. apply files_all. Qed.
Print Assumptions C98_no_date_partial.

(** Sorting of times for the concrete cases. *)
Fixpoint ex_insert (time : list Z) (i : nat) (l : list nat) : list nat :=
  match l with [] => [i] | j :: l' => if (nth i time 0 <=? nth j time 0)%Z then i :: l else j :: ex_insert time i l' end.
Definition ex_argsort (time : list Z) : list nat := fold_right (ex_insert time) [] (seq 0 (length time)).
Lemma ex_insert_perm time i l : Permutation (ex_insert time i l) (i :: l).
Proof.
  induction l as [|j l IH]; cbn [ex_insert]; [reflexivity|]. destruct (nth i time 0 <=? nth j time 0)%Z; [reflexivity|].
  rewrite IH. apply perm_swap.
Qed.
Lemma ex_insert_sorted time i l : StronglySorted (fun a b => nth a time 0 <= nth b time 0)%Z l ->
  StronglySorted (fun a b => nth a time 0 <= nth b time 0)%Z (ex_insert time i l).
Proof.
  induction 1 as [|j l Sl IH F]; cbn [ex_insert]; [repeat constructor|]. destruct (nth i time 0 <=? nth j time 0)%Z eqn:E.
  - apply Z.leb_le in E. constructor; [constructor; assumption|]. constructor; [exact E|].
    apply Forall_forall. intros k K. rewrite Forall_forall in F. specialize (F k K). cbn beta in F. lia.
  - apply Z.leb_gt in E. constructor; [exact IH|]. apply Forall_forall. intros k K. apply (Permutation_in _ (ex_insert_perm time i l)) in K.
    destruct K as [<-|K]; [lia|]. rewrite Forall_forall in F. apply F. exact K.
Qed.
Lemma ex_sorts : sorts ex_argsort.
Proof.
  intros time. unfold ex_argsort. generalize (seq 0 (length time)). intros l. split.
  - induction l as [|i l IH]; cbn [fold_right]; [reflexivity|]. rewrite ex_insert_perm, IH. reflexivity.
  - assert (X : StronglySorted (fun a b => nth a time 0 <= nth b time 0)%Z (fold_right (ex_insert time) [] l)).
    { induction l as [|i l IH]; cbn [fold_right]; [constructor|]. apply ex_insert_sorted. exact IH. }
    revert X. generalize (fold_right (ex_insert time) [] l). intros m X. induction X as [|i m _ IH F]; constructor; [exact IH|].
    apply Forall_forall. intros j J a b A B. rewrite Forall_forall in F. specialize (F j J). cbn beta in F.
    rewrite (nth_error_nth _ _ _ A), (nth_error_nth _ _ _ B) in F. exact F.
Qed.
Definition ex_obj1 : obj Q := Build_obj ["0.0"; "0.1"] [86400; 172800]%Z [("lwp", [1; 2]%Q)].
Definition ex_obj2 : obj Q := Build_obj ["0.0"; "0.1"] [3600; 86390]%Z [("lwp", [3; 4]%Q)].
Lemma ex_combinable : combinable ex_float ["lwp"] (Some 10%Q) ex_obj1 [ex_obj2].
Proof.
  assert (N : NoDup ["lwp"]) by (constructor; [intros []|constructor]).
  split; [|split; [|split]].
  - apply Forall_cons; [|apply Forall_cons; [|constructor]]; (split; [exact N|]; split; [intros k; reflexivity|]);
      intros k rows [E|[]]; injection E as <- <-; reflexivity.
  - intros o [<-|[]]. reflexivity.
  - discriminate.
  - repeat (apply Forall_cons; [discriminate|]). constructor.
Qed.
Example C98_nonvacuous :
  sorts ex_argsort /\ combinable ex_float ["lwp"] (Some 10%Q) ex_obj1 [ex_obj2] /\
  (exists t, In t (all_times [ex_obj1; ex_obj2]) /\ on_day 0 t) /\
  option_map (fun w => (f_vars w, map Qred (f_hours w)))
    (match radiometrics2nc ex_float ex_argsort [ex_obj1; ex_obj2] (Some 10%Q) (Some 0%Z) with Ok w => Some w | Raise _ => None end) =
    Some ([("lwp", [3; 4])], [1; 8639 # 360])%Q /\
  radiometrics2nc ex_float ex_argsort [ex_obj1; ex_obj2] (Some 10%Q) (Some 5%Z) = Raise ValidTimeStampError.
Proof.
  split; [exact ex_sorts|]. split; [exact ex_combinable|]. split; [exists 3600%Z; split; [right; right; left; reflexivity|split; reflexivity || discriminate]|].
  split; reflexivity.
Qed.

(** Without a date, the date of the file would be the day from which the hours are
    counted.  The date is that of the first profile of the first file, before sorting;
    the hours count from the earliest profile. *)
Theorem C98_date_refuted : exists to_float argsort names altitude (o0 : obj Q) objs w,
  sorts argsort /\ combinable to_float names altitude o0 objs /\
  radiometrics2nc to_float argsort (o0 :: objs) altitude None = Ok w /\
  forall idx time, rows_are names (o0 :: objs) idx time (f_vars w) -> Permutation idx (seq 0 (length (all_times (o0 :: objs)))) ->
    ~ hours_since (f_date w) time (f_hours w).
Proof.
  destruct (radiometrics2nc ex_float ex_argsort [ex_obj1; ex_obj2] (Some 10%Q) None) as [w|e] eqn:E; [|vm_compute in E; discriminate E].
  exists ex_float, ex_argsort, ["lwp"], (Some 10%Q), ex_obj1, [ex_obj2], w.
  split; [exact ex_sorts|]. split; [exact ex_combinable|]. split; [exact E|].
  assert (D : f_date w = 1%Z /\ exists h, map Qred (f_hours w) = 1%Q :: h).
  { assert (X : option_map (fun w => (f_date w, map Qred (f_hours w)))
      (match radiometrics2nc ex_float ex_argsort [ex_obj1; ex_obj2] (Some 10%Q) None with Ok w => Some w | Raise _ => None end) =
      Some (1%Z, [1; 8639 # 360; 24; 48]%Q)) by reflexivity.
    rewrite E in X. cbn [option_map] in X. injection X as D H. split; [exact D|]. eauto. }
  destruct D as [D [hs H]]. intros idx time [[Lt Rt] _] Pe Hh. rewrite D in Hh.
  destruct (f_hours w) as [|h hours]; [discriminate H|]. inversion Hh as [|t ? time' ? E1 _]; subst.
  destruct idx as [|i idx]; [discriminate Lt|]. destruct (Rt 0 i eq_refl) as (x & X & Y). cbn [nth_error] in Y. assert (x = t) by congruence. subst x.
  assert (Eh : (h == 1)%Q) by (cbn [map] in H; rewrite <- (Qred_correct h); replace (Qred h) with 1%Q by congruence; reflexivity).
  rewrite Eh in E1. assert (T : (t - 86400 * 1 = 3600)%Z).
  { unfold Qeq in E1. cbn in E1. lia. }
  assert (t = 90000)%Z by lia. subst t. apply nth_error_In in X. cbn in X.
  repeat (destruct X as [X|X]; [discriminate X|]). exact X.
Qed.
Print Assumptions C98_date_refuted.

(** Without a date, hours would be below 24. *)
Theorem C98_hours_refuted : exists to_float argsort names altitude (o0 : obj Q) objs w h,
  sorts argsort /\ combinable to_float names altitude o0 objs /\
  radiometrics2nc to_float argsort (o0 :: objs) altitude None = Ok w /\ In h (f_hours w) /\ (24 <= h)%Q.
Proof.
  destruct (radiometrics2nc ex_float ex_argsort [ex_obj1; ex_obj2] (Some 10%Q) None) as [w|e] eqn:E; [|vm_compute in E; discriminate E].
  assert (X : option_map (fun w => map Qred (f_hours w))
      (match radiometrics2nc ex_float ex_argsort [ex_obj1; ex_obj2] (Some 10%Q) None with Ok w => Some w | Raise _ => None end) =
      Some [1; 8639 # 360; 24; 48]%Q) by reflexivity.
  rewrite E in X. cbn [option_map] in X. assert (I : In 48%Q (map Qred (f_hours w))) by (injection X as ->; cbn; auto).
  apply in_map_iff in I as (h & Eh & I).
  exists ex_float, ex_argsort, ["lwp"], (Some 10%Q), ex_obj1, [ex_obj2], w, h.
  split; [exact ex_sorts|]. split; [exact ex_combinable|]. split; [exact E|]. split; [exact I|].
  rewrite <- (Qred_correct h), Eh. discriminate.
Qed.
Print Assumptions C98_hours_refuted.

(** A file without one of the variables would not matter; the rows of this variable no
    longer fit the times, and the conversion fails. *)
Theorem C98_missing_variable_refuted : exists to_float argsort (o0 o1 : obj Q) d w0 w1,
  sorts argsort /\ o_ranges o0 = o_ranges o1 /\
  radiometrics2nc to_float argsort [o0] None (Some d) = Ok w0 /\ radiometrics2nc to_float argsort [o1] None (Some d) = Ok w1 /\
  radiometrics2nc to_float argsort [o0; o1] None (Some d) = Raise IndexError.
Proof.
  exists ex_float, ex_argsort, (Build_obj [] [3600]%Z [("lwp", [1]%Q); ("irt", [2]%Q)]), (Build_obj [] [7200]%Z [("lwp", [1]%Q)]), 0%Z.
  do 2 eexists. split; [exact ex_sorts|]. split; [reflexivity|]. split; [reflexivity|]. split; reflexivity.
Qed.
Print Assumptions C98_missing_variable_refuted.
