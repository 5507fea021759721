(** Properties C65-C70: weather stations and present weather sensors. *)
From Verif Require Import Base ArrayModel GridModel OutputModel OutputSpec SiteModel SiteSpec SiteProofs
  ReaderModel ReaderSpec ReaderProofs StationModel StationSpec StationProofs.
From Coq Require Import Lqa.
Local Open Scope string_scope.
Local Open Scope nat_scope.
Local Notation length := List.length (only parsing).

(** Readers for the examples: dates, times and time stamps are their texts. *)
Definition ex_num (s : string) : option (masked Q) := option_map Some (parse_float s).
Definition ex_id (s : string) : option string := if String.eqb s "?" then None else Some s.

(** ** C65: FD12P *)
(** Full statement: the columns are those of the rows of the wanted day that have a
    value, whatever else the file has; ValidTimeStampError if there are none.  It
    holds if the file has readable rows of no other day. *)
Theorem C65_rows_partial : forall D T (date_eqb : D -> D -> bool) to_int to_num to_date (to_time : string -> option T),
  (forall a b, date_eqb a b = true <-> a = b) ->
  forall expected lines rows,
  (forall l r, In l lines -> fd_reading to_int to_num to_date to_time l r -> on_day expected r) ->
  fd_wanted to_int to_num to_date to_time expected lines rows ->
  (rows = [] -> fd_read date_eqb to_int to_num to_date to_time expected lines = Raise ValidTimeStampError) /\
  (rows <> [] -> exists c, fd_read date_eqb to_int to_num to_date to_time expected lines = Ok c /\ fd_columns rows c).
Proof. intros D T de ti tn td tt S e lines rows. apply fd_read_partial. exact S. Qed.
(** With readable rows of the day and of another day the file cannot be read. *)
Theorem C65_other_day : forall D T (date_eqb : D -> D -> bool) to_int to_num to_date (to_time : string -> option T),
  (forall a b, date_eqb a b = true <-> a = b) ->
  forall expected lines,
  (exists l r, In l lines /\ fd_reading to_int to_num to_date to_time l r /\ on_day expected r) ->
  (exists l r, In l lines /\ fd_reading to_int to_num to_date to_time l r /\ ~ on_day expected r) ->
  fd_read date_eqb to_int to_num to_date to_time expected lines = Raise ValueError.
Proof. intros D T de ti tn td tt S e lines. apply fd_read_other_day. exact S. Qed.
Theorem C65_no_row : forall D T (date_eqb : D -> D -> bool) to_int to_num to_date (to_time : string -> option T),
  (forall a b, date_eqb a b = true <-> a = b) ->
  forall expected lines,
  (forall l r, In l lines -> fd_reading to_int to_num to_date to_time l r -> ~ on_day expected r) ->
  fd_read date_eqb to_int to_num to_date to_time expected lines = Raise ValidTimeStampError.
Proof. intros D T de ti tn td tt S e lines. apply fd_read_no_day. exact S. Qed.
Notation ex_fd := (fd_read String.eqb parse_int ex_num ex_id ex_id).
Notation ex_reading := (fd_reading parse_int ex_num ex_id ex_id).
Definition ex_line1 := "01.02.2024 00:00 x x 100 x x 61 x x 0.5 1.0 2".
Definition ex_line2 := "02.02.2024 00:00 x x 100 x x 61 x x 0.5 1.0 2".
Definition ex_line3 := "01.02.2024 00:01 x x ///// x x // x x //// //// ///".
Definition ex_row1 : @fd_row string string :=
  {| f_time := ("01.02.2024", "00:00"); f_vis := Some (100 # 1)%Q; f_synop := Some (61 # 1)%Q;
     f_rate := Some (5 # 10)%Q; f_amount := Some (10 # 10)%Q; f_snow := Some (2 # 1)%Q |}.
Lemma ex_line1_reading : forall r, ex_reading ex_line1 r <-> r = ex_row1.
Proof.
  intros r. rewrite <- fd_line_iff. change (fd_line parse_int ex_num ex_id ex_id ex_line1) with (Some ex_row1).
  split; congruence.
Qed.
Theorem C65_rows_refuted : exists expected lines rows,
  fd_wanted parse_int ex_num ex_id ex_id expected lines rows /\ rows <> [] /\
  ex_fd expected lines = Raise ValueError.
Proof.
  exists (Some "01.02.2024"), [ex_line1; ex_line2], [ex_row1]. split; [|split; [discriminate|reflexivity]].
  apply collects_take.
  - split; [apply ex_line1_reading; reflexivity|]. split; [intros d E; injection E as <-; reflexivity|].
    left. discriminate.
  - apply collects_skip; [|constructor]. intros b [R [O _]]. apply fd_line_iff in R.
    injection R as <-. specialize (O _ eq_refl). discriminate O.
Qed.
Example C65_nonvacuous :
  ex_fd (Some "01.02.2024") [ex_line1; "junk"; ex_line3] =
    Ok {| fc_time := [("01.02.2024", "00:00")]; fc_vis := [Some (100 # 1)]; fc_synop := [Some (61 # 1)];
          fc_rate := [Some (5 # 10)]; fc_amount := [Some (10 # 10)]; fc_snow := [Some (2 # 1)] |}%Q /\
  ex_fd None [ex_line3] = Raise ValidTimeStampError /\
  ex_fd (Some "02.02.2024") [ex_line1; "junk"] = Raise ValidTimeStampError.
Proof. repeat split; reflexivity. Qed.
Print Assumptions C65_rows_partial.
Print Assumptions C65_other_day.
Print Assumptions C65_no_row.
Print Assumptions C65_rows_refuted.

(** ** C66: SIRTA files and Limassol *)
(** One file with distinct titles: it is rejected exactly if the titles are not
    numbered 1, 2, ... or a full line has an unreadable time stamp; otherwise each
    title has the values of its position in the full lines. *)
Theorem C66_file : forall S to_num (to_stamp to_stamp_z : string -> option S) lines ts,
  titles lines ts -> NoDup (map snd ts) ->
  ((~ numbered ts \/ exists l, In l lines /\ bad_stamp to_num to_stamp to_stamp_z (map snd ts) l) ->
     parse_sirta to_num to_stamp to_stamp_z lines = Raise ValueError) /\
  (numbered ts -> (forall l, In l lines -> ~ bad_stamp to_num to_stamp to_stamp_z (map snd ts) l) ->
     exists tbl, parse_sirta to_num to_stamp to_stamp_z lines = Ok tbl /\
       (forall k, In k (map fst tbl) <-> In k (map snd ts)) /\
       forall i t, nth_error (map snd ts) i = Some t ->
         exists c, has_column tbl t c /\ collects (sirta_at to_num to_stamp to_stamp_z (length ts) i t) lines c).
Proof.
  intros S tn ts tz lines tts T N. destruct (parse_sirta_spec tn ts tz lines tts T N) as [A B].
  split; [exact A|]. intros O G. destruct (B O G) as [tbl [E [ND [K C]]]]. exists tbl. split; [exact E|].
  split; [exact K|]. intros i t I. exists (col String.eqb tbl t). split; [|apply C; exact I].
  apply (has_column_iff String.eqb string_spec); [exact ND|reflexivity].
Qed.
(** Full statement for Limassol: in the result for several files every column has as
    many values as the time, and values at the same place come from the same line.
    It holds if all files have the same titles. *)
Theorem C66_files_partial : forall S to_num (to_stamp to_stamp_z : string -> option S) files ts r i k,
  NoDup ts -> (forall f, In f files -> exists nts, titles f nts /\ map snd nts = ts) ->
  limassol to_num to_stamp to_stamp_z files = Ok r ->
  nth_error ts i = Some k -> k <> "time" -> k <> "Date Time (yyyy-mm-ddThh:mm:ss)" ->
  exists p time c, nth_error ts p = Some "Date Time (yyyy-mm-ddThh:mm:ss)" /\
    has_column r "time" time /\ has_column r k c /\ length c = length time /\
    collects (fun l x => sirta_at to_num to_stamp to_stamp_z (length ts) p "Date Time (yyyy-mm-ddThh:mm:ss)" l (fst x) /\
                         sirta_at to_num to_stamp to_stamp_z (length ts) i k l (snd x))
      (List.concat files) (combine time c).
Proof.
  intros S tn ts tz files tts r i k N F H I K1 K2.
  destruct (limassol_aligned tn ts tz files tts r i k N F H I K1 K2) as [p [P [C1 [C2 [L C]]]]].
  assert (ND : NoDup (map fst r)).
  { refine (proj1 (limassol_spec tn ts tz files r H _)). intros f t If Pf. destruct (F f If) as [nts [T E]].
    rewrite <- E in N. destruct (parse_ok tn ts tz f nts t T N Pf) as [_ [_ [X _]]]. exact X. }
  exists p, (col String.eqb r "time"), (col String.eqb r k). split; [exact P|].
  split; [apply (has_column_iff String.eqb string_spec); [exact ND|reflexivity]|].
  split; [apply (has_column_iff String.eqb string_spec); [exact ND|reflexivity]|]. auto.
Qed.
Notation ex_lim := (limassol ex_num ex_id ex_id).
Definition ex_file1 : list sirta_line :=
  [SOther; STitle (Some 1) "Date Time (yyyy-mm-ddThh:mm:ss)"; STitle (Some 2) "Wind speed (m/s)";
   SValues ["2025-02-12T00:00:00"; "3.5"]; SValues ["short"]; SValues ["2025-02-12T00:10:00"; "x"]].
Definition ex_file2 : list sirta_line :=
  [STitle (Some 1) "Date Time (yyyy-mm-ddThh:mm:ss)"; STitle (Some 2) "Wind speed (m/s)";
   STitle (Some 3) "Wind direction at 10m (degrees)";
   SValues ["2025-02-13T00:00:00"; "4.5"; "90"]].
(** A column that starts in the second file belongs to the first times. *)
Theorem C66_files_refuted : exists files r time c,
  Forall (fun f => exists t, parse_sirta ex_num ex_id ex_id f = Ok t) files /\
  ex_lim files = Ok r /\ has_column r "time" time /\
  has_column r "Wind direction at 10m (degrees)" c /\ length c = 1 /\ length time = 3.
Proof.
  exists [ex_file1; ex_file2].
  exists [("Wind speed (m/s)", [WNum (Some (35 # 10)%Q); WNum None; WNum (Some (45 # 10)%Q)]);
          ("Wind direction at 10m (degrees)", [WNum (Some (90 # 1)%Q)]);
          ("time", [WTime "2025-02-12T00:00:00"; WTime "2025-02-12T00:10:00"; WTime "2025-02-13T00:00:00"])].
  eexists. eexists.
  assert (ND : NoDup ["Wind speed (m/s)"; "Wind direction at 10m (degrees)"; "time"]).
  { repeat constructor; cbn; intros I; repeat (destruct I as [I|I]; [discriminate I|]); destruct I. }
  split; [repeat constructor; eexists; reflexivity|]. split; [reflexivity|].
  split; [left; split; [right; right; left; reflexivity|exact ND]|].
  split; [left; split; [right; left; reflexivity|exact ND]|]. split; reflexivity.
Qed.
(** A file whose dates end with "Z" can be parsed but not used. *)
Theorem C66_zulu_refuted : exists f t,
  parse_sirta ex_num ex_id ex_id f = Ok t /\ t <> [] /\ ex_lim [f] = Raise KeyError.
Proof.
  exists [STitle (Some 1) "Date Time (yyyy-mm-ddThh:mm:ssZ)"; SValues ["2025-02-12T00:00:00Z"]].
  eexists. split; [reflexivity|]. split; [discriminate|reflexivity].
Qed.
Example C66_nonvacuous :
  parse_sirta ex_num ex_id ex_id ex_file1 =
    Ok [("Date Time (yyyy-mm-ddThh:mm:ss)", [WTime "2025-02-12T00:00:00"; WTime "2025-02-12T00:10:00"]);
        ("Wind speed (m/s)", [WNum (Some (35 # 10)%Q); WNum None])] /\
  (exists r, ex_lim [ex_file1; ex_file1] = Ok r) /\
  parse_sirta ex_num ex_id ex_id [STitle (Some 2) "a"] = Raise ValueError /\
  parse_sirta ex_num ex_id ex_id [STitle (Some 1) "Date Time (yyyy-mm-ddThh:mm:ss)"; SValues ["?"]] = Raise ValueError.
Proof. repeat split; try reflexivity. eexists. reflexivity. Qed.
Print Assumptions C66_file.
Print Assumptions C66_files_partial.
Print Assumptions C66_files_refuted.
Print Assumptions C66_zulu_refuted.

(** ** C67: Kenttärova *)
(** One file with distinct fields and the time in column [p]: a row that does not
    have one value for each field raises TypeError unless its time is unreadable;
    a missing field raises KeyError; otherwise columns before the time have a value
    for every row, the others for the rows with a readable time. *)
Theorem C67_file : forall S to_num (to_stamp : string -> option S) fields rows p,
  NoDup fields -> nth_error fields p = Some "Read time (UTC+2)" ->
  ((exists row, In row rows /\ row <> [] /\ ~ kent_good to_stamp fields p row) ->
     kent_file to_num to_stamp fields rows = Raise TypeError) /\
  ((forall row, In row rows -> row <> [] -> kent_good to_stamp fields p row) ->
   ((exists nk, In nk kent_quantities /\ ~ In (snd nk) fields) -> kent_file to_num to_stamp fields rows = Raise KeyError) /\
   ((forall nk, In nk kent_quantities -> In (snd nk) fields) ->
     exists t, kent_file to_num to_stamp fields rows = Ok t /\
       forall n k i, In (n, k) kent_quantities -> nth_error fields i = Some k ->
         exists c, has_column t n c /\ collects (kent_kept to_num to_stamp p i k) rows c)).
Proof.
  intros S tn ts fields rows p N P. change kent_quantities with kent_keys. split; [apply kent_file_error; assumption|]. intros G.
  destruct (kent_file_spec tn ts fields rows p N P G) as [A B]. split; [exact A|]. intros K.
  destruct (B K) as [t [E [M C]]]. exists t. split; [exact E|]. intros n k i I J.
  exists (col String.eqb t n). split; [|apply (C n k i I J)].
  apply (has_column_iff String.eqb string_spec); [|reflexivity]. rewrite M. cbn.
  repeat constructor; cbn; intros X; repeat (destruct X as [X|X]; [discriminate X|]); destruct X.
Qed.
(** Full statement: every column has as many values as the time.  It holds if the
    time is the first column and the rows have one value for each field. *)
Theorem C67_aligned_partial : forall S to_num (to_stamp : string -> option S) files r n k,
  files <> [] -> kenttarova to_num to_stamp files = Ok r ->
  (forall f, In f files -> NoDup (fst f) /\ nth_error (fst f) 0 = Some "Read time (UTC+2)" /\
     forall row, In row (snd f) -> row = [] \/ length row = length (fst f)) ->
  In (n, k) kent_quantities ->
  let value_in f row x := exists i, nth_error f i = Some k /\ kent_at to_num to_stamp k i row x /\ readable_time to_stamp 0 row in
  let frows := List.concat (map (fun f => map (pair (fst f)) (snd f)) files) in
  exists time c, has_column r "time" time /\ has_column r n c /\
    collects (fun fr x => kent_at to_num to_stamp "Read time (UTC+2)" 0 (snd fr) x) frows time /\
    collects (fun fr x => value_in (fst fr) (snd fr) x) frows c /\
    length c = length time.
Proof.
  intros S tn ts files r n k NE H F I value_in frows. change kent_quantities with kent_keys in I.
  destruct (kenttarova_aligned tn ts files r n k NE H F I) as [A [B C]].
  assert (ND : NoDup (map fst r)) by exact (proj1 (kenttarova_spec tn ts files r NE H)).
  exists (col String.eqb r "time"), (col String.eqb r n).
  split; [apply (has_column_iff String.eqb string_spec); [exact ND|reflexivity]|].
  split; [apply (has_column_iff String.eqb string_spec); [exact ND|reflexivity]|]. auto.
Qed.
Notation ex_kent := (kenttarova ex_num ex_id).
Definition ex_fields : list string :=
  ["Read time (UTC+2)"; "Temp 2m (C)"; "Humidity 2m (%)"; "Pressure (hPa)"; "Wind speed (m/s)"; "Wind dir (deg)"; "Precipitation (?)"].
Definition ex_fields2 : list string :=
  ["Temp 2m (C)"; "Read time (UTC+2)"; "Humidity 2m (%)"; "Pressure (hPa)"; "Wind speed (m/s)"; "Wind dir (deg)"; "Precipitation (?)"].
Theorem C67_aligned_refuted : exists fields rows r time c,
  NoDup fields /\ ex_kent [(fields, rows)] = Ok r /\
  has_column r "time" time /\ has_column r "air_temperature" c /\ length time = 1 /\ length c = 2.
Proof.
  exists ex_fields2, [["1.5"; "00:00"; "2"; "3"; "4"; "5"; "6"]; ["2.5"; "?"; "2"; "3"; "4"; "5"; "6"]].
  eexists. eexists. eexists. split.
  { unfold ex_fields2. repeat constructor; cbn; intros I; repeat (destruct I as [I|I]; [discriminate I|]); destruct I. }
  split; [cbv; reflexivity|].
  assert (ND : NoDup ["time"; "air_temperature"; "relative_humidity"; "air_pressure"; "wind_speed"; "wind_direction"; "rainfall_rate"]).
  { repeat constructor; cbn; intros I; repeat (destruct I as [I|I]; [discriminate I|]); destruct I. }
  split; [left; split; [left; reflexivity|exact ND]|].
  split; [left; split; [right; left; reflexivity|exact ND]|]. split; reflexivity.
Qed.
Example C67_nonvacuous :
  (exists r, ex_kent [(ex_fields, [["00:00"; "1.5"; "2"; "3"; "4"; "5"; "x"]; []; ["?"; "1.5"; "2"; "3"; "4"; "5"; "6"]]);
                      (ex_fields, [["00:10"; "1.5"; "2"; "3"; "4"; "5"; "6"]])] = Ok r /\
     In ("time", [WTime "00:00"; WTime "00:10"]) r /\ In ("rainfall_rate", [WNum None; WNum (Some (6 # 1)%Q)]) r) /\
  kent_file ex_num ex_id ex_fields [["00:00"; "1.5"]] = Raise TypeError /\
  kent_file ex_num ex_id ["Read time (UTC+2)"] [["00:00"]] = Raise KeyError.
Proof.
  split; [|split; reflexivity]. eexists. split; [cbv; reflexivity|]. split; [left; reflexivity|].
  right. right. right. right. right. right. left. reflexivity.
Qed.
Print Assumptions C67_file.
Print Assumptions C67_aligned_partial.
Print Assumptions C67_aligned_refuted.

(** ** C68: TOA5 files *)
(** For a header with distinct names, none of them the name of an array: a line with
    an unreadable time stamp or record number is an error; otherwise there is one row
    for each line, and a plain column has the value of its own line.  An array has
    the elements of all lines. *)
Theorem C68_rows : forall S (to_stamp : string -> option S) to_int header lines,
  NoDup header -> no_clash header ->
  ((exists l, In l lines /\ ~ toa5_readable to_stamp to_int header l) ->
     read_toa5 to_stamp to_int header lines = Raise ValueError) /\
  ((forall l, In l lines -> toa5_readable to_stamp to_int header l) ->
     exists rows heap, read_toa5 to_stamp to_int header lines = Ok (rows, heap) /\ length rows = length lines /\
       forall i line row, nth_error lines i = Some line -> nth_error rows i = Some row ->
         (forall k w, In (k, w) (combine header line) -> plain k ->
            exists v, toa5_meaning to_stamp to_int k w v /\ view heap row k = Some (Scalar v)) /\
         forall name, (exists key, In key header /\ element_of name key) ->
           exists vss, Forall2 (elements to_stamp to_int name header) lines vss /\
             view heap row name = Some (Array (List.concat vss))).
Proof.
  intros S ts ti header lines N C. destruct (read_toa5_spec ex_num ts ts ti header lines N C) as [A B].
  split; [exact B|exact A].
Qed.
(** Full statement: an array has the elements of its own line.  It holds for files
    with a single line of data. *)
Theorem C68_arrays_partial : forall S (to_stamp : string -> option S) to_int header line name,
  NoDup header -> no_clash header -> toa5_readable to_stamp to_int header line ->
  (exists key, In key header /\ element_of name key) ->
  exists row heap vs, read_toa5 to_stamp to_int header [line] = Ok ([row], heap) /\
    elements to_stamp to_int name header line vs /\ view heap row name = Some (Array vs).
Proof.
  intros S ts ti header line name N C R K. destruct (read_toa5_spec ex_num ts ts ti header [line] N C) as [A _].
  destruct A as [rows [heap [E [L V]]]]; [intros l [<-|[]]; exact R|].
  destruct rows as [|row [|row' rows]]; try discriminate L.
  destruct (V 0 line row eq_refl eq_refl) as [_ V2]. destruct (V2 name K) as [vss [F W]].
  inversion F as [|? vs ? ? E1 F1]; subst. inversion F1; subst. cbn in W. rewrite app_nil_r in W.
  exists row, heap, vs. auto.
Qed.
Theorem C68_arrays_refuted : exists header lines rows heap row vs,
  NoDup header /\ no_clash header /\
  read_toa5 ex_id parse_int header lines = Ok (rows, heap) /\ nth_error rows 0 = Some row /\
  elements ex_id parse_int "Raw" header ["t0"; "a"; "b"] vs /\ nth_error lines 0 = Some ["t0"; "a"; "b"] /\
  view heap row "Raw" <> Some (Array vs).
Proof.
  exists ["TIMESTAMP"; "Raw(1)"; "Raw(2)"], [["t0"; "a"; "b"]; ["t1"; "c"; "d"]].
  eexists. eexists. eexists. exists [VText "a"; VText "b"]. split.
  { repeat constructor; cbn; intros I; repeat (destruct I as [I|I]; [discriminate I|]); destruct I. }
  split.
  { intros k key I P J E. apply element_iff in E. destruct E as [E1 E2]. apply plain_iff in P.
    destruct I as [<-|[<-|[<-|[]]]]; try discriminate P.
    destruct J as [<-|[<-|[<-|[]]]]; try discriminate E1; discriminate E2. }
  split; [cbv; reflexivity|]. split; [reflexivity|].
  split; [exact (elem_vals_spec ex_num ex_id ex_id parse_int "Raw" ["TIMESTAMP"; "Raw(1)"; "Raw(2)"] ["t0"; "a"; "b"])|].
  split; [reflexivity|]. cbn. discriminate.
Qed.
Example C68_nonvacuous :
  read_toa5 ex_id parse_int ["TIMESTAMP"; "RECORD"; "T"] [["t0"; "1"; "5.0"]; ["t1"; "2"; "x"]] =
    Ok ([[("TIMESTAMP", TVal (VStamp "t0")); ("RECORD", TVal (VInt 1)); ("T", TVal (VText "5.0"))];
         [("TIMESTAMP", TVal (VStamp "t1")); ("RECORD", TVal (VInt 2)); ("T", TVal (VText "x"))]], []) /\
  read_toa5 ex_id parse_int ["TIMESTAMP"] [["?"]] = Raise ValueError.
Proof. split; reflexivity. Qed.
Print Assumptions C68_rows.
Print Assumptions C68_arrays_partial.
Print Assumptions C68_arrays_refuted.

(** ** C69: wind direction *)
Theorem C69_wrap : wrap_direction None = None /\ forall v, exists w, wrap_direction (Some v) = Some w /\
  ((-(2) < v < 362)%Q -> (0 <= w < 360)%Q /\ (w == v \/ w == v + 360 \/ w == v - 360)%Q) /\
  ((v <= -(2) \/ 362 <= v)%Q -> (w == v)%Q) /\
  ((0 <= v < 360)%Q -> (w == v)%Q).
Proof.
  split; [reflexivity|]. intros v. destruct (wrap_spec v) as [w [E [A [B C]]]]. exists w. split; [exact E|]. split; [|split].
  - intros R. destruct (Qlt_le_dec v 0) as [L|L].
    + assert (w == v + 360)%Q by (apply A; lra). split; [lra|]. right. left. assumption.
    + destruct (Qlt_le_dec v 360) as [M|M].
      * assert (w == v)%Q by (apply C; right; left; lra). split; [lra|]. left. assumption.
      * assert (w == v - 360)%Q by (apply B; lra). split; [lra|]. right. right. assumption.
  - intros [L|L]; apply C; [left; exact L|right; right; exact L].
  - intros R. apply C. right. left. exact R.
Qed.
Example C69_nonvacuous :
  wrap_direction (Some (-(1))%Q) = Some (359 # 1)%Q /\ wrap_direction (Some (361 # 1)%Q) = Some (1 # 1)%Q /\
  wrap_direction (Some (999 # 1)%Q) = Some (999 # 1)%Q.
Proof. repeat split; reflexivity. Qed.
Print Assumptions C69_wrap.

(** ** C70: rainfall amount *)
(** With two or more times the amount at each time is the resolution times the sum of
    the rates so far; it is missing where the rate is missing.  With a single time it
    is zero, also where the rate is missing. *)
Theorem C70_amount : forall resolution rates i x, nth_error rates i = Some x ->
  (length rates = 1 -> nth_error (rainfall_amount resolution rates) i = Some (Some 0%Q)) /\
  (2 <= length rates ->
   match x with
   | None => nth_error (rainfall_amount resolution rates) i = Some None
   | Some _ => exists y, nth_error (rainfall_amount resolution rates) i = Some (Some y) /\
                         (y == resolution * sum_first (i + 1) rates)%Q
   end).
Proof.
  intros res rates i x H. split.
  - intros L. destruct rates as [|a [|b rates]]; try discriminate L. destruct i as [|i]; [reflexivity|].
    destruct i; discriminate H.
  - intros L. exact (rainfall_amount_spec res rates i x L H).
Qed.
(** The amount never decreases if no rate is negative. *)
Theorem C70_monotone : forall resolution rates i j a b, 2 <= length rates -> (0 <= resolution)%Q ->
  (forall x, In (Some x) rates -> (0 <= x)%Q) -> i <= j ->
  nth_error (rainfall_amount resolution rates) i = Some (Some a) ->
  nth_error (rainfall_amount resolution rates) j = Some (Some b) -> (a <= b)%Q.
Proof.
  intros res rates i j a b L R P IJ Ha Hb.
  assert (Len : forall l acc, length (cumsum_masked acc l) = length l).
  { induction l as [|[x|] l IH]; intros acc; cbn; [reflexivity|rewrite IH; reflexivity|rewrite IH; reflexivity]. }
  assert (Ln : length (rainfall_amount res rates) = length rates).
  { destruct rates as [|x [|y rates]]; [reflexivity|reflexivity|]. unfold rainfall_amount. rewrite Len, map_length. reflexivity. }
  assert (V : forall n v, nth_error (rainfall_amount res rates) n = Some (Some v) -> (v == res * sum_first (n + 1) rates)%Q).
  { intros n v H. destruct (nth_error rates n) as [x|] eqn:E.
    - pose proof (rainfall_amount_spec res rates n x L E) as S. destruct x as [x|].
      + destruct S as [y [S1 S2]]. assert (y = v) by congruence. subst y. exact S2.
      + congruence.
    - apply nth_error_None in E. assert (n < length (rainfall_amount res rates)) by (apply nth_error_Some; congruence). lia. }
  rewrite (V i a Ha), (V j b Hb).
  assert (sum_first (i + 1) rates <= sum_first (j + 1) rates)%Q by (apply sum_first_mono; [lia|exact P]).
  rewrite !(Qmult_comm res). apply Qmult_le_compat_r; assumption.
Qed.
Example C70_nonvacuous :
  rainfall_amount 60 [Some 1; None; Some 2; Some 0]%Q = [Some (60 # 1); None; Some (180 # 1); Some (180 # 1)]%Q.
Proof. reflexivity. Qed.
Print Assumptions C70_amount.
Print Assumptions C70_monotone.
