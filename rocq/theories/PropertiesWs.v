(** Properties C152 to C158: the weather stations. *)
From Coq Require Import List Bool Arith ZArith QArith Qround String Ascii Sorted Permutation Lia Lqa.
From Verif Require Import Base TimeModel OutputModel SiteModel ReaderModel TelegramModel StationModel.
From Verif Require Import TimeSpec OutputSpec SiteSpec ReaderSpec StationSpec TelegramSpec CliSpec.
From Verif Require Import TimeProofs OutputProofs SiteProofs ReaderProofs StationProofs TelegramProofs CliProofs.
From Verif Require Import WsModel WsSpec WsProofs.
Import ListNotations.
Open Scope string_scope. Open Scope nat_scope. Open Scope list_scope.
Local Notation length := List.length (only parsing).

(** For the concrete cases: two numbers, the hours of a day as stamps. *)
Definition read_num (w : string) : option (masked Q) :=
  if String.eqb w "1" then Some (Some 1%Q) else if String.eqb w "2.5" then Some (Some (5 # 2)%Q)
  else if String.eqb w "-99.9" then Some (Some (-999 # 10)%Q) else if String.eqb w "nan" then Some None else None.
Definition read_stamp (w : string) : option stamp :=
  if contains "10:00" w then Some (19860, 36000000000)%Z else if contains "11:00" w then Some (19860, 39600000000)%Z else None.
Definition read_int (w : string) : option Z := if String.eqb w "1" then Some 1%Z else if String.eqb w "2" then Some 2%Z else None.

(* ------------------------------------------------------------------ *)
(** ** C152: Palaiseau, Bucharest, Maïdo and Potenza *)

(** The readers with the number of values of a row and the titles. *)
Definition word_readers (to_num : string -> option (masked Q)) (to_stamp : string -> option stamp) :=
  [(palaiseau to_num to_stamp, 7, palaiseau_table); (maido to_num to_stamp, 8, maido_table); (potenza to_num to_stamp, 8, potenza_table)].
Lemma word_reader to_num to_stamp read n table : In (read, n, table) (word_readers to_num to_stamp) ->
  exists ids keys, read = pal_read to_num to_stamp ids keys /\ n = length keys /\ fits_table ids keys table.
Proof.
  intros I. cbn [word_readers In] in I. destruct I as [I|[I|[I|[]]]]; injection I as <- <- <-.
  - exists palaiseau_identifiers, palaiseau_keys. split; [reflexivity|]. split; [reflexivity|exact palaiseau_fits].
  - exists maido_identifiers, maido_keys. split; [reflexivity|]. split; [reflexivity|exact maido_fits].
  - exists potenza_identifiers, potenza_keys. split; [reflexivity|]. split; [reflexivity|exact potenza_fits].
Qed.

(** With the expected titles and readable values the times and columns are those of
    the lines with a stamp and the right number of values, of all files. *)
Theorem C152_rows to_num to_stamp read n table files : In (read, n, table) (word_readers to_num to_stamp) ->
  titles_fit (List.concat files) (map fst table) -> (forall l, In l (List.concat files) -> ~ bad_line to_num to_stamp n l) ->
  exists s rows, read files = Ok s /\ collects (line_row to_num to_stamp n) (List.concat files) rows /\
    s_time s = map fst rows /\ columns_follow table rows (s_cols s).
Proof.
  intros I T B. destruct (word_reader _ _ _ _ _ I) as (ids & keys & -> & -> & F).
  destruct (pal_read_spec to_num to_stamp ids keys table files F) as (H1 & H2 & H3 & H4).
  destruct (pal_read to_num to_stamp ids keys files) as [s|e] eqn:E.
  - destruct (proj1 (H1 s) eq_refl) as (rows & C & Ts & Cs & _). exists s, rows. split; [reflexivity|]. split; [exact C|]. split; [exact Ts|].
    rewrite Cs. apply H2. intros r R. destruct (collects_in _ _ _ _ _ C r R) as (l & _ & X). eapply row_length; exact X.
  - exfalso. assert (e = ValueError) by (apply H4; reflexivity). subst e. destruct (proj1 H3 eq_refl) as [(l & L & X)|X]; [exact (B l L X)|exact (X T)].
Qed.
Print Assumptions C152_rows.

(** All other files are refused. *)
Theorem C152_refused to_num to_stamp read n table files : In (read, n, table) (word_readers to_num to_stamp) ->
  (~ titles_fit (List.concat files) (map fst table) \/ exists l, In l (List.concat files) /\ bad_line to_num to_stamp n l) ->
  read files = Raise ValueError.
Proof.
  intros I H. destruct (word_reader _ _ _ _ _ I) as (ids & keys & -> & -> & F).
  apply (pal_read_spec to_num to_stamp ids keys table files F). destruct H as [H|H]; [right|left]; exact H.
Qed.
Print Assumptions C152_refused.

(** The columns are as long as the times. *)
Theorem C152_aligned to_num to_stamp read n table files s : In (read, n, table) (word_readers to_num to_stamp) ->
  read files = Ok s -> aligned s.
Proof.
  intros I H. destruct (word_reader _ _ _ _ _ I) as (ids & keys & -> & -> & F).
  destruct (pal_read_spec to_num to_stamp ids keys table files F) as (H1 & _). apply H1 in H. destruct H as (rows & _ & T & C & _).
  intros k c K. rewrite C in K. apply pal_columns_in in K. destruct K as (i & _ & _ & ->). rewrite T, !map_length. reflexivity.
Qed.
Print Assumptions C152_aligned.

Definition palaiseau_file : list string :=
  ["# Col. 1 : Date Time (yyyy-mm-ddThh:mm:ssZ)"; "# Col. 2 : Wind speed (m/s)"; "# Col. 3 : Wind direction (deg)";
   "# Col. 4 : Air temperature"; "# Col. 5 : Relative humidity (%)"; "# Col. 6 : Pressure (hPa)"; "# Col. 7 : Precipitation rate (mm/min)";
   "# Col. 8 : 24-hr cumulated precipitation"; "2024-05-17T10:00:00Z 1 2.5 1 1 1 1 nan"; ""; "2024-05-17T10:30:00Z 1 2.5 1"; "2024-05-17T11:00:00Z 2.5 1 1 1 1 1 1"].
Example C152_nonvacuous : palaiseau read_num read_stamp [palaiseau_file] =
  Ok {| s_time := [(19860, 36000000000); (19860, 39600000000)]%Z;
        s_cols := [("wind_speed", [Some 1%Q; Some (5 # 2)%Q]); ("wind_direction", [Some (5 # 2)%Q; Some 1%Q]); ("air_temperature", [Some 1%Q; Some 1%Q]);
                   ("relative_humidity", [Some 1%Q; Some 1%Q]); ("air_pressure", [Some 1%Q; Some 1%Q]); ("rainfall_rate", [Some 1%Q; Some 1%Q]);
                   ("rainfall_amount", [None; Some 1%Q])] |} /\
  palaiseau read_num read_stamp [["2024-05-17T10:00:00Z 1 2.5 1 1 1 1 x"]] = Raise ValueError.
Proof. split; vm_compute; reflexivity. Qed.

(* ------------------------------------------------------------------ *)
(** ** C153: Hyytiälä, Galați and Lampedusa *)

(** Galați: a time and a value of each column for every row; the value is nan if it
    cannot be read; each quantity is under the first of its titles. *)
Theorem C153_galati to_num to_stamp fields rows s : NoDup fields ->
  (galati to_num to_stamp fields rows = Ok s <->
   station_from "TimeStamp" (fun w t => to_stamp w = Some t) (number_or_nan to_num) fields galati_table rows s).
Proof.
  intros N. rewrite (galati_iff to_num to_stamp fields rows s N). unfold station_of, station_from, value_column.
  assert (X : forall w x, x = nan_or to_num w <-> number_or_nan to_num w x) by (intros w x; symmetry; apply number_or_nan_iff).
  split; intros (rs & A & B & C & D & E); exists rs; (split; [exact A|split; [exact B|split; [exact C|split; [exact D|]]]]).
  - eapply forall2_impl; [|exact E]. cbn beta. intros qn qc (F & k & G & H). split; [exact F|]. exists k. split; [exact G|].
    eapply forall2_impl; [|exact H]. cbn beta. intros row x (w & W & Y). exists w. split; [exact W|apply X; exact Y].
  - eapply forall2_impl; [|exact E]. cbn beta. intros qn qc (F & k & G & H). split; [exact F|]. exists k. split; [exact G|].
    eapply forall2_impl; [|exact H]. cbn beta. intros row x (w & W & Y). exists w. split; [exact W|apply X; exact Y].
Qed.
Print Assumptions C153_galati.

(** Otherwise: a row of another length, a time that cannot be read, a missing title. *)
Theorem C153_galati_errors to_num to_stamp fields rows rs e : NoDup fields -> nonblank_rows rows rs ->
  galati to_num to_stamp fields rows = Raise e ->
  (e = TypeError /\ exists row, In row rs /\ length row <> length fields) \/
  (e = ValueError /\ exists row w, In row rs /\ field fields "TimeStamp" row w /\ to_stamp w = None) \/
  (e = KeyError /\ (~ In "TimeStamp" fields \/ exists q names, In (q, names) galati_table /\ forall k, ~ chosen names fields k)).
Proof. apply galati_errors. Qed.
Print Assumptions C153_galati_errors.

(** Lampedusa: the quantities are in fixed columns; null characters around a field are dropped. *)
Theorem C153_lampedusa to_num to_stamp rows s :
  lampedusa to_num to_stamp rows = Ok s <->
  exists rs, nonblank_rows rows rs /\ (forall row, In row rs -> length row = 14) /\
    Forall2 (fun row t => exists w u, nth_error row 0 = Some w /\ without_nul w u /\ to_stamp u = Some t) rs (s_time s) /\
    Forall2 (fun qi qc => fst qi = fst qc /\
      Forall2 (fun row x => exists w u, nth_error row (snd qi) = Some w /\ without_nul w u /\ number_or_nan to_num u x) rs (snd qc))
      lampedusa_table (s_cols s).
Proof.
  rewrite lampedusa_iff. unfold station_of, value_column.
  assert (FI : forall i k row w, nth_error lampedusa_fields i = Some k -> (field lampedusa_fields k row w <-> nth_error row i = Some w)).
  { intros i k row w K. unfold field. split; [|eauto]. intros (j & J & W). assert (j = i); [|congruence].
    eapply (proj1 (NoDup_nth_error lampedusa_fields) lampedusa_nodup); [apply nth_error_Some; congruence|congruence]. }
  assert (NN : forall w x, x = lamp_num to_num w <-> exists u, without_nul w u /\ number_or_nan to_num u x).
  { intros w x. unfold lamp_num. split.
    - intros ->. exists (strip_nul w). split; [apply strip_nul_iff; reflexivity|apply number_or_nan_iff; reflexivity].
    - intros (u & U & V). apply strip_nul_iff in U. subst u. apply number_or_nan_iff. exact V. }
  assert (CV : forall w t, lamp_conv to_stamp w = Some t <-> exists u, without_nul w u /\ to_stamp u = Some t).
  { intros w t. unfold lamp_conv. split.
    - intros H. exists (strip_nul w). split; [apply strip_nul_iff; reflexivity|exact H].
    - intros (u & U & V). apply strip_nul_iff in U. subst u. exact V. }
  assert (CK : forall rs cols, Forall2 (fun qn qc => fst qn = fst qc /\ exists k, chosen (snd qn) lampedusa_fields k /\
      Forall2 (fun row x => exists w, field lampedusa_fields k row w /\ x = lamp_num to_num w) rs (snd qc)) lampedusa_keys cols <->
    Forall2 (fun qi qc => fst qi = fst qc /\
      Forall2 (fun row x => exists w u, nth_error row (snd qi) = Some w /\ without_nul w u /\ number_or_nan to_num u x) rs (snd qc)) lampedusa_table cols).
  { intros rs cols.
    assert (P : Forall2 (fun (qn : string * list string) (qi : string * nat) => fst qn = fst qi /\ exists k, snd qn = [k] /\ nth_error lampedusa_fields (snd qi) = Some k) lampedusa_keys lampedusa_table)
      by (repeat constructor; eexists; split; reflexivity).
    assert (RR : forall i k (col : list (masked Q)), nth_error lampedusa_fields i = Some k ->
      (Forall2 (fun row x => exists w, field lampedusa_fields k row w /\ x = lamp_num to_num w) rs col <->
       Forall2 (fun row x => exists w u, nth_error row i = Some w /\ without_nul w u /\ number_or_nan to_num u x) rs col)).
    { intros i k col K. split; intros F; (eapply forall2_impl; [|exact F]); cbn beta.
      - intros row x (w & W & X). apply (FI i k row w K) in W. apply NN in X. destruct X as (u & U & V). exists w, u. auto.
      - intros row x (w & u & W & U & V). exists w. split; [apply (FI i k row w K); exact W|]. apply NN. eauto. }
    clear -P RR. revert cols. induction P as [|[q names] [q' i] ks ts (A & k & B & C) P IH]; intros cols; [split; intros H; inversion H; constructor|].
    cbn [fst snd] in *. subst q' names. split; intros H; inversion H as [|? [q2 c] ? cols' (X & Y) Z]; subst; cbn [fst snd] in *; (constructor; [|apply IH; exact Z]); cbn [fst snd]; (split; [exact X|]).
    - destruct Y as (k' & Ck & F). apply chosen_one in Ck. destruct Ck as [-> _]. apply (RR i k c C). exact F.
    - exists k. split; [|apply (RR i k c C); exact Y]. apply chosen_one. split; [reflexivity|]. eapply nth_error_In; exact C. }
  split; intros (rs & A & B).
  - destruct B as (_ & L & T & C). exists rs. split; [exact A|]. split; [exact L|]. split; [|apply CK; exact C].
    eapply forall2_impl; [|exact T]. cbn beta. intros row t (w & W & V). apply (FI 0 "time" row w eq_refl) in W. apply CV in V. destruct V as (u & U & V). exists w, u. auto.
  - destruct B as (L & T & C). exists rs. split; [exact A|]. split; [left; reflexivity|]. split; [exact L|]. split; [|apply CK; exact C].
    eapply forall2_impl; [|exact T]. cbn beta. intros row t (w & u & W & U & V). exists w. split; [apply (FI 0 "time" row w eq_refl); exact W|]. apply CV. eauto.
Qed.
Print Assumptions C153_lampedusa.

Theorem C153_lampedusa_errors to_num to_stamp rows rs e : nonblank_rows rows rs -> lampedusa to_num to_stamp rows = Raise e ->
  (e = AttributeError /\ exists row, In row rs /\ length row <> 14) \/
  (e = ValueError /\ exists row w u, In row rs /\ nth_error row 0 = Some w /\ without_nul w u /\ to_stamp u = None).
Proof.
  intros K H. destruct (lampedusa_errors to_num to_stamp rows rs e K H) as [X|(X & row & w & I & F & C)]; [left; exact X|]. right. split; [exact X|].
  exists row, w, (strip_nul w). split; [exact I|]. split; [|split; [apply strip_nul_iff; reflexivity|exact C]].
  destruct F as (i & A & B). destruct i as [|i]; [exact B|]. exfalso. do 14 (destruct i as [|i]; [discriminate|]). destruct i; discriminate.
Qed.
Print Assumptions C153_lampedusa_errors.

(** Hyytiälä: the time from year, month, day and minute; two codes of missing values;
    values that are missing or cannot be read are nan. *)
Theorem C153_hyytiala to_num to_int date_of fields rows s : NoDup fields -> ~ In "" fields -> ~ In "time" fields -> In "y" fields ->
  (hyytiala to_num to_int date_of fields rows = Ok s <->
   exists rs, nonblank_rows rows rs /\ Forall2 (hy_time to_int date_of fields) rs (s_time s) /\
     Forall2 (fun qt qc => fst qt = fst qc /\ In (snd qt) fields /\ Forall2 (hy_value to_num fields (snd qt)) rs (snd qc)) hy_table (s_cols s)).
Proof. intros N NE NT Y. apply hyytiala_iff; assumption. Qed.
Print Assumptions C153_hyytiala.

Definition galati_fields := ["TimeStamp"; "Temperatura"; "RH"; "Atmospheric_pressure"; "Precipitatii_Tot"; "Wind_speed"; "Directie_vant"; "Visibility"; "Precipitatii"].
Definition hy_fields := ["y"; "m"; "d"; "minute"; "Ta/dsC"; "RH/pcnt"; "Pa/kPa"; "WS/(m/s)"; "WD/ds"; "AaNRT/mm"].
Definition one_date (y m d : Z) : option Z := if (y =? 1)%Z then Some (19860 + d)%Z else None.
Example C153_nonvacuous :
  galati read_num read_stamp galati_fields [["10:00"; "1"; "x"; "2.5"; "1"; "1"; "1"; "1"; "2.5"]; []] =
    Ok {| s_time := [(19860, 36000000000)%Z]; s_cols := [("air_temperature", [Some 1%Q]); ("relative_humidity", [None]); ("air_pressure", [Some (5 # 2)%Q]);
          ("rainfall_rate", [Some (5 # 2)%Q]); ("wind_speed", [Some 1%Q]); ("wind_direction", [Some 1%Q]); ("visibility", [Some 1%Q])] |} /\
  galati read_num read_stamp galati_fields [["10:00"; "1"; "x"]] = Raise TypeError /\
  lampedusa read_num read_stamp [["10:00"; ""; ""; "1"; "2.5"; ""; String Ascii.zero "1"; "1"; "1"; ""; ""; "nan"; ""; ""]] =
    Ok {| s_time := [(19860, 36000000000)%Z]; s_cols := [("air_temperature", [Some 1%Q]); ("relative_humidity", [Some (5 # 2)%Q]); ("air_pressure", [Some 1%Q]);
          ("wind_speed", [Some 1%Q]); ("wind_direction", [Some 1%Q]); ("rainfall_rate", [None])] |} /\
  hyytiala read_num read_int one_date hy_fields [["1"; "1"; "2"; "2"; "1"; "-99.9"; "2.5"; "x"; "1"]] =
    Ok {| s_time := [(19862, 120000000)%Z]; s_cols := [("air_temperature", [Some 1%Q]); ("relative_humidity", [None]); ("air_pressure", [Some (5 # 2)%Q]);
          ("wind_speed", [None]); ("wind_direction", [Some 1%Q]); ("rainfall_rate", [None])] |}.
Proof. repeat split; vm_compute; reflexivity. Qed.

(* ------------------------------------------------------------------ *)
(** ** C154: Granada, Jülich and Falkenberg *)

Definition toa5_readers (to_num : string -> option (masked Q)) (to_stamp : string -> option stamp) (to_int : string -> option Z) :=
  [(granada to_num to_stamp to_int, false, granada_table); (juelich to_num to_stamp to_int, true, juelich_table); (falkenberg to_num to_stamp to_int, false, falkenberg_table)].
Lemma toa5_reader to_num to_stamp to_int read strict table : In (read, strict, table) (toa5_readers to_num to_stamp to_int) ->
  read = toa5_station to_num to_stamp to_int strict (keymap_of table) (units_of table) /\
  NoDup ("TIMESTAMP" :: "RECORD" :: map (fun kqu => fst (fst kqu)) table) /\ NoDup ("time" :: map (fun kqu => snd (fst kqu)) table).
Proof.
  intros I. cbn [toa5_readers In] in I. destruct I as [I|[I|[I|[]]]]; injection I as <- <- <-; (split; [reflexivity|]).
  - exact granada_table_ok.
  - exact juelich_table_ok.
  - exact falkenberg_table_ok.
Qed.

(** With the expected units the times and columns are those of the rows; only at Jülich
    a value that cannot be read is refused. *)
Theorem C154_rows to_num to_stamp to_int read strict table header units lines : In (read, strict, table) (toa5_readers to_num to_stamp to_int) ->
  NoDup header -> (forall k, In k header -> plain k) -> length units = length header -> In "TIMESTAMP" header ->
  (forall l, In l lines -> length header <= length l) ->
  ~ wrong_unit table header units ->
  (forall l, In l lines -> row_readable to_stamp to_int header l /\ (strict = true -> ~ value_unreadable to_num table header l)) ->
  exists s, read header units lines = Ok s /\
    Forall2 (fun line t => exists w, field header "TIMESTAMP" line w /\ to_stamp w = Some t) lines (s_time s) /\
    table_columns to_num table header lines (s_cols s).
Proof.
  intros I N P LU T L U G. destruct (toa5_reader _ _ _ _ _ _ I) as (-> & T1 & T2).
  destruct (toa5_station_spec to_num to_stamp to_int strict table T1 T2 header units N P LU lines T L) as [_ H]. exact (H U G).
Qed.
Print Assumptions C154_rows.

Theorem C154_refused to_num to_stamp to_int read strict table header units lines : In (read, strict, table) (toa5_readers to_num to_stamp to_int) ->
  NoDup header -> (forall k, In k header -> plain k) -> length units = length header -> In "TIMESTAMP" header ->
  (forall l, In l lines -> length header <= length l) ->
  (wrong_unit table header units \/
   exists l, In l lines /\ (~ row_readable to_stamp to_int header l \/ (strict = true /\ value_unreadable to_num table header l))) ->
  read header units lines = Raise ValueError.
Proof.
  intros I N P LU T L H. destruct (toa5_reader _ _ _ _ _ _ I) as (-> & T1 & T2).
  destruct (toa5_station_spec to_num to_stamp to_int strict table T1 T2 header units N P LU lines T L) as [X _]. exact (X H).
Qed.
Print Assumptions C154_refused.

(** A row without its last fields is not refused; its column is then too short, and
    the values of later rows move to earlier times. *)
Theorem C154_short_row_refuted : exists to_num to_stamp to_int header units lines s,
  granada to_num to_stamp to_int header units lines = Ok s /\ ~ aligned s.
Proof.
  exists read_num, read_stamp, read_int, ["TIMESTAMP"; "air_t_Avg"], ["TS"; "degC"], [["10:00"]; ["11:00"; "1"]].
  eexists. split; [vm_compute; reflexivity|]. intros A. specialize (A "air_temperature" [Some 1%Q] (or_introl eq_refl)). discriminate.
Qed.
Print Assumptions C154_short_row_refuted.

Example C154_nonvacuous :
  granada read_num read_stamp read_int ["TIMESTAMP"; "RECORD"; "air_t_Avg"; "other"; "rain_Tot"] ["TS"; "RN"; "degC"; "W"; "mm"]
    [["10:00"; "1"; "2.5"; "9"; "1"]; ["11:00"; "2"; "NAN?"; "9"; "1"]] =
    Ok {| s_time := [(19860, 36000000000); (19860, 39600000000)]%Z; s_cols := [("air_temperature", [Some (5 # 2)%Q; None]); ("rainfall_rate", [Some 1%Q; Some 1%Q])] |} /\
  granada read_num read_stamp read_int ["TIMESTAMP"; "air_t_Avg"] ["TS"; "K"] [["10:00"; "1"]] = Raise ValueError /\
  juelich read_num read_stamp read_int ["TIMESTAMP"; "RH"] ["TS"; "%"] [["10:00"; "?"]] = Raise ValueError /\
  falkenberg read_num read_stamp read_int ["TIMESTAMP"; "WS500_wind_speed_avg"] ["TS"; "m s-1"] [["10:00"; "?"]] =
    Ok {| s_time := [(19860, 36000000000)%Z]; s_cols := [("wind_speed", [None])] |}.
Proof. repeat split; vm_compute; reflexivity. Qed.

(* ------------------------------------------------------------------ *)
(** ** C155: L'Aquila *)

(** The rows of all files, each time once (the first row with it), in order of time. *)
Theorem C155_rows to_num to_stamp files : (forall w t, to_stamp w = Some t -> proper t) ->
  (forall l, In l (List.concat files) -> ~ bad_comma to_num to_stamp l) ->
  exists s rows ind cols, laquila to_num to_stamp files = Ok s /\ collects (comma_row to_num to_stamp) (List.concat files) rows /\
    (forall i, In i ind <-> first_stamp (map fst rows) i) /\ picks (map fst rows) ind (s_time s) /\ StronglySorted earlier (s_time s) /\
    columns_follow laquila_table rows cols /\ picked_all ind cols (s_cols s).
Proof. intros P. apply (laquila_spec to_num to_stamp P files). Qed.
Print Assumptions C155_rows.

Theorem C155_refused to_num to_stamp files :
  (forall w t, to_stamp w = Some t -> proper t) ->
  (exists l, In l (List.concat files) /\ bad_comma to_num to_stamp l) -> laquila to_num to_stamp files = Raise ValueError.
Proof. intros P. apply (laquila_spec to_num to_stamp P files). Qed.
Print Assumptions C155_refused.

Example C155_nonvacuous :
  laquila read_num read_stamp [["# x"; "11:00,1,1,1,1,1,1"; "10:00,2.5, ,1,1,1,1"]; ["short,1"; "11:00,2.5,1,1,1,1,1"]] =
    Ok {| s_time := [(19860, 36000000000); (19860, 39600000000)]%Z;
          s_cols := [("air_temperature", [Some (5 # 2)%Q; Some 1%Q]); ("air_pressure", [None; Some 1%Q]); ("relative_humidity", [Some 1%Q; Some 1%Q]);
                     ("rainfall_rate", [Some 1%Q; Some 1%Q]); ("wind_speed", [Some 1%Q; Some 1%Q]); ("wind_direction", [Some 1%Q; Some 1%Q])] |} /\
  (forall w t, read_stamp w = Some t -> proper t) /\
  laquila read_num read_stamp [["11:00,1,x,1,1,1,1"]] = Raise ValueError.
Proof.
  split; [vm_compute; reflexivity|]. split; [|vm_compute; reflexivity]. intros w t. unfold read_stamp.
  destruct (contains "10:00" w); [intros H; injection H as <-; split; reflexivity || discriminate|].
  destruct (contains "11:00" w); [intros H; injection H as <-; split; reflexivity || discriminate|discriminate].
Qed.

(* ------------------------------------------------------------------ *)
(** ** C156: Cluj-Napoca *)

(** A file is read exactly if each line has a field for every title, and readable values
    under the titles used; the times and columns are those. *)
Theorem C156_rows to_num to_stamp first rest headers s : tab_fields first headers -> NoDup headers ->
  (cluj to_num to_stamp (first :: rest) = Ok s <->
   (forall l ws, In l rest -> tab_fields l ws -> length ws = length headers) /\ In "DateTime" headers /\
   Forall2 (fun l t => exists w, tab_value headers "DateTime" l w /\ to_stamp w = Some t) rest (s_time s) /\
   Forall2 (fun qh qc => fst qh = fst qc /\ In (snd qh) headers /\
     Forall2 (fun l x => exists w, tab_value headers (snd qh) l w /\ plain_value to_num w x) rest (snd qc)) cluj_table (s_cols s)).
Proof. apply cluj_iff. Qed.
Print Assumptions C156_rows.

Definition tabs (ws : list string) : string := String.concat (String tab "") ws.
Definition cluj_titles := ["DateTime"; "Air_temperature_C"; "air_pressure_hPA"; "rel_humidity_pct"; "Precipitation_mm"; "WS_azimuth_ms"; "WD_azimuth_deg"].
(** An empty value is a missing value unless it is the last one of its line: then the
    whole file is refused. *)
Theorem C156_missing_last_refuted : exists to_num to_stamp s,
  cluj to_num to_stamp [tabs cluj_titles; tabs ["10:00"; ""; "1"; "1"; "1"; "1"; "1"]] = Ok s /\
  cluj to_num to_stamp [tabs cluj_titles; tabs ["10:00"; "1"; "1"; "1"; "1"; "1"; ""]] = Raise ValueError.
Proof. exists read_num, read_stamp. eexists. split; vm_compute; reflexivity. Qed.
Print Assumptions C156_missing_last_refuted.

Example C156_nonvacuous :
  cluj read_num read_stamp [tabs cluj_titles; tabs ["10:00"; "1"; "2.5"; "1"; ""; "1"; "1"]] =
    Ok {| s_time := [(19860, 36000000000)%Z];
          s_cols := [("air_temperature", [Some 1%Q]); ("air_pressure", [Some (5 # 2)%Q]); ("relative_humidity", [Some 1%Q]);
                     ("rainfall_rate", [None]); ("wind_speed", [Some 1%Q]); ("wind_direction", [Some 1%Q])] |} /\
  tab_fields (tabs cluj_titles) cluj_titles /\ NoDup cluj_titles.
Proof.
  split; [vm_compute; reflexivity|]. split; [apply tab_fields_iff; vm_compute; reflexivity|].
  repeat (constructor; [cbn; intros X; repeat destruct X as [X|X]; discriminate || exact X|]). constructor.
Qed.

(* ------------------------------------------------------------------ *)
(** ** C157: the output for a day *)

(** With a date, columns as long as the times and times in whole seconds: exactly the
    rows of that day, the first of those with the same time, in order, in SI units. *)
Theorem C157_day day0 s d data cols : aligned data -> NoDup (map fst (s_cols data)) -> (forall t, In t (s_time data) -> whole_second t) ->
  site_columns day0 s d (s_cols data) cols -> (forall k c, In (k, c) cols -> length c = length (s_time data)) ->
  (exists t, In t (s_time data) /\ fst t = d) -> (forall q, needed s q -> In q (map fst cols)) ->
  exists o ind, process day0 s (Some d) data = Ok o /\ o_day o = d /\ day_rows (s_time data) d ind /\ strictly_increasing (o_hours o) /\
    rows_written s data ind cols o.
Proof. intros A N W S L T R. apply (proj2 (process_spec day0 s d data cols A N W S L) T). exact R. Qed.
Print Assumptions C157_day.

(** No row of the day. *)
Theorem C157_no_day day0 s d data : aligned data -> (forall t, In t (s_time data) -> fst t <> d) ->
  process day0 s (Some d) data = Raise ValidTimeStampError.
Proof.
  intros A H. rewrite process_eq by exact A. destruct (existsb (fun b => b) (mask_of d (s_time data))) eqn:E; [|reflexivity].
  exfalso. apply existsb_exists in E. destruct E as (b & I & ->). unfold mask_of in I. apply in_map_iff in I. destruct I as (t & D & I). apply Z.eqb_eq in D. exact (H t I D).
Qed.
Print Assumptions C157_no_day.

(** A quantity that the conversion needs is missing. *)
Theorem C157_missing day0 s d data cols : aligned data -> NoDup (map fst (s_cols data)) -> (forall t, In t (s_time data) -> whole_second t) ->
  site_columns day0 s d (s_cols data) cols -> (forall k c, In (k, c) cols -> length c = length (s_time data)) ->
  (exists t, In t (s_time data) /\ fst t = d) -> (exists q, needed s q /\ ~ In q (map fst cols)) ->
  process day0 s (Some d) data = Raise KeyError.
Proof. intros A N W S L T R. apply (proj2 (process_spec day0 s d data cols A N W S L) T). exact R. Qed.
Print Assumptions C157_missing.

(** Without a date a row of a later day at the same hour is lost. *)
Theorem C157_no_date_refuted : exists data o, process 0 Granada None data = Ok o /\ aligned data /\
  In (2, 3600000000)%Z (s_time data) /\ In (1, 3600000000)%Z (s_time data) /\ length (o_hours o) = 1.
Proof.
  exists {| s_time := [(1, 3600000000); (2, 3600000000)]%Z; s_cols := [("air_temperature", [Some 1; Some 2]%Q); ("relative_humidity", [Some 50; Some 60]%Q)] |}.
  eexists. split; [vm_compute; reflexivity|]. split; [|cbn; auto]. intros k c [I|[I|[]]]; injection I as <- <-; reflexivity.
Qed.
Print Assumptions C157_no_date_refuted.

(** Times that differ by less than a second are merged, although Galați writes fractions. *)
Theorem C157_fraction_refuted : exists data o, process 0 Galati (Some 1%Z) data = Ok o /\ aligned data /\
  In (1, 1500000)%Z (s_time data) /\ In (1, 1000000)%Z (s_time data) /\ length (o_hours o) = 1.
Proof.
  exists {| s_time := [(1, 1000000); (1, 1500000)]%Z;
            s_cols := [("air_temperature", [Some 1; Some 2]%Q); ("relative_humidity", [Some 50; Some 60]%Q); ("air_pressure", [Some 1; Some 1]%Q)] |}.
  eexists. split; [vm_compute; reflexivity|]. split; [|cbn; auto]. intros k c [I|[I|[I|[]]]]; injection I as <- <-; reflexivity.
Qed.
Print Assumptions C157_fraction_refuted.

(** Limassol: a column that the file lacks is no error; it is written with no values. *)
Theorem C157_limassol_refuted : exists data o, process 0 Limassol (Some 1%Z) data = Ok o /\ aligned data /\
  In ("air_temperature", []) (o_cols o) /\ length (o_hours o) = 1.
Proof.
  exists {| s_time := [(1, 3600000000)%Z]; s_cols := [("Relative humidity (%)", [Some 50%Q]); ("Total precipitation (mm)", [Some 0%Q])] |}.
  eexists. split; [vm_compute; reflexivity|]. split; [|cbn; auto]. intros k c [I|[I|[]]]; injection I as <- <-; reflexivity.
Qed.
Print Assumptions C157_limassol_refuted.

Definition galati_data : station :=
  {| s_time := [(2, 7200000000); (1, 7200000000); (1, 3600000000); (1, 7200000000)]%Z;
     s_cols := [("air_temperature", [Some 9; Some 10; None; Some 12]%Q); ("relative_humidity", [Some 50; Some 60; Some 70; Some 80]%Q);
                ("air_pressure", [Some 750; Some 750; Some 751; Some 752]%Q); ("wind_speed", [Some 1; Some 1; Some 1; Some 1]%Q);
                ("visibility", [Some (5 # 2); Some (7 # 2); Some (-3 # 2); None]%Q)] |}.
Definition galati_out : list (string * list (masked Q)) :=
  [("air_temperature", [Some 9; Some 10; None; Some 12]%Q); ("relative_humidity", [Some 50; Some 60; Some 70; Some 80]%Q);
   ("air_pressure", [Some 750; Some 750; Some 751; Some 752]%Q); ("visibility", [Some 2; Some 3; Some (-1); None]%Q)].
Example C157_nonvacuous : aligned galati_data /\ NoDup (map fst (s_cols galati_data)) /\ (forall t, In t (s_time galati_data) -> whole_second t) /\
  site_columns 5 Galati 1 (s_cols galati_data) galati_out /\ (forall q, needed Galati q -> In q (map fst galati_out)) /\
  (forall k c, In (k, c) galati_out -> length c = length (s_time galati_data)) /\
  (exists o, process 5 Galati (Some 1%Z) galati_data = Ok o /\ map Qred (o_hours o) = [1; 2]%Q /\ map fst (o_cols o) = map fst galati_out) /\
  process 5 Galati (Some 3%Z) galati_data = Raise ValidTimeStampError /\
  process 5 Hyytiala (Some 1%Z) {| s_time := [(1, 0)%Z]; s_cols := [("air_temperature", [Some 1%Q])] |} = Raise KeyError.
Proof.
  split; [intros k c I; cbn in I; repeat (destruct I as [I|I]; [injection I as <- <-; reflexivity|]); destruct I|].
  split; [repeat (constructor; [cbn; intros X; repeat destruct X as [X|X]; discriminate || exact X|]); constructor|].
  split; [intros t I; cbn in I; repeat (destruct I as [I|I]; [subst t; first [exists 7200%Z; reflexivity|exists 3600%Z; reflexivity]|]); destruct I|].
  split; [apply galati_add_iff; vm_compute; reflexivity|].
  split; [intros q H; apply required_iff in H; cbn in *; repeat (destruct H as [<-|H]; [auto|]); destruct H|].
  split; [intros k c I; cbn in I; repeat (destruct I as [I|I]; [injection I as <- <-; reflexivity|]); destruct I|].
  split; [eexists; split; [vm_compute; reflexivity|split; vm_compute; reflexivity]|]. split; vm_compute; reflexivity.
Qed.

(* ------------------------------------------------------------------ *)
(** ** C158: the site and its files *)

(** The names of the sites; all other names are refused. *)
Theorem C158_sites name s : site_of name = Some s <->
  In (name, s) [("Palaiseau", Palaiseau); ("Bucharest", Bucharest); ("Granada", Granada); ("Kenttärova", Kenttarova); ("Hyytiälä", Hyytiala);
    ("Galați", Galati); ("Jülich", Juelich); ("Lampedusa", Lampedusa); ("Limassol", Limassol); ("L'Aquila", LAquila);
    ("Maïdo Observatory", Maido); ("Cluj-Napoca", Cluj); ("Falkenberg", Falkenberg); ("Potenza", Potenza)].
Proof.
  unfold site_of. apply get_in. repeat (constructor; [cbn; intros X; repeat destruct X as [X|X]; discriminate || exact X|]). constructor.
Qed.
Print Assumptions C158_sites.

(** Granada and Falkenberg take exactly one file. *)
Theorem C158_one_file {F} (read : F -> result station) files : length files <> 1 -> only_file read files = Raise ValueError.
Proof. destruct files as [|f [|g files]]; intros H; [reflexivity|contradiction|reflexivity]. Qed.
Print Assumptions C158_one_file.

(** Hyytiälä, Galați, Jülich, Lampedusa and Cluj-Napoca read only the first file, without
    a word about the others. *)
Theorem C158_files_refuted : exists (files : list (list string)) s,
  first_file (cluj read_num read_stamp) files = Ok s /\ length files = 2 /\
  forall second, first_file (cluj read_num read_stamp) (firstn 1 files ++ [second]) = Ok s.
Proof.
  exists [[tabs cluj_titles; tabs ["10:00"; "1"; "1"; "1"; "1"; "1"; "1"]]; [tabs cluj_titles; tabs ["11:00"; "1"; "1"; "1"; "1"; "1"; "1"]]].
  eexists. split; [vm_compute; reflexivity|]. split; [reflexivity|]. intros second. vm_compute. reflexivity.
Qed.
Print Assumptions C158_files_refuted.

Example C158_nonvacuous : site_of "Cluj-Napoca" = Some Cluj /\ site_of "Nowhere" = None /\
  only_file (fun _ : nat => Ok {| s_time := []; s_cols := [] |}) [1; 2] = Raise ValueError /\ first_file (fun _ : nat => Raise OSError) [] = Raise IndexError.
Proof. repeat split; reflexivity. Qed.
