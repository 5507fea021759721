(** Vocabulary for the Parsivel reader of level 1b files. *)
From Verif Require Import Base OutputModel OutputSpec SiteModel SiteSpec ReaderModel ReaderSpec StationModel TelegramModel.
Local Open Scope string_scope.
Local Open Scope nat_scope.
Local Notation length := List.length (only parsing).

(** [t] is [s] without the ending [e], if it has this ending. *)
Definition without_ending (e s t : string) : Prop :=
  s = t ++ e \/ (s = t /\ ~ exists u, s = u ++ e).
(** [w] consists of the characters [a], ..., [a + n - 1] of [s], as far as they exist. *)
Definition piece (s : string) (a n : nat) (w : string) : Prop :=
  forall i, String.get i w = if i <? n then String.get (a + i) s else None.
Definition starts_with (p s : string) : Prop := exists r, s = p ++ r.
(** The text [p] occurs in [s]. *)
Definition occurs (p s : string) : Prop := exists a b, s = a ++ p ++ b.
(** A table of 32 times 32 values. *)
Definition square {A} (m : list (list A)) : Prop := length m = 32 /\ Forall (fun r => length r = 32) m.

(** ** Values *)
Definition whole_name (h : string) : Prop :=
  In h ["T_sensor"; "_T_pcb"; "_T_right"; "_T_left"; "error_code"; "interval"; "n_particles";
        "sig_laser"; "state_sensor"; "synop_WaWa"; "synop_WW"; "visibility"].
Definition decimal_name (h : string) : Prop :=
  In h ["I_heating"; "V_power_supply"; "_rain_accum"; "_rain_amount_absolute"; "kinetic_energy";
        "radar_reflectivity"; "rainfall_rate"; "snowfall_rate"].
Definition vector_name (h : string) : Prop := h = "fall_velocity" \/ h = "number_concentration".
Definition text_name (h : string) : Prop :=
  ~ whole_name h /\ ~ decimal_name h /\ ~ vector_name h /\
  h <> "_date" /\ h <> "_time" /\ h <> "_datetime" /\ h <> "spectrum".

(** The quantities of the telegram and their numbers in the manual of the instrument. *)
Definition quantities : list (string * list Z) :=
  [("rainfall_rate", [1; 30; 31]); ("_rain_accum", [2; 32]); ("radar_reflectivity", [7; 33]);
   ("synop_WaWa", [3]); ("synop_WW", [4]); ("_metar_speci", [5]); ("_nws", [6]);
   ("visibility", [8]); ("interval", [9]); ("sig_laser", [10]); ("n_particles", [11]);
   ("T_sensor", [12]); ("_T_pcb", [26]); ("_T_right", [27]); ("_T_left", [28]);
   ("_sensor_id", [13]); ("_iop_firmware_version", [14]); ("_dsp_firmware_version", [15]);
   ("I_heating", [16]); ("V_power_supply", [17]); ("state_sensor", [18]); ("error_code", [25]);
   ("_datetime", [19]); ("_time", [20]); ("_date", [21]);
   ("_station_name", [22]); ("_station_number", [23]); ("_rain_amount_absolute", [24]);
   ("kinetic_energy", [34]); ("snowfall_rate", [35]);
   ("number_concentration", [90]); ("fall_velocity", [91]); ("spectrum", [93])]%Z.
(** The titles of the quantities in files with a header line. *)
Definition header_titles : list (string * string) :=
  [("_date", "Date"); ("_time", "Time"); ("spectrum", "Spectrum");
   ("rainfall_rate", "Intensity of precipitation (mm/h)"); ("snowfall_rate", "Snow intensity (mm/h)");
   ("_rain_accum", "Precipitation since start (mm)"); ("radar_reflectivity", "Radar reflectivity (dBz)");
   ("visibility", "MOR Visibility (m)"); ("kinetic_energy", "Kinetic Energy");
   ("n_particles", "Number of detected particles"); ("sig_laser", "Signal amplitude of Laserband");
   ("T_sensor", "Temperature in sensor (" ++ String (ascii_of_nat 176) "C)"); ("I_heating", "Heating current (A)");
   ("V_power_supply", "Sensor voltage (V)"); ("state_sensor", "Optics status");
   ("synop_WaWa", "Weather code SYNOP WaWa"); ("_metar", "Weather code METAR/SPECI"); ("_nws", "Weather code NWS")].

Section Values.
Context {D T : Type} (to_int : string -> option Z) (to_float : string -> option Q)
  (mk_date : Z -> Z -> Z -> option D) (mk_time : Z -> Z -> Z -> option T).
Notation cell := (@cell D T).
(** Three numbers. *)
Definition made {A} (mk : Z -> Z -> Z -> option A) (a b c : string) (x : A) : Prop :=
  exists i j k, to_int a = Some i /\ to_int b = Some j /\ to_int c = Some k /\ mk i j k = Some x.
(** Year/month/day or day.month.year with a year of four characters. *)
Definition date_token (w : string) (x : D) : Prop :=
  exists y m d, String.length y = 4 /\ made mk_date y m d x /\
    (separated "/" w [y; m; d] \/ (without "/" w /\ separated "." w [d; m; y])).
Definition time_token (w : string) (x : T) : Prop :=
  exists h m s, separated ":" w [h; m; s] /\ made mk_time h m s x.
Definition stamp_token (w : string) (x : D * T) : Prop :=
  exists y mo d h mi s, piece w 0 4 y /\ piece w 4 2 mo /\ piece w 6 2 d /\
    piece w 8 2 h /\ piece w 10 2 mi /\ piece w 12 2 s /\
    made mk_date y mo d (fst x) /\ made mk_time h mi s (snd x).
Definition decimal_token (w : string) (q : Q) : Prop := to_float (replace_char "," "." w) = Some q.
(** The four ways to write a spectrum. *)
Inductive spectrum_fields : list string -> list (list Z) -> Prop :=
| sf_zero : forall m, square m -> (forall r z, In r m -> In z r -> z = 0%Z) ->
    spectrum_fields ["<SPECTRUM>ZERO</SPECTRUM>"] m
| sf_tags : forall w ws m, w <> "ZERO</SPECTRUM>" -> length ws = 1023 -> square m ->
    Forall2 (fun x z => (x = "" /\ z = 0%Z) \/ (x <> "" /\ to_int x = Some z)) (w :: ws) (List.concat m) ->
    spectrum_fields (("<SPECTRUM>" ++ w)%string :: ws ++ ["</SPECTRUM>"])%list m
| sf_slash : forall w t ws m, ~ starts_with "<SPECTRUM>" w -> occurs "/" w ->
    without_ending "/R" w t -> separated "/" t ws -> square m ->
    Forall2 (fun x z => to_int x = Some z) ws (List.concat m) -> spectrum_fields [w] m
| sf_plain : forall w ws m, ~ starts_with "<SPECTRUM>" w -> without "/" w -> square m ->
    Forall2 (fun x z => to_int x = Some z) (w :: ws) (List.concat m) -> spectrum_fields (w :: ws) m.
(** The value of the quantity [h] in its fields. *)
Inductive field_value (h : string) : list string -> cell -> Prop :=
| fv_int : forall w z, whole_name h -> to_int w = Some z -> field_value h [w] (CInt z)
| fv_float : forall w q, decimal_name h -> decimal_token w q -> field_value h [w] (CFloat q)
| fv_date : forall w x, h = "_date" -> date_token w x -> field_value h [w] (CDate x)
| fv_time : forall w x, h = "_time" -> time_token w x -> field_value h [w] (CTime x)
| fv_stamp : forall w x, h = "_datetime" -> stamp_token w x -> field_value h [w] (CStamp x)
| fv_vec : forall ws l, vector_name h -> length ws = 32 -> Forall2 decimal_token ws l ->
    field_value h ws (CVec l)
| fv_spec : forall ws m, h = "spectrum" -> spectrum_fields ws m -> field_value h ws (CSpec m)
| fv_text : forall w, text_name h -> field_value h [w] (CText w).
(** The values of a row: its fields, cut into one piece for each header. *)
Definition row_reading (headers : list string) (row : string) (cells : list cell) : Prop :=
  exists t pieces, without_ending ";" row t /\ separated ";" t (List.concat pieces) /\
    Forall2 (fun h p => field_value h (fst p) (snd p)) headers (combine pieces cells) /\
    length pieces = length cells.
(** The value of the header at place [i]. *)
Definition row_value (headers : list string) (i : nat) (row : string) (c : option cell) : Prop :=
  exists cells v, row <> "" /\ row_reading headers row cells /\ nth_error cells i = Some v /\ c = Some v.
Definition row_readable (headers : list string) (row : string) : Prop :=
  row <> "" /\ exists cells, row_reading headers row cells.

(** ** Data logger files *)
Context (to_stamp : string -> option (D * T)).
Inductive scalar_value (h : string) : string -> cell -> Prop :=
| sv_stamp : forall w s, h = "_datetime" -> to_stamp w = Some s -> scalar_value h w (CStamp s)
| sv_int : forall w z, whole_name h -> to_int w = Some z -> scalar_value h w (CInt z)
| sv_float : forall w q, decimal_name h -> to_float w = Some q -> scalar_value h w (CFloat q)
| sv_text : forall w, h <> "_datetime" -> ~ whole_name h -> ~ decimal_name h -> ~ vector_name h ->
    h <> "spectrum" -> scalar_value h w (CText w).
(** A single value under the header [h] can be read. *)
Definition value_ok (h w : string) : Prop :=
  (vector_name h /\ exists q, to_float w = Some q) \/
  (h = "spectrum" /\ exists z, to_int w = Some z) \/
  exists c, scalar_value h w c.
Definition logger_readable (headers : list (option string)) (row : list string) : Prop :=
  length row = length headers /\
  forall i h w, nth_error headers i = Some (Some h) -> nth_error row i = Some w -> value_ok h w.
(** The values of a row under the header [h], in order. *)
Definition under (headers : list (option string)) (h : string) (row ws : list string) : Prop :=
  collects (fun p w => p = (Some h, w)) (combine headers row) ws.
(** What a row gives for [h]: the last value, or all values for vectors and spectra. *)
Inductive logger_value (headers : list (option string)) (h : string) (row : list string) : cell -> Prop :=
| lv_scalar : forall ws w c, under headers h row (ws ++ [w])%list -> scalar_value h w c ->
    logger_value headers h row c
| lv_vec : forall ws l, vector_name h -> under headers h row ws ->
    Forall2 (fun w q => to_float w = Some q) ws l -> logger_value headers h row (CVec l)
| lv_spec : forall ws m, h = "spectrum" -> under headers h row ws -> square m ->
    Forall2 (fun w z => to_int w = Some z) ws (List.concat m) -> logger_value headers h row (CSpec m).
(** How many columns have the header [h]. *)
Definition header_count (headers : list (option string)) (h : string) (n : nat) : Prop :=
  exists l, collects (fun o (_ : unit) => o = Some h) headers l /\ length l = n.
(** The outcome for a logger file: every known header has one entry for each readable
    row; an error if there is no such row, or if there is one and the number of
    spectrum columns is wrong. *)
Definition logger_outcome (headers : list (option string)) (rows : list (list string))
  (r : result (@table D T)) : Prop :=
  (r = Raise DisdrometerDataError /\ forall row, In row rows -> ~ logger_readable headers row) \/
  (exists row, In row rows /\ logger_readable headers row) /\
  ((r = Raise ValueError /\ exists n, header_count headers "spectrum" n /\ n <> 0 /\ n <> 1024) \/
   (exists d, r = Ok d /\ NoDup (map fst d) /\
      (forall h, In h (map fst d) <-> In (Some h) headers) /\
      forall h c, In (Some h) headers -> has_column d h c ->
        collects (fun row o => exists v, logger_readable headers row /\ logger_value headers h row v /\ o = Some v)
                 rows c)).

(** ** Records *)
(** The names of the numbers. *)
Definition number_name (n : Z) (name : string) : Prop :=
  exists ns, In (name, ns) quantities /\ In n ns.
(** What one line of a record says: a value, or nothing. *)
Inductive says (line : string) : option (string * cell) -> Prop :=
| says_value : forall u key value ws ts n name c, stripped line u -> u = key ++ String ":" value -> without ":" key ->
    ~ In key ["19"; "30"; "31"; "32"; "33"] -> to_int key = Some n -> number_name n name ->
    separated ";" value (ws ++ ts)%list -> field_value name ws c -> says line (Some (name, c))
| says_unknown : forall u key value n, stripped line u -> u = key ++ String ":" value -> without ":" key ->
    ~ In key ["19"; "30"; "31"; "32"; "33"] -> to_int key = Some n -> (forall name, ~ number_name n name) ->
    says line None
| says_skipped : forall u key value, stripped line u -> u = key ++ String ":" value ->
    In key ["19"; "30"; "31"; "32"; "33"] -> says line None
| says_nothing : without ":" line -> says line None.
(** A line that ends within a vector or a spectrum. *)
Definition cut_off (line : string) : Prop :=
  exists u key value n name ws, stripped line u /\ u = key ++ String ":" value /\ without ":" key /\
    ~ In key ["19"; "30"; "31"; "32"; "33"] /\ to_int key = Some n /\ number_name n name /\
    separated ";" value ws /\
    ((vector_name name /\ length ws < 32 /\ exists l, Forall2 decimal_token ws l) \/
     (name = "spectrum" /\ length ws <= 1024 /\
      exists w r, ws = ("<SPECTRUM>" ++ w) :: r /\ w <> "ZERO</SPECTRUM>")).
(** The values of a record. *)
Definition record_says (lines : list string) (es : list (option (string * cell))) : Prop :=
  Forall2 says lines es.
(** The first line that says nothing readable has the property [P]. *)
Definition stops_at (P : string -> Prop) (lines : list string) : Prop :=
  exists a line b, lines = (a ++ line :: b)%list /\ (forall l, In l a -> exists o, says l o) /\ P line.
(** The value of a name: the last one. *)
Definition said (es : list (option (string * cell))) (name : string) (o : option cell) : Prop :=
  (exists i c, nth_error es i = Some (Some (name, c)) /\ o = Some c /\
     forall j c', i < j -> nth_error es j <> Some (Some (name, c'))) \/
  ((forall c, ~ In (Some (name, c)) es) /\ o = None).
End Values.

(** ** Files with one row for each time *)
(** The first line has none of the marks of the other kinds of files. *)
Definition no_mark (line : string) : Prop :=
  ~ occurs "TOA5" line /\ ~ occurs "N00" line /\ ~ occurs "TYP OP4A" line /\ ~ occurs "Date" line /\ ~ occurs "[" line.
Definition csv_mark (line : string) : Prop :=
  ~ occurs "TOA5" line /\ ~ occurs "N00" line /\ ~ occurs "TYP OP4A" line /\ occurs "Date" line.
(** Two numbers of the telegram that mean the same quantity. *)
Definition same_quantity (n m : Z) : Prop := exists name, number_name n name /\ number_name m name.
(** The names of the columns of a telegram. *)
Definition telegram_columns (telegram : list (option Z)) (names : list string) : Prop :=
  length names = length telegram /\ NoDup names /\
  forall i name, nth_error names i = Some name ->
    (forall n, nth_error telegram i = Some (Some n) -> number_name n name) /\
    (nth_error telegram i = Some None -> starts_with "_unknown_" name).
(** The names of the columns of a header line. *)
Definition header_columns (line : string) (names : list string) : Prop :=
  exists fields, separated ";" line fields /\
    Forall2 (fun f name => exists t, stripped f t /\ In (name, t) header_titles) fields names.
(** A table with the columns [names]: each has the values of the readable rows. *)
Definition rows_table {D T} to_int to_float (mk_date : Z -> Z -> Z -> option D) (mk_time : Z -> Z -> Z -> option T)
  (names : list string) (rows : list string) (d : table) : Prop :=
  NoDup (map fst d) /\ (forall k, In k (map fst d) <-> In k names) /\
  forall i name c, nth_error names i = Some name -> has_column d name c ->
    collects (row_value to_int to_float mk_date mk_time names i) rows c.

(** The fields of a line of a logger file: without blanks and semicolons at its ends. *)
Definition bare (c : ascii) (t x : string) : Prop :=
  exists l r, t = l ++ x ++ r /\ only_char c l /\ only_char c r /\
    (forall u, x <> String c u) /\ (forall u, x <> u ++ String c "").
Definition logger_fields (line : string) (ws : list string) : Prop :=
  exists t x, stripped line t /\ bare ";" t x /\ separated ";" x ws.

(** ** Several files *)
(** All columns have as many entries as there are times. *)
Definition aligned {D T} (d : @table D T) : Prop :=
  forall t k c, has_column d "time" t -> has_column d k c -> In k (map fst d) -> length c = length t.
(** The rows of a column at which the date of the time is [day]. *)
Definition dated {D T} (day : D) (t : option (@cell D T)) : Prop := exists x, t = Some (CStamp (day, x)).
Definition rows_of_day {D T A} (day : D) (time : list (option (@cell D T))) (c c' : list A) : Prop :=
  collects (fun p a => dated day (fst p) /\ a = snd p) (combine time c) c'.
