(** Vocabulary for the weather stations. *)
From Verif Require Import Base TimeSpec OutputModel OutputSpec SiteModel SiteSpec ReaderSpec TelegramSpec StationModel StationSpec CliSpec WsModel.
Local Open Scope string_scope.
Local Open Scope nat_scope.
Local Open Scope list_scope.
Local Notation length := List.length (only parsing).

Section Spec.
Context (to_num : string -> option (masked Q)) (to_stamp : string -> option stamp) (to_int : string -> option Z).

(** ** Palaiseau, Bucharest, Maïdo and Potenza *)
Definition digit_char (c : ascii) : Prop := In c (list_ascii_of_string "0123456789").
(** The text starts like 2024-05-17T10:20:30Z. *)
Definition written_stamp (s : string) : Prop :=
  (forall i, In i [0; 1; 2; 3; 5; 6; 8; 9; 11; 12; 14; 15; 17; 18] -> exists c, String.get i s = Some c /\ digit_char c) /\
  String.get 4 s = Some "-"%char /\ String.get 7 s = Some "-"%char /\ String.get 10 s = Some "T"%char /\
  String.get 13 s = Some ":"%char /\ String.get 16 s = Some ":"%char /\ String.get 19 s = Some "Z"%char.
(** A line with a stamp and [n] values. *)
Definition data_line (n : nat) (line : string) (c : string) (cs : list string) : Prop :=
  words_of line (c :: cs) /\ written_stamp c /\ length cs = n.
Definition line_row (n : nat) (line : string) (r : stamp * list (masked Q)) : Prop :=
  exists c cs, data_line n line c cs /\ to_stamp c = Some (fst r) /\ Forall2 (fun w x => to_num w = Some x) cs (snd r).
Definition bad_line (n : nat) (line : string) : Prop :=
  exists c cs, data_line n line c cs /\ (to_stamp c = None \/ exists w, In w cs /\ to_num w = None).
(** The words of a line that does not start with a stamp, joined. *)
Definition heading (line h : string) : Prop :=
  exists c cs, words_of line (c :: cs) /\ ~ written_stamp c /\ h = String.concat "" (c :: cs).
(** The elements of a list in the order in which they occur for the first time. *)
Inductive firsts {A} : list A -> list A -> Prop :=
| FirstsNil : firsts [] []
| FirstsOld x l out : firsts l out -> In x l -> firsts (l ++ [x]) out
| FirstsNew x l out : firsts l out -> ~ In x l -> firsts (l ++ [x]) (out ++ [x]).
(** The titles of the columns, and that they are the expected ones. *)
Definition column_titles (lines titles : list string) : Prop :=
  exists hs ds, collects heading lines hs /\ firsts hs ds /\ kept (occurs "Col.") ds titles.
Definition titles_fit (lines expected : list string) : Prop :=
  exists titles, column_titles lines titles /\ Forall2 (fun t e => occurs e t) titles expected.
(** Titles and quantities of the columns; the first is the time; an empty name marks a
    column that is not used. *)
Definition palaiseau_table :=
  [("DateTime(yyyy-mm-ddThh:mm:ssZ)", "time"); ("Windspeed(m/s)", "wind_speed"); ("Winddirection(deg", "wind_direction");
   ("Airtemperature", "air_temperature"); ("Relativehumidity(%)", "relative_humidity"); ("Pressure(hPa)", "air_pressure");
   ("Precipitationrate(mm/min)", "rainfall_rate"); ("precipitation", "rainfall_amount")].
Definition maido_table :=
  [("DateTimeyyyy-mm-ddThh:mm:ssZ", "time"); ("Winddirection-average", "wind_direction"); ("Windspeed-maximumvalue(m/s)", "");
   ("Windspeed-average(m/s)", "wind_speed"); ("Pressure-average(hPa)", "air_pressure"); ("Relativehumidity-maximumvalue(%)", "");
   ("Relativehumidity-average(%)", "relative_humidity"); ("Airtemperature-minimumvalue", "");
   ("Airtemperature-average", "air_temperature")].
Definition potenza_table :=
  [("DateTime(yyyy-mm-ddThh:mm:ssZ)", "time"); ("WindspeedMaximumvalue(m/s)", ""); ("WindspeedAveragevalue(m/s)", "wind_speed");
   ("Winddirection(degres)", "wind_direction"); (("Airtemperature(" ++ String (Ascii false false false false true true false true) "C)")%string, "air_temperature");
   ("Relativehumidity(%)", "relative_humidity"); ("Pressure(hPa)", "air_pressure"); ("Precipitationrate(mm/min)", "");
   ("24-hrcumulatedprecipitation(mm)", "")].
(** The columns of [rows]: one value of each row under each used name. *)
Definition columns_follow (table : list (string * string)) (rows : list (stamp * list (masked Q)))
  (cols : list (string * list (masked Q))) : Prop :=
  forall q col, In (q, col) cols <->
    exists i title, nth_error table (S i) = Some (title, q) /\ q <> "" /\
      Forall2 (fun r x => nth_error (snd r) i = Some x) rows col.

(** ** Rows of CSV files *)
Definition nonblank_rows (rows rs : list (list string)) : Prop := kept (fun r => r <> []) rows rs.
(** The text under the title [k] of a row. *)
Definition field (fields : list string) (k : string) (row : list string) (w : string) : Prop :=
  exists i, nth_error fields i = Some k /\ nth_error row i = Some w.
Definition missing_field (fields : list string) (k : string) (row : list string) : Prop :=
  exists i, nth_error fields i = Some k /\ length row <= i.
(** A number, nan if it cannot be read. *)
Inductive number_or_nan : string -> masked Q -> Prop :=
| NumberRead w x : to_num w = Some x -> number_or_nan w x
| NumberBad w : to_num w = None -> number_or_nan w None.

(** *** Hyytiälä *)
Context (date_of : Z -> Z -> Z -> option Z).
Definition hy_time (fields row : list string) (t : stamp) : Prop :=
  exists wy wm wd wn y m d n,
    field fields "y" row wy /\ to_int wy = Some y /\ field fields "m" row wm /\ to_int wm = Some m /\
    field fields "d" row wd /\ to_int wd = Some d /\ field fields "minute" row wn /\ to_int wn = Some n /\
    date_of y m d = Some (fst t) /\ (0 <= n < 1440)%Z /\ snd t = (n * 60000000)%Z.
(** The two codes of missing values. *)
Definition hy_code (x : Q) : Prop := (x == -9999 # 100)%Q \/ (x == -999 # 10)%Q.
Inductive hy_value (fields : list string) (k : string) (row : list string) : masked Q -> Prop :=
| HyNumber w x : field fields k row w -> to_num w = Some (Some x) -> ~ hy_code x -> hy_value fields k row (Some x)
| HyCode w x : field fields k row w -> to_num w = Some (Some x) -> hy_code x -> hy_value fields k row None
| HyBad w : field fields k row w -> (to_num w = None \/ to_num w = Some None) -> hy_value fields k row None
| HyNone : missing_field fields k row -> hy_value fields k row None.
Definition hy_table :=
  [("air_temperature", "Ta/dsC"); ("relative_humidity", "RH/pcnt"); ("air_pressure", "Pa/kPa"); ("wind_speed", "WS/(m/s)");
   ("wind_direction", "WD/ds"); ("rainfall_rate", "AaNRT/mm")].

(** *** Galați and Lampedusa *)
Definition galati_table :=
  [("air_temperature", ["Temperature"; "Temperatura"]); ("relative_humidity", ["RH"; "Umiditate_relativa"]);
   ("air_pressure", ["Atmospheric_pressure"; "Presiune_atmosferica"]);
   ("rainfall_rate", ["Precipitations"; "Precipitatii"; "Precipitatii_Tot"]); ("wind_speed", ["Wind_speed"; "Viteza_vant"]);
   ("wind_direction", ["Wind_direction"; "Directie_vant"]); ("visibility", ["Visibility"; "Vizibilitate"])].
(** The title used for a quantity: the first one that the file has. *)
Definition chosen (names fields : list string) (k : string) : Prop := first_with (fun n => In n fields) names k.
(** [t] is [s] without the null characters at both ends. *)
Definition without_nul (s t : string) : Prop :=
  exists a u, s = (a ++ u)%string /\ only_char Ascii.zero a /\ (forall v, u <> String Ascii.zero v) /\ trimmed Ascii.zero u t.
(** Quantity and number of the column. *)
Definition lampedusa_table :=
  [("air_temperature", 3); ("relative_humidity", 4); ("air_pressure", 6); ("wind_speed", 7); ("wind_direction", 8);
   ("rainfall_rate", 11)].

(** The rows of a file with titles: every row has a field for each title, a time and a
    value for each quantity. *)
Definition station_from (tk : string) (conv : string -> stamp -> Prop) (num : string -> masked Q -> Prop) (fields : list string)
  (table : list (string * list string)) (rows : list (list string)) (s : station) : Prop :=
  exists rs, nonblank_rows rows rs /\ In tk fields /\ (forall row, In row rs -> length row = length fields) /\
    Forall2 (fun row t => exists w, field fields tk row w /\ conv w t) rs (s_time s) /\
    Forall2 (fun qn qc => fst qn = fst qc /\ exists k, chosen (snd qn) fields k /\
      Forall2 (fun row x => exists w, field fields k row w /\ num w x) rs (snd qc)) table (s_cols s).

(** ** TOA5 stations *)
(** Title, quantity and unit. *)
Definition granada_table :=
  [("air_t_Avg", "air_temperature", "degC"); ("rh_Avg", "relative_humidity", "%"); ("pressure_Avg", "air_pressure", "hPa");
   ("wind_speed_avg", "wind_speed", "m/s"); ("wind_dir_avg", "wind_direction", "Deg"); ("rain_Tot", "rainfall_rate", "mm")].
Definition juelich_table :=
  [("AirTC_Avg", "air_temperature", "Deg C"); ("RH", "relative_humidity", "%"); ("BV_BP_Avg", "air_pressure", "hPa");
   ("WS_ms_S_WVT", "wind_speed", "meters/Second"); ("WindDir_D1_WVT", "wind_direction", "Deg")].
Definition falkenberg_table :=
  [("WS500_air_temperature", "air_temperature", "degC"); ("WS500_relative_humidity", "relative_humidity", "%");
   ("WS500_absolute_air_pressure", "air_pressure", "hPa"); ("WS500_wind_speed_avg", "wind_speed", "m s-1");
   ("WS500_wind_direction_avg", "wind_direction", "deg")].
(** A column of the file has another unit than expected. *)
Definition wrong_unit (table : list (string * string * string)) (header units : list string) : Prop :=
  exists i k q u u', nth_error header i = Some k /\ nth_error units i = Some u' /\ In (k, q, u) table /\ u <> u'.

(** The stamp and the record number of a row can be read. *)
Definition row_readable (header line : list string) : Prop :=
  (forall w, field header "TIMESTAMP" line w -> to_stamp w <> None) /\ (forall w, field header "RECORD" line w -> to_int w <> None).
(** A value of the table cannot be read. *)
Definition value_unreadable (table : list (string * string * string)) (header line : list string) : Prop :=
  exists k q u w, In (k, q, u) table /\ field header k line w /\ to_num w = None.
(** One column for each title of the table that the file has. *)
Definition table_columns (table : list (string * string * string)) (header : list string) (lines : list (list string))
  (cols : list (string * list (masked Q))) : Prop :=
  NoDup (map fst cols) /\
  forall q col, In (q, col) cols <-> exists k u, In (k, q, u) table /\ In k header /\
    Forall2 (fun line x => exists w, field header k line w /\ number_or_nan w x) lines col.

(** ** L'Aquila *)
(** A value without the blanks around it; nothing is a missing value. *)
Inductive plain_value : string -> masked Q -> Prop :=
| PlainEmpty s : stripped s "" -> plain_value s None
| PlainNumber s t x : stripped s t -> t <> "" -> to_num t = Some x -> plain_value s x.
Definition comma_line (line c : string) (cs : list string) : Prop :=
  ~ starts_with "#" line /\ separated "," line (c :: cs) /\ length cs = 6.
Definition comma_row (line : string) (r : stamp * list (masked Q)) : Prop :=
  exists c cs, comma_line line c cs /\ to_stamp c = Some (fst r) /\ Forall2 plain_value cs (snd r).
Definition bad_comma (line : string) : Prop :=
  exists c cs, comma_line line c cs /\ (to_stamp c = None \/ exists w, In w cs /\ forall x, ~ plain_value w x).
Definition laquila_table :=
  [("", "time"); ("", "air_temperature"); ("", "air_pressure"); ("", "relative_humidity"); ("", "rainfall_rate");
   ("", "wind_speed"); ("", "wind_direction")].
(** An instant before another. *)
Definition earlier (a b : stamp) : Prop := (fst a < fst b \/ (fst a = fst b /\ snd a < snd b))%Z.
(** The row at [i] is the first with its stamp. *)
Definition first_stamp (times : list stamp) (i : nat) : Prop :=
  exists t, nth_error times i = Some t /\ forall j, j < i -> nth_error times j <> Some t.
Definition picks {A} (l : list A) (ind : list nat) (out : list A) : Prop :=
  Forall2 (fun i x => nth_error l i = Some x) ind out.

(** The same rows of every column. *)
Definition picked_all (ind : list nat) (cols out : list (string * list (masked Q))) : Prop :=
  Forall2 (fun a b => fst a = fst b /\ picks (snd a) ind (snd b)) cols out.

(** ** Cluj-Napoca *)
Definition cluj_table :=
  [("air_temperature", "Air_temperature_C"); ("air_pressure", "air_pressure_hPA"); ("relative_humidity", "rel_humidity_pct");
   ("rainfall_rate", "Precipitation_mm"); ("wind_speed", "WS_azimuth_ms"); ("wind_direction", "WD_azimuth_deg")].
(** The fields of a line: without the blanks around it, separated by tabs. *)
Definition tab_fields (line : string) (ws : list string) : Prop :=
  exists t, stripped line t /\ separated (Ascii true false false true false false false false) t ws.
Definition tab_value (headers : list string) (k line w : string) : Prop := exists ws, tab_fields line ws /\ field headers k ws w.
End Spec.

(** ** Processing *)
Definition aligned (s : station) : Prop := forall k c, In (k, c) (s_cols s) -> length c = length (s_time s).
(** Stamps are inside the day. *)
Definition proper (t : stamp) : Prop := (0 <= snd t < 86400000000)%Z.
Definition whole_second (t : stamp) : Prop := exists n, snd t = (n * 1000000)%Z.
(** Hours since midnight. *)
Definition hours (t : stamp) (h : Q) : Prop := (h * 3600000000 == inject_Z (snd t))%Q.
(** Quantity, offset and factor that give K, 1, Pa, m s-1 and m. *)
Definition si_units (s : site) : list (string * (Q * Q)) :=
  [("air_temperature", (27315 # 100, 1)); ("relative_humidity", (0, 1 # 100));
   ("air_pressure", (0, match s with Kenttarova => 10 | Hyytiala => 1000 | Galati => 133322 # 1000 | _ => 100 end));
   ("rainfall_rate", (0, match s with
                         | Bucharest => 1 # 3600000
                         | Kenttarova => 1 # 36000000
                         | Limassol | Cluj => 1 # 600000
                         | _ => 1 # 60000
                         end));
   ("rainfall_amount", (0, match s with Palaiseau | Bucharest => 1 # 1000 | _ => 1 end));
   ("wind_speed", (0, 1)); ("wind_direction", (0, 1)); ("visibility", (0, 1))]%Q.
Definition in_si (s : site) (q : string) (x y : Q) : Prop :=
  exists a b, In (q, (a, b)) (si_units s) /\ (y == b * x + a)%Q.
(** The fraction is cut off. *)
Definition cut (x y : Q) : Prop :=
  exists z, y = inject_Z z /\ (((0 <= x)%Q /\ (y <= x)%Q /\ (x < y + 1)%Q) \/ ((x < 0)%Q /\ (x <= y)%Q /\ (y < x + 1)%Q)).
(** Values that are not masked are related, masked values stay masked. *)
Inductive values_as {A B} (R : A -> B -> Prop) : masked A -> masked B -> Prop :=
| ValueAs x y : R x y -> values_as R (Some x) (Some y)
| MaskedAs : values_as R None None.
(** A quantity without an entry is left alone. *)
Definition converted (s : site) (q : string) (x y : Q) : Prop :=
  in_si s q x y \/ (~ In q (map fst (si_units s)) /\ y = x).
(** Galați: no wind before the given day, whole numbers for the visibility. *)
Definition galati_columns (day0 day : Z) (cols out : list (string * list (masked Q))) : Prop :=
  exists ks, kept (fun kc => ~ ((day < day0)%Z /\ In (fst kc) ["wind_speed"; "wind_direction"])) cols ks /\
    Forall2 (fun a b => fst a = fst b /\
      (fst a = "visibility" -> Forall2 (values_as cut) (snd a) (snd b)) /\ (fst a <> "visibility" -> snd a = snd b)) ks out.
(** Limassol: quantity and title; the wind at 10 m if both columns are there. *)
Definition limassol_table (d : list (string * list (masked Q))) (table : list (string * string)) : Prop :=
  let base := [("air_temperature", "Air temperature (°C)"); ("relative_humidity", "Relative humidity (%)");
               ("rainfall_rate", "Total precipitation (mm)")] in
  (In "Wind speed at 10m (m/s)" (map fst d) /\ In "Wind direction at 10m (degrees)" (map fst d) /\
   table = base ++ [("wind_speed", "Wind speed at 10m (m/s)"); ("wind_direction", "Wind direction at 10m (degrees)")]) \/
  (~ (In "Wind speed at 10m (m/s)" (map fst d) /\ In "Wind direction at 10m (degrees)" (map fst d)) /\
   table = base ++ [("wind_speed", "Wind speed (m/s)")]).
Definition limassol_columns (d out : list (string * list (masked Q))) : Prop :=
  exists table, limassol_table d table /\ Forall2 (fun qt qc => fst qt = fst qc /\ In (snd qt, snd qc) d) table out.
(** The columns before the conversion of units. *)
Definition site_columns (day0 : Z) (s : site) (day : Z) (cols out : list (string * list (masked Q))) : Prop :=
  match s with Galati => galati_columns day0 day cols out | Limassol => limassol_columns cols out | _ => out = cols end.
(** What the conversion of units cannot do without. *)
Definition needed (s : site) (q : string) : Prop :=
  In q ["air_temperature"; "relative_humidity"] \/
  (q = "air_pressure" /\ In s [Kenttarova; Hyytiala; Galati]) \/
  (q = "rainfall_rate" /\ In s [Kenttarova; Bucharest; Limassol; Cluj]) \/
  (q = "rainfall_amount" /\ In s [Palaiseau; Bucharest]).
(** The rows of the output for a day, in order. *)
Definition day_rows (times : list stamp) (day : Z) (ind : list nat) : Prop :=
  forall i, In i ind <-> first_stamp times i /\ exists t, nth_error times i = Some t /\ fst t = day.
(** The output has these rows of the columns, in hours and in SI units. *)
Definition rows_written (s : site) (data : station) (ind : list nat) (cols : list (string * list (masked Q))) (o : ws_out) : Prop :=
  Forall2 (fun i h => exists t, nth_error (s_time data) i = Some t /\ hours t h) ind (o_hours o) /\
  Forall2 (fun a b => fst a = fst b /\
    Forall2 (fun i y => exists x, nth_error (snd a) i = Some x /\ values_as (converted s (fst a)) x y) ind (snd b)) cols (o_cols o).
