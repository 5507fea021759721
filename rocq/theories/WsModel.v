(** Model of the weather stations of instruments/weather_station.py that are not in
    StationModel.v, and of the steps from the columns of a file to the output.
    Numbers are rational; [float] is an arbitrary partial function to numbers
    ([Some None] is nan or infinite, which [ma.masked_invalid] masks). *)
From Coq Require Import QArith Qround.
From Verif Require Import Base TimeModel OutputModel SiteModel ReaderModel TelegramModel StationModel.
Local Open Scope string_scope.
Local Open Scope nat_scope.
Local Open Scope list_scope.
Local Notation length := List.length (only parsing).

(** A time stamp: the day, and microseconds since midnight. *)
Definition stamp := (Z * Z)%type.
(** The columns read from the files. *)
Record station := { s_time : list stamp; s_cols : list (string * list (masked Q)) }.

Section Ws.
(** [float(s)]; [None] is ValueError. *)
Variable to_num : string -> option (masked Q).
(** [strptime] with the format of the station; [None] is ValueError. *)
Variable to_stamp : string -> option stamp.
(** [int(s)]; [None] is ValueError. *)
Variable to_int : string -> option Z.

(** ** Palaiseau, Bucharest, Maïdo and Potenza *)
Definition is_digit (c : ascii) : bool := let n := nat_of_ascii c in (48 <=? n) && (n <=? 57).
(** [re.match] for a pattern of digits ("d" here) and literal characters. *)
Fixpoint fits (pattern s : string) : bool :=
  match pattern with
  | EmptyString => true
  | String p ps =>
      match s with
      | EmptyString => false
      | String c s' => (if Ascii.eqb p "d" then is_digit c else Ascii.eqb p c) && fits ps s'
      end
  end.
(** The regular expression of weather_station.py 208. *)
Definition stamp_text (s : string) : bool := fits "dddd-dd-ddTdd:dd:ddZ" s.
(** [[float(x) for x in columns]]; [None] is ValueError. *)
Fixpoint floats (ws : list string) : option (list (masked Q)) :=
  match ws with
  | [] => Some []
  | w :: r => match to_num w, floats r with Some x, Some xs => Some (x :: xs) | _, _ => None end
  end.
(** weather_station.py 200-227, [PalaiseauWS._read_data] without the check of the
    header: all lines of all files, with [n] the number of keys. *)
Fixpoint pal_rows (n : nat) (lines : list string) (rows : list (stamp * list (masked Q))) (header : list string)
  : result (list (stamp * list (masked Q)) * list string) :=
  match lines with
  | [] => Ok (rows, header)
  | line :: r =>
      match words line with
      | [] => pal_rows n r rows header
      | c :: cs =>
          if stamp_text c then
            if negb (length (c :: cs) =? n + 1) then pal_rows n r rows header
            else match to_stamp c, floats cs with
                 | Some t, Some xs => pal_rows n r (rows ++ [(t, xs)]) header
                 | _, _ => Raise ValueError
                 end
          else
            let row := String.concat "" (c :: cs) in
            pal_rows n r rows (if mem_str row header then header else header ++ [row])
      end
  end.
(** weather_station.py 256-267, [_validate_header]. *)
Definition valid_header (identifiers header : list string) : bool :=
  let titles := filter (contains "Col.") header in
  (length titles =? length identifiers) && forallb (fun ti => contains (snd ti) (fst ti)) (combine titles identifiers).
(** weather_station.py 243-249, [PalaiseauWS.add_data]: the columns. *)
Definition hidden (key : string) : bool := match key with String c _ => Ascii.eqb c "_" | EmptyString => false end.
Fixpoint pal_columns (ind : nat) (keys : list string) (rows : list (stamp * list (masked Q)))
  : list (string * list (masked Q)) :=
  match keys with
  | [] => []
  | k :: ks =>
      let rest := pal_columns (S ind) ks rows in
      if hidden k then rest else (k, map (fun r => nth ind (snd r) None) rows) :: rest
  end.
(** weather_station.py 200-227 and 243-249: reading and columns; the screening by date
    between the two takes whole rows. *)
Definition pal_read (identifiers keys : list string) (files : list (list string)) : result station :=
  bind (pal_rows (length keys) (List.concat files) [] []) (fun rh =>
    if valid_header identifiers (snd rh)
    then Ok {| s_time := map fst (fst rh); s_cols := pal_columns 0 keys (fst rh) |}
    else Raise ValueError).
(** weather_station.py 174-193, [PalaiseauWS]; [BucharestWS] inherits them. *)
Definition palaiseau_identifiers :=
  ["DateTime(yyyy-mm-ddThh:mm:ssZ)"; "Windspeed(m/s)"; "Winddirection(deg"; "Airtemperature"; "Relativehumidity(%)";
   "Pressure(hPa)"; "Precipitationrate(mm/min)"; "precipitation"].
Definition palaiseau_keys :=
  ["wind_speed"; "wind_direction"; "air_temperature"; "relative_humidity"; "air_pressure"; "rainfall_rate"; "rainfall_amount"].
(** weather_station.py 268-290, [MaidoWS]. *)
Definition maido_identifiers :=
  ["DateTimeyyyy-mm-ddThh:mm:ssZ"; "Winddirection-average"; "Windspeed-maximumvalue(m/s)"; "Windspeed-average(m/s)";
   "Pressure-average(hPa)"; "Relativehumidity-maximumvalue(%)"; "Relativehumidity-average(%)";
   "Airtemperature-minimumvalue"; "Airtemperature-average"].
Definition maido_keys :=
  ["wind_direction"; "_wind_speed_max"; "wind_speed"; "air_pressure"; "_relative_humidity_max"; "relative_humidity";
   "_air_temperature_min"; "air_temperature"].
(** weather_station.py 296-319, [PotenzaWS]; the degree sign is one byte, as the
    files are read as latin-1. *)
Definition potenza_identifiers :=
  ["DateTime(yyyy-mm-ddThh:mm:ssZ)"; "WindspeedMaximumvalue(m/s)"; "WindspeedAveragevalue(m/s)"; "Winddirection(degres)";
   ("Airtemperature(" ++ String (ascii_of_nat 176) "C)")%string; "Relativehumidity(%)"; "Pressure(hPa)";
   "Precipitationrate(mm/min)"; "24-hrcumulatedprecipitation(mm)"].
Definition potenza_keys :=
  ["_wind_speed_max"; "wind_speed"; "wind_direction"; "air_temperature"; "relative_humidity"; "air_pressure";
   "_rainfall_rate"; "_rainfall_amount"].
Definition palaiseau := pal_read palaiseau_identifiers palaiseau_keys.
Definition maido := pal_read maido_identifiers maido_keys.
Definition potenza := pal_read potenza_identifiers potenza_keys.

(** ** Loops over the items of a row *)
(** The lists of [raw_data]: the stamps ([None]: no such key) and the numbers. *)
Record raw := { r_time : option (list stamp); r_cols : list (string * list (masked Q)) }.
(** What one item does: nothing, or append a stamp or a number. *)
Inductive step := Skip | Time (t : stamp) | Num (key : string) (x : masked Q).
(** [raw_data[key].append(x)]. *)
Fixpoint append_num (k : string) (x : masked Q) (d : list (string * list (masked Q)))
  : option (list (string * list (masked Q))) :=
  match d with
  | [] => None
  | (k', c) :: d' =>
      if String.eqb k k' then Some ((k', c ++ [x]) :: d')
      else option_map (fun d2 => (k', c) :: d2) (append_num k x d')
  end.
Definition do_step (s : step) (d : raw) : result raw :=
  match s with
  | Skip => Ok d
  | Time t => match r_time d with
              | Some ts => Ok {| r_time := Some (ts ++ [t]); r_cols := r_cols d |}
              | None => Raise KeyError
              end
  | Num k x => match append_num k x (r_cols d) with
               | Some c => Ok {| r_time := r_time d; r_cols := c |}
               | None => Raise KeyError
               end
  end.
(** [for key, value in row.items(): ...]. *)
Fixpoint do_items {V} (cell : string -> V -> result step) (items : list (string * V)) (d : raw) : result raw :=
  match items with
  | [] => Ok d
  | (k, v) :: r => bind (cell k v) (fun s => bind (do_step s d) (do_items cell r))
  end.
(** Rows of [csv.DictReader] (blank rows are left out by it); [extra] is what happens
    for the values beyond the last field, which come last, under the key None. *)
Fixpoint csv_rows (cell : list (string * option string) -> string -> option string -> result step) (extra : option exn)
  (fields : list string) (rows : list (list string)) (d : raw) : result raw :=
  match rows with
  | [] => Ok d
  | [] :: r => csv_rows cell extra fields r d
  | row :: r =>
      let '(items, more) := dict_row fields row in
      bind (do_items (cell items) items d) (fun d' =>
        match more, extra with
        | true, Some e => Raise e
        | _, _ => csv_rows cell extra fields r d'
        end)
  end.
(** The columns of the output: for each quantity the first of the names found. *)
Fixpoint first_column (names : list string) (d : list (string * list (masked Q))) : option (list (masked Q)) :=
  match names with
  | [] => None
  | n :: r => match column_of String.eqb n d with Some c => Some c | None => first_column r d end
  end.
Fixpoint pick_columns (keys : list (string * list string)) (d : list (string * list (masked Q)))
  : result (list (string * list (masked Q))) :=
  match keys with
  | [] => Ok []
  | (q, names) :: r =>
      match first_column names d with
      | None => Raise KeyError
      | Some c => bind (pick_columns r d) (fun t => Ok ((q, c) :: t))
      end
  end.
Definition pick_station (keys : list (string * list string)) (d : raw) : result station :=
  match r_time d with
  | None => Raise KeyError
  | Some ts => bind (pick_columns keys (r_cols d)) (fun c => Ok {| s_time := ts; s_cols := c |})
  end.
(** [{key: [] for key in fields}]. *)
Definition empty_cols (fields : list string) : list (string * list (masked Q)) :=
  fold_left (fun d c => put String.eqb c [] d) fields [].

(** *** Hyytiälä *)
(** [datetime(y, m, d, minute // 60, minute % 60)]; [date_of] is arbitrary, [None] is
    ValueError. *)
Variable date_of : Z -> Z -> Z -> option Z.
Definition minute_stamp (y m d minute : Z) : option stamp :=
  match date_of y m d with
  | Some day => if ((0 <=? minute / 60) && (minute / 60 <? 24))%Z then Some (day, minute * 60000000)%Z else None
  | None => None
  end.
(** [int(row[key])]: no such key, no value, no number. *)
Definition row_int (items : list (string * option string)) (k : string) : result Z :=
  match get String.eqb k items with
  | None => Raise KeyError
  | Some None => Raise TypeError
  | Some (Some s) => match to_int s with Some z => Ok z | None => Raise ValueError end
  end.
(** weather_station.py 476-482: a value. *)
Definition hy_number (v : option string) : masked Q :=
  match v with
  | None => None
  | Some s => match to_num s with
              | Some (Some x) => if Qeq_bool x (-(9999 # 100)) || Qeq_bool x (-(999 # 10)) then None else Some x
              | _ => None
              end
  end.
(** weather_station.py 463-483: one item. *)
Definition hy_cell (items : list (string * option string)) (k : string) (v : option string) : result step :=
  if String.eqb k "" then Ok Skip
  else if String.eqb k "y" then
    bind (row_int items "y") (fun y => bind (row_int items "m") (fun m => bind (row_int items "d") (fun d =>
    bind (row_int items "minute") (fun minute =>
      match minute_stamp y m d minute with Some t => Ok (Time t) | None => Raise ValueError end))))
  else Ok (Num k (hy_number v)).
Definition hy_keys : list (string * list string) :=
  [("air_temperature", ["Ta/dsC"]); ("relative_humidity", ["RH/pcnt"]); ("air_pressure", ["Pa/kPa"]);
   ("wind_speed", ["WS/(m/s)"]); ("wind_direction", ["WD/ds"]); ("rainfall_rate", ["AaNRT/mm"])].
(** weather_station.py 446-493, [HyytialaWS._read_data]; the fields of the header line
    and the rows of the [csv] module are given. *)
Definition hyytiala (fields : list string) (rows : list (list string)) : result station :=
  bind (csv_rows hy_cell None fields rows {| r_time := Some []; r_cols := empty_cols fields |}) (pick_station hy_keys).

(** *** Galați *)
(** weather_station.py 511-523: one item; [strptime] and [float] of None are TypeError,
    which is not caught. *)
Definition nan_or (s : string) : masked Q := match to_num s with Some x => x | None => None end.
Definition galati_cell (items : list (string * option string)) (k : string) (v : option string) : result step :=
  match v with
  | None => Raise TypeError
  | Some s =>
      if String.eqb k "TimeStamp" then match to_stamp s with Some t => Ok (Time t) | None => Raise ValueError end
      else Ok (Num k (nan_or s))
  end.
Definition galati_keys : list (string * list string) :=
  [("air_temperature", ["Temperature"; "Temperatura"]); ("relative_humidity", ["RH"; "Umiditate_relativa"]);
   ("air_pressure", ["Atmospheric_pressure"; "Presiune_atmosferica"]);
   ("rainfall_rate", ["Precipitations"; "Precipitatii"; "Precipitatii_Tot"]); ("wind_speed", ["Wind_speed"; "Viteza_vant"]);
   ("wind_direction", ["Wind_direction"; "Directie_vant"]); ("visibility", ["Visibility"; "Vizibilitate"])].
(** weather_station.py 507-545, [GalatiWS._read_data]. *)
Definition galati (fields : list string) (rows : list (list string)) : result station :=
  bind (csv_rows galati_cell (Some TypeError) fields rows
          {| r_time := if mem_str "TimeStamp" fields then Some [] else None;
             r_cols := empty_cols (filter (fun f => negb (String.eqb f "TimeStamp")) fields) |})
    (pick_station galati_keys).

(** *** Lampedusa *)
(** [value.strip("\0")]. *)
Fixpoint lstrip_char (c : ascii) (s : string) : string :=
  match s with
  | EmptyString => EmptyString
  | String x s' => if Ascii.eqb x c then lstrip_char c s' else s
  end.
Definition strip_nul (s : string) : string := rstrip_char zero (lstrip_char zero s).
(** weather_station.py 632-645: one item; None and lists have no [strip]. *)
Definition lampedusa_cell (items : list (string * option string)) (k : string) (v : option string) : result step :=
  match v with
  | None => Raise AttributeError
  | Some s =>
      if String.eqb k "time" then match to_stamp (strip_nul s) with Some t => Ok (Time t) | None => Raise ValueError end
      else Ok (Num k (nan_or (strip_nul s)))
  end.
Definition lampedusa_fields :=
  ["time"; "str1"; "str2"; "T"; "RH"; "Td"; "P"; "WSi"; "WDi"; "WS10m"; "WD10m"; "rain1m"; "rain2h"; "empty"].
Definition lampedusa_keys : list (string * list string) :=
  [("air_temperature", ["T"]); ("relative_humidity", ["RH"]); ("air_pressure", ["P"]); ("wind_speed", ["WSi"]);
   ("wind_direction", ["WDi"]); ("rainfall_rate", ["rain1m"])].
(** weather_station.py 612-656, [LampedusaWS._read_data]. *)
Definition lampedusa (rows : list (list string)) : result station :=
  bind (csv_rows lampedusa_cell (Some AttributeError) lampedusa_fields rows
          {| r_time := Some []; r_cols := empty_cols (filter (fun f => negb (String.eqb f "time")) lampedusa_fields) |})
    (pick_station lampedusa_keys).
(** weather_station.py 441-444, 502-505, 561-564, 607-610 and 817: only [filenames[0]] is read. *)
Definition first_file {F} (read : F -> result station) (files : list F) : result station :=
  match files with [] => Raise IndexError | f :: _ => read f end.

(** *** TOA5 stations: Granada, Jülich and Falkenberg *)
(** weather_station.py 358-364, 583-589, 888-894: the units. *)
Definition units_ok (expected : list (string * string)) (units : list (string * string)) : bool :=
  forallb (fun ku => match get String.eqb (fst ku) expected with
                     | Some u => String.eqb u (snd ku)
                     | None => true
                     end) units.
(** weather_station.py 367-378, 592-601, 897-908: one item of a row of [read_toa5];
    [strict] if [float] is not in a [try] block.  The value of a mapped key is the
    stamp or a text; the other cases are not reached. *)
Definition toa5_cell (strict : bool) (keymap : list (string * string)) (k : string) (v : @tcell stamp) : result step :=
  match get String.eqb k keymap with
  | None => Ok Skip
  | Some q =>
      if String.eqb q "time" then match v with TVal (VStamp t) => Ok (Time t) | _ => Raise TypeError end
      else match v with
           | TVal (VText s) => match to_num s with
                               | Some x => Ok (Num q x)
                               | None => if strict then Raise ValueError else Ok (Num q None)
                               end
           | _ => Raise TypeError
           end
  end.
Fixpoint toa5_table (strict : bool) (keymap : list (string * string)) (rows : list (@trow stamp)) (d : raw) : result raw :=
  match rows with
  | [] => Ok d
  | row :: r => bind (do_items (toa5_cell strict keymap) row d) (toa5_table strict keymap r)
  end.
(** [{keymap[key]: [] for key in units if key in keymap}]. *)
Definition mapped (keymap : list (string * string)) (names : list string) : list string :=
  flat_map (fun k => match get String.eqb k keymap with Some q => [q] | None => [] end) names.
(** weather_station.py 339-378, 566-601, 871-908: [_read_data]; the second and third
    line and the lines after the fourth.  A later use of a missing "time" is KeyError. *)
Definition toa5_station (strict : bool) (keymap expected : list (string * string))
  (header units : list string) (lines : list (list string)) : result station :=
  bind (read_toa5 to_stamp to_int header lines) (fun rh =>
    let us := combine header units in
    if units_ok expected us then
      let ks := mapped keymap (map fst us) in
      bind (toa5_table strict keymap (fst rh)
              {| r_time := if mem_str "time" ks then Some [] else None;
                 r_cols := empty_cols (filter (fun f => negb (String.eqb f "time")) ks) |}) (fun d =>
        match r_time d with
        | Some ts => Ok {| s_time := ts; s_cols := r_cols d |}
        | None => Raise KeyError
        end)
    else Raise ValueError).
Definition granada_keymap :=
  [("TIMESTAMP", "time"); ("air_t_Avg", "air_temperature"); ("rh_Avg", "relative_humidity"); ("pressure_Avg", "air_pressure");
   ("wind_speed_avg", "wind_speed"); ("wind_dir_avg", "wind_direction"); ("rain_Tot", "rainfall_rate")].
Definition granada_units :=
  [("air_t_Avg", "degC"); ("rh_Avg", "%"); ("pressure_Avg", "hPa"); ("wind_speed_avg", "m/s"); ("wind_dir_avg", "Deg");
   ("rain_Tot", "mm")].
Definition juelich_keymap :=
  [("TIMESTAMP", "time"); ("AirTC_Avg", "air_temperature"); ("RH", "relative_humidity"); ("BV_BP_Avg", "air_pressure");
   ("WS_ms_S_WVT", "wind_speed"); ("WindDir_D1_WVT", "wind_direction")].
Definition juelich_units :=
  [("AirTC_Avg", "Deg C"); ("RH", "%"); ("BV_BP_Avg", "hPa"); ("WS_ms_S_WVT", "meters/Second"); ("WindDir_D1_WVT", "Deg")].
Definition falkenberg_keymap :=
  [("TIMESTAMP", "time"); ("WS500_air_temperature", "air_temperature"); ("WS500_relative_humidity", "relative_humidity");
   ("WS500_absolute_air_pressure", "air_pressure"); ("WS500_wind_speed_avg", "wind_speed");
   ("WS500_wind_direction_avg", "wind_direction")].
Definition falkenberg_units :=
  [("WS500_air_temperature", "degC"); ("WS500_relative_humidity", "%"); ("WS500_absolute_air_pressure", "hPa");
   ("WS500_wind_speed_avg", "m s-1"); ("WS500_wind_direction_avg", "deg")].
Definition granada := toa5_station false granada_keymap granada_units.
Definition juelich := toa5_station true juelich_keymap juelich_units.
Definition falkenberg := toa5_station false falkenberg_keymap falkenberg_units.
(** weather_station.py 332-337 and 864-869: exactly one file. *)
Definition only_file {F} (read : F -> result station) (files : list F) : result station :=
  match files with [f] => read f | _ => Raise ValueError end.

(** ** L'Aquila *)
(** weather_station.py 805-807 and 852-854, [_parse_value]; [None] is ValueError. *)
Definition parse_value (s : string) : option (masked Q) :=
  let v := strip s in if String.eqb v "" then Some None else to_num v.
Fixpoint parse_values (ws : list string) : option (list (masked Q)) :=
  match ws with
  | [] => Some []
  | w :: r => match parse_value w, parse_values r with Some x, Some xs => Some (x :: xs) | _, _ => None end
  end.
(** weather_station.py 781-798: the lines of all files; the seven lists grow together. *)
Fixpoint laquila_rows (lines : list string) (rows : list (stamp * list (masked Q)))
  : result (list (stamp * list (masked Q))) :=
  match lines with
  | [] => Ok rows
  | line :: r =>
      if prefix "#" line then laquila_rows r rows
      else match split_on "," line with
           | c :: cs =>
               if negb (length (c :: cs) =? 7) then laquila_rows r rows
               else match to_stamp c, parse_values cs with
                    | Some t, Some xs => laquila_rows r (rows ++ [(t, xs)])
                    | _, _ => Raise ValueError
                    end
           | [] => laquila_rows r rows
           end
  end.
Definition laquila_keys :=
  ["air_temperature"; "air_pressure"; "relative_humidity"; "rainfall_rate"; "wind_speed"; "wind_direction"].
(** The instant of a stamp. *)
Definition instant (t : stamp) : Q := inject_Z (fst t * 86400000000 + snd t).
(** [x[ind]] for an index array. *)
Definition take {A} (l : list A) (ind : list nat) : list A :=
  flat_map (fun i => match nth_error l i with Some x => [x] | None => [] end) ind.
(** weather_station.py 768-803, [LAquilaWS._read_data]. *)
Definition laquila (files : list (list string)) : result station :=
  bind (laquila_rows (List.concat files) []) (fun rows =>
    let ind := unique_index (map (fun r => instant (fst r)) rows) in
    Ok {| s_time := take (map fst rows) ind;
          s_cols := map (fun kc => (fst kc, take (snd kc) ind)) (pal_columns 0 laquila_keys rows) |}).

(** ** Cluj-Napoca *)
Definition tab := ascii_of_nat 9.
(** weather_station.py 821-824: the rows after the header. *)
Fixpoint cluj_row (headers columns : list string) (d : list (string * list string)) : result (list (string * list string)) :=
  match headers, columns with
  | [], [] => Ok d
  | h :: hs, c :: cs => cluj_row hs cs (push String.eqb h c d)
  | _, _ => Raise ValueError
  end.
Fixpoint cluj_rows (headers : list string) (lines : list string) (d : list (string * list string))
  : result (list (string * list string)) :=
  match lines with
  | [] => Ok d
  | l :: r => bind (cluj_row headers (split_on tab (strip l)) d) (cluj_rows headers r)
  end.
Fixpoint stamps (ws : list string) : option (list stamp) :=
  match ws with
  | [] => Some []
  | w :: r => match to_stamp w, stamps r with Some x, Some xs => Some (x :: xs) | _, _ => None end
  end.
(** weather_station.py 825-844: the columns in this order. *)
Fixpoint cluj_columns (keys : list (string * string)) (d : list (string * list string))
  : result (list (string * list (masked Q))) :=
  match keys with
  | [] => Ok []
  | (q, h) :: r =>
      match column_of String.eqb h d with
      | None => Raise KeyError
      | Some ws => match parse_values ws with
                   | None => Raise ValueError
                   | Some xs => bind (cluj_columns r d) (fun t => Ok ((q, xs) :: t))
                   end
      end
  end.
Definition cluj_keys : list (string * string) :=
  [("air_temperature", "Air_temperature_C"); ("air_pressure", "air_pressure_hPA"); ("relative_humidity", "rel_humidity_pct");
   ("rainfall_rate", "Precipitation_mm"); ("wind_speed", "WS_azimuth_ms"); ("wind_direction", "WD_azimuth_deg")].
(** weather_station.py 816-845, [ClujWS._read_data]. *)
Definition cluj (lines : list string) : result station :=
  match lines with
  | [] => Raise IndexError
  | first :: rest =>
      let headers := split_on tab (strip first) in
      bind (cluj_rows headers rest (fold_left (fun d h => put String.eqb h [] d) headers [])) (fun d =>
        match column_of String.eqb "DateTime" d with
        | None => Raise KeyError
        | Some ws => match stamps ws with
                     | None => Raise ValueError
                     | Some ts => bind (cluj_columns cluj_keys d) (fun c => Ok {| s_time := ts; s_cols := c |})
                     end
        end)
  end.
End Ws.

(** ** From the columns to the output *)
(** weather_station.py 124-130, 233-241 and 673-681, [screen_timestamps]: a mask of another
    length is IndexError if the columns are arrays ([arrays]), and ignored if they are lists. *)
Definition keep {A} (mask : list bool) (l : list A) : list A := map snd (filter fst (combine mask l)).
Fixpoint keep_cols (arrays : bool) (mask : list bool) (cols : list (string * list (masked Q))) : result (list (string * list (masked Q))) :=
  match cols with
  | [] => Ok []
  | (k, c) :: r =>
      if negb arrays || (length c =? length mask)
      then bind (keep_cols arrays mask r) (fun r' => Ok ((k, keep mask c) :: r'))
      else Raise IndexError
  end.
Definition screen_day (arrays : bool) (day : Z) (s : station) : result station :=
  let mask := map (fun t => Z.eqb (fst t) day) (s_time s) in
  if existsb (fun b => b) mask
  then bind (keep_cols arrays mask (s_cols s)) (fun c => Ok {| s_time := keep mask (s_time s); s_cols := c |})
  else Raise ValidTimeStampError.
(** utils.py 71-79, [datetime2decimal_hours]: one stamp. *)
Definition hours_of (t : stamp) : Q :=
  let sec := (snd t / 1000000)%Z in
  (inject_Z (sec / 3600) + inject_Z ((sec / 60) mod 60) / 60 + inject_Z (sec mod 60) / 3600)%Q.

Inductive site := Palaiseau | Bucharest | Granada | Kenttarova | Hyytiala | Galati | Juelich | Lampedusa | Limassol
  | LAquila | Maido | Cluj | Falkenberg | Potenza.
(** weather_station.py 55-85: the class for the name of the site; [None] is ValueError. *)
Definition site_of (name : string) : option site :=
  get String.eqb name
    [("Palaiseau", Palaiseau); ("Bucharest", Bucharest); ("Granada", Granada); ("Kenttärova", Kenttarova);
     ("Hyytiälä", Hyytiala); ("Galați", Galati); ("Jülich", Juelich); ("Lampedusa", Lampedusa); ("Limassol", Limassol);
     ("L'Aquila", LAquila); ("Maïdo Observatory", Maido); ("Cluj-Napoca", Cluj); ("Falkenberg", Falkenberg);
     ("Potenza", Potenza)].
(** weather_station.py 547-553, [GalatiWS.add_data]: no wind before 2024-10-29 ([day0] is
    that day), visibility as whole numbers ([astype(np.int32)] cuts the fraction off; the
    range of the type is not modelled). *)
Definition truncate (x : Q) : Q := if Qle_bool 0 x then inject_Z (Qfloor x) else inject_Z (Qceiling x).
Definition galati_add (day0 day : Z) (cols : list (string * list (masked Q))) : list (string * list (masked Q)) :=
  map (fun kc => if String.eqb (fst kc) "visibility" then (fst kc, map (option_map truncate) (snd kc)) else kc)
    (filter (fun kc => negb ((day <? day0)%Z && (String.eqb (fst kc) "wind_speed" || String.eqb (fst kc) "wind_direction"))) cols).
(** weather_station.py 683-708, [LimassolWS.add_data]: [self._data] is a
    [defaultdict(list)], so a column that is not there is empty. *)
Definition default_column (k : string) (d : list (string * list (masked Q))) : list (masked Q) :=
  match column_of String.eqb k d with Some c => c | None => [] end.
Definition limassol_add (d : list (string * list (masked Q))) : list (string * list (masked Q)) :=
  let has k := match column_of String.eqb k d with Some _ => true | None => false end in
  [("air_temperature", default_column "Air temperature (°C)" d); ("relative_humidity", default_column "Relative humidity (%)" d);
   ("rainfall_rate", default_column "Total precipitation (mm)" d)] ++
  (if has "Wind speed at 10m (m/s)" && has "Wind direction at 10m (degrees)"
   then [("wind_speed", default_column "Wind speed at 10m (m/s)" d);
         ("wind_direction", default_column "Wind direction at 10m (degrees)" d)]
   else [("wind_speed", default_column "Wind speed (m/s)" d)]).
(** The conversion of a pressure, of a rainfall rate and of a rainfall amount:
    weather_station.py 152-155, 429-431, 495-498, 555-557 (pressure), 146-150, 326-328,
    424-427, 710-714, 856-860 (rate), 251-254, 292, 321 (amount; [WS] leaves it).  The last is
    only called for a column that is there in the two classes that have it. *)
Definition pressure_factor (s : site) : Q :=
  match s with Kenttarova => 10 | Hyytiala => 1000 | Galati => 133322 # 1000 | _ => 100 end.
Definition convert_rate (s : site) (x : Q) : Q :=
  match s with
  | Bucharest => (x * (1 / (3600 / (1 / 1000))))%Q
  | Kenttarova => (x * (1 / (3600 / (1 / 1000))) / 10)%Q
  | Limassol => (x / (10 * 60) / 1000)%Q
  | Cluj => (x / (1000 * 600))%Q
  | _ => (x / 60 / 1000)%Q
  end.
Definition convert_amount (s : site) (x : Q) : Q :=
  match s with Palaiseau | Bucharest => (x / 1000)%Q | _ => x end.
(** weather_station.py 141-144 for the first two; [atmoslib.c2k] adds 273.15. *)
Definition convert (s : site) (key : string) (x : Q) : Q :=
  if String.eqb key "air_temperature" then (x + (27315 # 100))%Q
  else if String.eqb key "relative_humidity" then (x / 100)%Q
  else if String.eqb key "air_pressure" then (x * pressure_factor s)%Q
  else if String.eqb key "rainfall_rate" then convert_rate s x
  else if String.eqb key "rainfall_amount" then convert_amount s x
  else x.
(** The columns that a conversion uses without asking whether they are there. *)
Definition required (s : site) : list string :=
  ["air_temperature"; "relative_humidity"] ++
  match s with
  | Kenttarova => ["air_pressure"; "rainfall_rate"]
  | Hyytiala | Galati => ["air_pressure"]
  | Palaiseau => ["rainfall_amount"]
  | Bucharest => ["rainfall_rate"; "rainfall_amount"]
  | Limassol | Cluj => ["rainfall_rate"]
  | _ => []
  end.
(** The output: the date, the hours and the columns. *)
Record ws_out := { o_day : Z; o_hours : list Q; o_cols : list (string * list (masked Q)) }.
(** weather_station.py 86-96, from the columns up to the conversion of units.
    [remove_duplicate_timestamps] leaves columns of another length alone.  The later steps
    ([normalize_cumulative_amount], [calculate_rainfall_amount], [wrap_wind_direction])
    are C41, C69 and C70. *)
Definition process (day0 : Z) (s : site) (date : option Z) (data : station) : result ws_out :=
  bind (match date with Some d => screen_day (match s with Limassol => false | _ => true end) d data | None => Ok data end) (fun st =>
    match s_time st with
    | [] => Raise IndexError
    | t :: _ =>
        let hours := map hours_of (s_time st) in
        let cols := match s with Galati => galati_add day0 (fst t) (s_cols st) | Limassol => limassol_add (s_cols st) | _ => s_cols st end in
        let ind := unique_index hours in
        let cols' := map (fun kc => (fst kc, if length (snd kc) =? length hours then take (snd kc) ind else snd kc)) cols in
        if forallb (fun k => mem_str k (map fst cols')) (required s)
        then Ok {| o_day := fst t; o_hours := take hours ind;
                   o_cols := map (fun kc => (fst kc, map (option_map (convert s (fst kc))) (snd kc))) cols' |}
        else Raise KeyError
    end).
