(** Model of the Thies disdrometer (instruments/disdrometer/thies.py) and of the products of
    microwave radiometers (products/mwr_tools.py).  Numbers are rational: rounding is not modelled. *)
From Coq Require Import QArith.
From Verif Require Import Base ArrayModel GridModel TimeModel OutputModel InstrumentModel MeltModel SiteModel ReaderModel TelegramModel CliModel NwpModel WsModel GaugeModel.
Local Open Scope string_scope.
Local Open Scope nat_scope.
Local Open Scope list_scope.
Local Notation length := List.length (only parsing).

(** ** Telegrams *)
(** thies.py 20-70. *)
Definition telegram4 : list (nat * string) :=
  [(1, "_serial_number"); (2, "_software_version"); (3, "_date"); (4, "_time"); (5, "_synop_5min_ww"); (6, "_synop_5min_WaWa");
   (7, "_metar_5min_4678"); (8, "_rainfall_rate_5min"); (9, "synop_WW"); (10, "synop_WaWa"); (11, "_metar_1_min_4678");
   (12, "rainfall_rate_1min_total"); (13, "rainfall_rate"); (14, "rainfall_rate_1min_solid"); (15, "_precipition_amount"); (16, "visibility");
   (17, "radar_reflectivity"); (18, "measurement_quality"); (19, "maximum_hail_diameter"); (20, "status_laser"); (21, "static_signal");
   (22, "status_T_laser_analogue"); (23, "status_T_laser_digital"); (24, "status_I_laser_analogue"); (25, "status_I_laser_digital");
   (26, "status_sensor_supply"); (27, "status_laser_heating"); (28, "status_receiver_heating"); (29, "status_temperature_sensor");
   (30, "status_heating_supply"); (31, "status_heating_housing"); (32, "status_heating_heads"); (33, "status_heating_carriers");
   (34, "status_laser_power"); (35, "_status_reserve"); (36, "T_interior"); (37, "T_laser_driver"); (38, "I_mean_laser"); (39, "V_control");
   (40, "V_optical_output"); (41, "V_sensor_supply"); (42, "I_heating_laser_head"); (43, "I_heating_receiver_head"); (44, "T_ambient");
   (45, "_V_heating_supply"); (46, "_I_housing"); (47, "_I_heating_heads"); (48, "_I_heating_carriers"); (49, "n_particles")].
(** thies.py 227-247. *)
Definition float_keys : list string :=
  ["I_heating"; "T_ambient"; "T_interior"; "T_laser_driver"; "V_power_supply"; "_precipition_amount"; "_rainfall_rate_5min";
   "maximum_hail_diameter"; "radar_reflectivity"; "rainfall_rate"; "rainfall_rate_1min_solid"; "rainfall_rate_1min_total"].
Definition text_keys : list string := ["_serial_number"; "_software_version"; "_metar_5min_4678"; "_metar_1_min_4678"].
(** The value of a column: days since 1970, seconds of the day, a number, or text. *)
Inductive field := FDay (d : Z) | FClock (s : Z) | FNum (x : Q) | FText (w : string).
(** What [_read_line] adds to [raw_data]. *)
Record record := { th_time : Z; th_fields : list (string * field); th_spectrum : option (list (list Z)) }.

Section Thies.
(** [float(s)] and [int(s)]; [None] is ValueError.  Infinite and undefined numbers are not modelled. *)
Variable to_float : string -> option Q.
Variable to_int : string -> option Z.
(** [datetime.date(year, month, day)] as a number of days; [None] is ValueError. *)
Variable to_day : Z -> Z -> Z -> option Z.
(** [strptime(s, "%Y-%m-%d %H:%M:%S")] as a number of seconds; [None] is ValueError. *)
Variable to_stamp : string -> option Z.

Definition ints (l : list string) : option (list Z) := all_read to_int l.
(** thies.py 296-300, [_parse_date]. *)
Definition parse_date (w : string) : option Z :=
  match ints (split_on "."%char w) with
  | Some [day; month; year] => to_day (if (year <? 100)%Z then year + 2000 else year)%Z month day
  | _ => None
  end.
(** thies.py 303-305, [_parse_time], with the ranges of [datetime.time]. *)
Definition parse_clock (w : string) : option Z :=
  match ints (split_on ":"%char w) with
  | Some [h; m; s] =>
      if ((0 <=? h) && (h <? 24) && (0 <=? m) && (m <? 60) && (0 <=? s) && (s <? 60))%Z then Some (h * 3600 + m * 60 + s)%Z else None
  | _ => None
  end.
(** thies.py 222-250: one column. *)
Definition read_field (key w : string) : option field :=
  if String.eqb key "_date" then option_map FDay (parse_date w)
  else if String.eqb key "_time" then option_map FClock (parse_clock w)
  else if mem_str key float_keys then option_map FNum (to_float w)
  else if mem_str key text_keys then Some (FText w)
  else option_map (fun z => FNum (inject_Z z)) (to_int w).
(** thies.py 219-251; [n] is [expected_columns]. *)
Fixpoint read_columns (n : nat) (values : list string) (table : list (nat * string)) : result (list (string * field)) :=
  match table with
  | [] => Ok []
  | (i, key) :: r =>
      if n - 1 <=? i then Ok []
      else match read_field key (nth i values "") with
           | None => Raise ValueError
           | Some x => bind (read_columns n values r) (fun xs => Ok ((key, x) :: xs))
           end
  end.
(** thies.py 252-257: 22 diameters with 20 velocities each; numbers beyond the range of
    16 bits are not modelled. *)
Definition read_spectrum (n : nat) (values : list string) : result (option (list (list Z))) :=
  if 79 <? n then
    match ints (firstn 440 (skipn 79 values)) with
    | None => Raise ValueError
    | Some zs => if length zs =? 440 then Ok (Some (map (fun d => firstn 20 (skipn (20 * d) zs)) (seq 0 22))) else Raise ValueError
    end
  else Ok None.
(** thies.py 212-265, [_read_line]; [None]: the line is ignored. *)
Definition read_line (n : nat) (line : string) (stamp : option Z) : result (option record) :=
  let values := split_on ";"%char (strip_char ";"%char (strip line)) in
  if negb ((length values =? n) || (length values =? n + 4)) then Ok None
  else bind (read_columns n values telegram4) (fun fields => bind (read_spectrum n values) (fun spectrum =>
    bind (match stamp with
          | Some t => Ok t
          | None => match get String.eqb "_date" fields, get String.eqb "_time" fields with
                    | Some (FDay d), Some (FClock s) => Ok (d * 86400 + s)%Z
                    | _, _ => Raise IndexError
                    end
          end) (fun t => Ok (Some {| th_time := t; th_fields := fields; th_spectrum := spectrum |})))).

(** ** Files *)
(** The lines with their time stamps; an entry may fail to be read. *)
Fixpoint read_items (n : nat) (items : list (result (string * option Z))) : result (list record) :=
  match items with
  | [] => Ok []
  | x :: r => bind x (fun lt => bind (read_line n (fst lt) (snd lt)) (fun o => bind (read_items n r) (fun rest =>
                Ok (match o with Some a => a :: rest | None => rest end))))
  end.
(** thies.py 159-162: a row of [read_toa5] ; [None]: without "RawString" or
    "TIMESTAMP". *)
Definition toa5_item (row : option (string * Z)) : result (string * option Z) :=
  match row with Some (line, t) => Ok (line, Some t) | None => Raise KeyError end.
(** thies.py 166-172. *)
Definition dated_item (line : string) : result (string * option Z) :=
  match split_first ";"%char line with
  | None => Raise ValueError
  | Some (stamp, telegram) =>
      match to_stamp stamp with
      | None => Raise ValueError
      | Some t => Ok ((rstrip_char ";"%char (strip telegram) ++ ";")%string, Some t)
      end
  end.
(** thies.py 157-176, the three formats; [toa5] is what [read_toa5] returns. *)
Definition log_items (toa5 : list (option (string * Z))) (lines : list string) : list (result (string * option Z)) :=
  match lines with
  | [] => []
  | first :: rest =>
      if contains "TOA5" first then map toa5_item toa5
      else if String.prefix "datetime [utc];" (lower first) then map dated_item rest
      else map (fun line => Ok (line, None)) lines
  end.
(** thies.py 156-183, [_read_data]; [truncated] is "truncate_columns" of the site. *)
Definition read_log (truncated : option nat) (toa5 : list (option (string * Z))) (lines : list string) : result (list record) :=
  let n := match truncated with Some k => k | None => 521 end - 1 in
  bind (read_items n (log_items toa5 lines)) (fun rs => match rs with [] => Raise ValidTimeStampError | _ => Ok rs end).
(** thies.py 267-277, [_screen_time]: the date and the records. *)
Definition day_of_second (t : Z) : Z := (t / 86400)%Z.
Definition screen_records (date : option Z) (rs : list record) : result (Z * list record) :=
  match date with
  | None => match rs with [] => Raise IndexError | r :: _ => Ok (day_of_second (th_time r), rs) end
  | Some d =>
      match filter (fun r => Z.eqb (day_of_second (th_time r)) d) rs with
      | [] => Raise DisdrometerDataError
      | kept => Ok (d, kept)
      end
  end.
(** thies.py 205-210. *)
Definition serial_of (r : record) : option field := get String.eqb "_serial_number" (th_fields r).
Definition same_text (a b : option field) : bool := match a, b with Some (FText u), Some (FText v) => String.eqb u v | _, _ => false end.
Definition serial_number (rs : list record) : result string :=
  match rs with
  | [] => Raise IndexError
  | r :: _ =>
      match serial_of r with
      | Some (FText w) => if forallb (fun x => same_text (serial_of x) (serial_of r)) rs then Ok w else Raise DisdrometerDataError
      | _ => Raise IndexError
      end
  end.
(** thies.py 185-203, [_append_data]: the columns whose names do not start with an underscore. *)
Definition column (key : string) (rs : list record) : list Q :=
  flat_map (fun r => match get String.eqb key (th_fields r) with Some (FNum x) => [x] | _ => [] end) rs.
Definition public (key : string) : bool := negb (String.prefix "_" key).
Definition keys_of (rs : list record) : list string :=
  match rs with [] => [] | r :: _ => filter public (map fst (th_fields r)) end.
(** thies.py 195-198, the hours since the midnight of the first record. *)
Definition record_hour (first t : Z) : Q := (inject_Z (t - day_of_second first * 86400) / 3600)%Q.
(** thies.py 285-293. *)
Definition velocity_bins : result bins := create_vectors [5; 6; 7; 1; 1] [1 # 5; 2 # 5; 4 # 5; 1; 10]%Q 0.
Definition diameter_bins : result bins := create_vectors [3; 6; 13] [125 # 1000; 25 # 100; 5 # 10]%Q (125 # 1000).
(** thies.py 279-283, [mask_invalid_values]. *)
Definition too_much (x : Q) : masked Q := if qlt 999 x then None else Some x.
(** thies.py 143-154, [convert_units], for a variable with a time. *)
Definition in_units (key : string) (x : Q) : Q :=
  if mem_str key ["rainfall_rate_1min_total"; "rainfall_rate"; "rainfall_rate_1min_solid"] then (x / (3600 / (1 # 1000)))%Q
  else if String.eqb key "V_sensor_supply" then (x / 10)%Q
  else if String.eqb key "I_mean_laser" then (x / 100)%Q
  else if mem_str key ["T_interior"; "T_ambient"; "T_laser_driver"] then (x + (27315 # 100))%Q
  else x.
Definition out_value (key : string) (x : Q) : masked Q :=
  option_map (in_units key) (if String.eqb key "rainfall_rate" then too_much x else Some x).
Record thies_out := { to_date : Z; to_hours : list Q; to_cols : list (string * list (masked Q)); to_spectra : list (list (list Z));
  to_velocity : list Q; to_diameter : list Q; to_serial : string }.
(** cloudnet_instrument.py 49-57: the screening of the time and of an array. *)
Definition in_order_of (argsort : list Q -> list nat) (hours : list Q) : list nat * list nat :=
  let ind := argsort hours in (ind, unique_index (take hours ind)).
Definition arranged {A} (n : nat) (ind : list nat * list nat) (l : list A) : list A :=
  along_time (length (fst ind)) (snd ind) (along_time n (fst ind) l).
(** thies.py 124-141 and 112-116; the spectra are missing in truncated files.  The bounds and
    widths of the classes are treated like their centres. *)
Definition thies_data (argsort : list Q -> list nat) (date : option Z) (rs : list record) : result thies_out :=
  bind (screen_records date rs) (fun ds =>
  let kept := snd ds in
  bind (serial_number kept) (fun serial => bind velocity_bins (fun v => bind diameter_bins (fun d =>
    let first := match kept with [] => 0%Z | r :: _ => th_time r end in
    let hours := map (fun r => record_hour first (th_time r)) kept in
    let ind := in_order_of argsort hours in
    let n := length hours in
    Ok {| to_date := fst ds; to_hours := arranged n ind hours;
          to_cols := map (fun k => (k, map (out_value k) (arranged n ind (column k kept)))) (keys_of kept);
          to_spectra := arranged n ind (flat_map (fun r => match th_spectrum r with Some s => [s] | None => [] end) kept);
          to_velocity := arranged n ind (b_mid v); to_diameter := map (fun x => (x / 1000)%Q) (arranged n ind (b_mid d)); to_serial := serial |})))).
(** thies.py 104-120, [thies2nc]: errors of reading; a file without the rain rate fails later,
    in [mask_invalid_values]. *)
Definition unreadable {A} (x : result A) : result A :=
  match x with Raise ValueError | Raise IndexError => Raise DisdrometerDataError | y => y end.
Definition thies2nc (argsort : list Q -> list nat) (truncated : option nat) (date : option Z) (toa5 : list (option (string * Z))) (lines : list string)
  : result thies_out :=
  bind (unreadable (bind (read_log truncated toa5 lines) (thies_data argsort date))) (fun o =>
    if existsb (fun kc => String.eqb (fst kc) "rainfall_rate") (to_cols o) then Ok o else Raise KeyError).
End Thies.

(** ** Products of microwave radiometers *)
(** mwr_tools.py 177-186, [_read_mwrpy_coeffs]: the files of the folder and the list of paths;
    [content] is what the server sends, and every request succeeds. *)
Fixpoint put_file (path : string) (x : string) (files : list (string * string)) : list (string * string) :=
  match files with
  | [] => [(path, x)]
  | (p, y) :: r => if String.eqb p path then (p, x) :: r else (p, y) :: put_file path x r
  end.
Definition coefficient_files (content : string -> string) (folder : string) (links : list string) : list (string * string) * list string :=
  fold_left (fun st link =>
    let path := (folder ++ "/" ++ basename link)%string in
    (put_file path (content link) (fst st), snd st ++ [path])) links ([], []).
Inductive mwr_product := Single | Multi | Lhumpro.
(** What the functions of mwrpy do: write the file with these quality flags (a masked flag is
    [None]), raise MissingInputData, or another error; these leave no file. *)
Inductive retrieval := Written (lwp temperature : list (masked Z)) | MissingInput | Failed (e : exn).
(** mwr_tools.py 112-117. *)
Definition some_valid (flags : list (masked Z)) : bool := existsb (fun f => match f with Some z => Z.eqb z 0 | None => false end) flags.
(** mwr_tools.py 88-119 with 160-165: type and title of the product; and whether the output
    file exists afterwards. *)
Definition generate_mwr (p : mwr_product) (location : string) (x : retrieval) : result (string * string) * bool :=
  match x with
  | MissingInput => (Raise ValidTimeStampError, false)
  | Failed e => (Raise e, false)
  | Written lwp temperature =>
      let flags := match p with Multi => temperature | _ => lwp end in
      if negb (some_valid flags) then (Raise ValidTimeStampError, true)
      else (Ok (match p with
                | Multi => ("mwr-multi", ("MWR multiple-pointing from " ++ location)%string)
                | _ => ("mwr-single", ("MWR single-pointing from " ++ location)%string)
                end), true)
  end.
