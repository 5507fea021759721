(** Model of the Parsivel reader of level 1b files
    (instruments/disdrometer/parsivel.py; all line numbers refer to this file). *)
From Coq Require Import DecimalString.
From Verif Require Import Base GridModel OutputModel SiteModel ReaderModel StationModel.
Local Open Scope string_scope.
Local Open Scope nat_scope.
Local Notation length := List.length (only parsing).

(** [s.removeprefix(p)] if [s] starts with [p], else [None]. *)
Fixpoint after_prefix (p s : string) : option string :=
  match p, s with
  | EmptyString, _ => Some s
  | String a p', String b s' => if Ascii.eqb a b then after_prefix p' s' else None
  | _, _ => None
  end.
(** [s.removesuffix(e)] for a non-empty [e]. *)
Fixpoint remove_suffix (e s : string) : string :=
  if String.eqb s e then EmptyString
  else match s with
       | EmptyString => EmptyString
       | String a s' => String a (remove_suffix e s')
       end.
(** [p in s] for texts. *)
Fixpoint contains (p s : string) : bool :=
  match after_prefix p s with
  | Some _ => true
  | None => match s with EmptyString => false | String _ s' => contains p s' end
  end.
(** [s.strip(c)] for one character. *)
Fixpoint lstrip_char (c : ascii) (s : string) : string :=
  match s with
  | EmptyString => EmptyString
  | String d s' => if Ascii.eqb d c then lstrip_char c s' else s
  end.
Definition strip_char (c : ascii) (s : string) : string := rstrip_char c (lstrip_char c s).
Definition mem_str (s : string) (l : list string) : bool := existsb (String.eqb s) l.

(** Lines 173-192, [CSV_HEADERS].  The degree sign is one latin-1 character. *)
Definition degree : string := String (ascii_of_nat 176) "".
Definition csv_headers : list (string * string) :=
  [("Date", "_date"); ("Time", "_time");
   ("Intensity of precipitation (mm/h)", "rainfall_rate");
   ("Precipitation since start (mm)", "_rain_accum");
   ("Radar reflectivity (dBz)", "radar_reflectivity");
   ("MOR Visibility (m)", "visibility");
   ("Signal amplitude of Laserband", "sig_laser");
   ("Number of detected particles", "n_particles");
   ("Temperature in sensor (" ++ degree ++ "C)", "T_sensor");
   ("Heating current (A)", "I_heating");
   ("Sensor voltage (V)", "V_power_supply");
   ("Kinetic Energy", "kinetic_energy");
   ("Snow intensity (mm/h)", "snowfall_rate");
   ("Weather code SYNOP WaWa", "synop_WaWa");
   ("Weather code METAR/SPECI", "_metar");
   ("Weather code NWS", "_nws");
   ("Optics status", "state_sensor");
   ("Spectrum", "spectrum")].
(** Lines 274-313, [TELEGRAM]. *)
Definition telegram_names : list (Z * string) :=
  [(1, "rainfall_rate"); (2, "_rain_accum"); (3, "synop_WaWa"); (4, "synop_WW");
   (5, "_metar_speci"); (6, "_nws"); (7, "radar_reflectivity"); (8, "visibility");
   (9, "interval"); (10, "sig_laser"); (11, "n_particles"); (12, "T_sensor");
   (13, "_sensor_id"); (14, "_iop_firmware_version"); (15, "_dsp_firmware_version");
   (16, "I_heating"); (17, "V_power_supply"); (18, "state_sensor"); (19, "_datetime");
   (20, "_time"); (21, "_date"); (22, "_station_name"); (23, "_station_number");
   (24, "_rain_amount_absolute"); (25, "error_code"); (26, "_T_pcb"); (27, "_T_right");
   (28, "_T_left"); (30, "rainfall_rate"); (31, "rainfall_rate"); (32, "_rain_accum");
   (33, "radar_reflectivity"); (34, "kinetic_energy"); (35, "snowfall_rate");
   (90, "number_concentration"); (91, "fall_velocity"); (93, "spectrum")]%Z.
(** Lines 394-421, [PARSERS]: the kind of the value of a header; all others are
    taken as text ([next]). *)
Inductive kind := KInt | KFloat | KDate | KTime | KStamp | KVec | KSpec | KText.
Definition int_names : list string :=
  ["T_sensor"; "_T_pcb"; "_T_right"; "_T_left"; "error_code"; "interval"; "n_particles";
   "sig_laser"; "state_sensor"; "synop_WaWa"; "synop_WW"; "visibility"].
Definition float_names : list string :=
  ["I_heating"; "V_power_supply"; "_rain_accum"; "_rain_amount_absolute"; "kinetic_energy";
   "radar_reflectivity"; "rainfall_rate"; "snowfall_rate"].
Definition kind_of (header : string) : kind :=
  if mem_str header int_names then KInt
  else if mem_str header float_names then KFloat
  else if String.eqb header "_date" then KDate
  else if String.eqb header "_time" then KTime
  else if String.eqb header "_datetime" then KStamp
  else if mem_str header ["fall_velocity"; "number_concentration"] then KVec
  else if String.eqb header "spectrum" then KSpec
  else KText.

Section Parsivel.
(** Dates and times of day. *)
Context {D T : Type}.
(** [int(s)], [float(s)]; [datetime.date(y, m, d)], [datetime.time(h, m, s)]:
    arbitrary partial functions, [None] is ValueError. *)
Variable to_int : string -> option Z.
Variable to_float : string -> option Q.
Variable mk_date : Z -> Z -> Z -> option D.
Variable mk_time : Z -> Z -> Z -> option T.
Inductive cell :=
| CInt (z : Z) | CFloat (q : Q) | CDate (d : D) | CTime (t : T) | CStamp (s : D * T)
| CVec (l : list Q) | CSpec (m : list (list Z)) | CText (s : string).

(** ** Values *)
(** [ValueError] for [None]. *)
Definition or_error {A} (o : option A) : result A :=
  match o with Some a => Ok a | None => Raise ValueError end.
Definition int3 {A} (mk : Z -> Z -> Z -> option A) (a b c : string) : option A :=
  match to_int a, to_int b, to_int c with
  | Some x, Some y, Some z => mk x y z
  | _, _, _ => None
  end.
(** Lines 326-338, the token. *)
Definition read_date (token : string) : option D :=
  let ymd (y m d : string) := if String.length y =? 4 then int3 mk_date y m d else None in
  if has_char "/" token then
    match split_on "/" token with [y; m; d] => ymd y m d | _ => None end
  else if has_char "." token then
    match split_on "." token with [d; m; y] => ymd y m d | _ => None end
  else None.
(** Lines 341-344. *)
Definition read_time (token : string) : option T :=
  match split_on ":" token with [h; m; s] => int3 mk_time h m s | _ => None end.
(** Lines 347-362. *)
Definition read_stamp (token : string) : option (D * T) :=
  match int3 mk_date (substring 0 4 token) (substring 4 2 token) (substring 6 2 token),
        int3 mk_time (substring 8 2 token) (substring 10 2 token) (substring 12 2 token) with
  | Some d, Some t => Some (d, t)
  | _, _ => None
  end.
(** Lines 320-323. *)
Definition read_float (token : string) : option Q := to_float (replace_char "," "." token).
(** One token: [next] raises StopIteration if there is none. *)
Definition one_token (f : string -> option cell) (tokens : list string) : result (cell * list string) :=
  match tokens with
  | [] => Raise StopIteration
  | t :: rest => bind (or_error (f t)) (fun c => Ok (c, rest))
  end.
(** Lines 365-366: tokens are taken and read one after the other. *)
Fixpoint take_floats (n : nat) (tokens : list string) : result (list Q * list string) :=
  match n with
  | 0 => Ok ([], tokens)
  | S n' => match tokens with
            | [] => Raise StopIteration
            | t :: rest =>
                bind (or_error (read_float t)) (fun q =>
                bind (take_floats n' rest) (fun p => Ok (q :: fst p, snd p)))
            end
  end.
(** Lines 369-388.  Values outside the range of 16-bit integers are not treated
    specially (numpy may reject them). *)
Definition zero_spectrum : list (list Z) := repeat (repeat 0%Z 32) 32.
Definition int_or_zero (s : string) : option Z := if String.eqb s "" then Some 0%Z else to_int s.
Definition spectrum_of (values : option (list Z)) : result cell :=
  bind (or_error values) (fun l => bind (or_error (reshape 32 32 l)) (fun m => Ok (CSpec m))).
Definition parse_spectrum (tokens : list string) : result (cell * list string) :=
  match tokens with
  | [] => Raise StopIteration
  | first :: rest =>
      if String.eqb first "<SPECTRUM>ZERO</SPECTRUM>" then Ok (CSpec zero_spectrum, rest)
      else match after_prefix "<SPECTRUM>" first with
      | Some s =>
          match skipn 1023 rest with
          | [] => Raise StopIteration
          | e :: rest' =>
              if String.eqb e "</SPECTRUM>" then
                bind (spectrum_of (all_read int_or_zero (s :: firstn 1023 rest)))
                     (fun c => Ok (c, rest'))
              else Raise ValueError
          end
      | None =>
          if has_char "/" first then
            bind (spectrum_of (all_read to_int (split_on "/" (remove_suffix "/R" first))))
                 (fun c => Ok (c, rest))
          else
            bind (spectrum_of (all_read to_int (first :: firstn 1023 rest)))
                 (fun c => Ok (c, skipn 1023 rest))
      end
  end.
Definition parse_value (header : string) (tokens : list string) : result (cell * list string) :=
  match kind_of header with
  | KInt => one_token (fun t => option_map CInt (to_int t)) tokens
  | KFloat => one_token (fun t => option_map CFloat (read_float t)) tokens
  | KDate => one_token (fun t => option_map CDate (read_date t)) tokens
  | KTime => one_token (fun t => option_map CTime (read_time t)) tokens
  | KStamp => one_token (fun t => option_map CStamp (read_stamp t)) tokens
  | KVec => bind (take_floats 32 tokens) (fun p => Ok (CVec (fst p), snd p))
  | KSpec => parse_spectrum tokens
  | KText => one_token (fun t => Some (CText t)) tokens
  end.

(** ** Files with one row for each time *)
(** Columns; an entry is [None] if there is no value. *)
Definition table := list (string * list (option cell)).
(** Lines 466-472, [_parse_row]. *)
Fixpoint parse_values (headers : list string) (tokens : list string) : result (list cell * list string) :=
  match headers with
  | [] => Ok ([], tokens)
  | h :: hs => bind (parse_value h tokens) (fun p =>
               bind (parse_values hs (snd p)) (fun q => Ok (fst p :: fst q, snd q)))
  end.
Definition parse_row (headers : list string) (row : string) : result (list cell) :=
  bind (parse_values headers (split_on ";" (remove_suffix ";" row))) (fun p =>
  match snd p with [] => Ok (fst p) | _ => Raise ValueError end).
(** [{header: [] for header in headers}]. *)
Definition empty_cols (headers : list string) : table :=
  fold_left (fun d h => put String.eqb h [] d) headers [].
(** The values of a row are appended to their columns. *)
Definition append_all (pairs : list (string * cell)) (d : table) : table :=
  fold_left (fun d kv => push String.eqb (fst kv) (Some (snd kv)) d) pairs d.
(** Lines 445-463, [_read_rows].  A row gives as many values as there are headers,
    so [zip(strict=True)] does not raise. *)
Fixpoint rows_loop (headers : list string) (rows : list string) (d : table) (invalid : nat)
  : result (table * nat) :=
  match rows with
  | [] => Ok (d, invalid)
  | row :: rest =>
      if String.eqb row "" then rows_loop headers rest d invalid
      else match parse_row headers row with
           | Ok parsed => rows_loop headers rest (append_all (combine headers parsed) d) invalid
           | Raise ValueError | Raise StopIteration => rows_loop headers rest d (S invalid)
           | Raise e => Raise e
           end
  end.
Definition read_rows (headers : list string) (rows : list string) : result table :=
  bind (rows_loop headers rows (empty_cols headers) 0) (fun p =>
  if snd p =? length rows then Raise DisdrometerDataError else Ok (fst p)).
(** Lines 434-435, [_parse_headers]. *)
Fixpoint header_names (fields : list string) : result (list string) :=
  match fields with
  | [] => Ok []
  | f :: fs => match get String.eqb (strip f) csv_headers with
               | Some name => bind (header_names fs) (fun ns => Ok (name :: ns))
               | None => Raise KeyError
               end
  end.
Definition parse_headers (line : string) : result (list string) := header_names (split_on ";" line).
(** Lines 438-442, [_parse_telegram]; the items from number [i] on. *)
Definition unknown_name (i : nat) : string := "_unknown_" ++ NilZero.string_of_uint (Nat.to_uint i).
Fixpoint telegram_from (i : nat) (telegram : list (option Z)) : result (list string) :=
  match telegram with
  | [] => Ok []
  | None :: ts => bind (telegram_from (S i) ts) (fun ns => Ok (unknown_name i :: ns))
  | Some num :: ts => match get Z.eqb num telegram_names with
                      | Some name => bind (telegram_from (S i) ts) (fun ns => Ok (name :: ns))
                      | None => Raise KeyError
                      end
  end.
Definition parse_telegram (telegram : list (option Z)) : result (list string) := telegram_from 0 telegram.

(** ** Data logger files *)
(** [datetime.datetime.strptime(s, "%Y-%m-%d %H:%M:%S")]. *)
Variable to_stamp : string -> option (D * T).
Record raw_row := { rr_scalars : list (string * cell); rr_conc : list Q; rr_vel : list Q; rr_spec : list Z }.
Definition no_values : raw_row := {| rr_scalars := []; rr_conc := []; rr_vel := []; rr_spec := [] |}.
(** Lines 509-525 (and 586-602): one value. *)
Definition set_scalar (h : string) (r : raw_row) (o : option cell) : result raw_row :=
  bind (or_error o) (fun c =>
  Ok {| rr_scalars := put String.eqb h c (rr_scalars r); rr_conc := rr_conc r; rr_vel := rr_vel r;
        rr_spec := rr_spec r |}).
Definition raw_value (h value : string) (r : raw_row) : result raw_row :=
  if String.eqb h "_datetime" then set_scalar h r (option_map CStamp (to_stamp value))
  else if String.eqb h "number_concentration" then
    bind (or_error (to_float value)) (fun q =>
    Ok {| rr_scalars := rr_scalars r; rr_conc := rr_conc r ++ [q]; rr_vel := rr_vel r; rr_spec := rr_spec r |}%list)
  else if String.eqb h "fall_velocity" then
    bind (or_error (to_float value)) (fun q =>
    Ok {| rr_scalars := rr_scalars r; rr_conc := rr_conc r; rr_vel := rr_vel r ++ [q]; rr_spec := rr_spec r |}%list)
  else if String.eqb h "spectrum" then
    bind (or_error (to_int value)) (fun z =>
    Ok {| rr_scalars := rr_scalars r; rr_conc := rr_conc r; rr_vel := rr_vel r; rr_spec := rr_spec r ++ [z] |}%list)
  else match kind_of h with
       | KInt => set_scalar h r (option_map CInt (to_int value))
       | KFloat => set_scalar h r (option_map CFloat (to_float value))
       | _ => set_scalar h r (Some (CText value))
       end.
(** [zip(headers, data_line, strict=True)]: ValueError at the end if the lengths differ. *)
Fixpoint raw_values (headers : list (option string)) (values : list string) (r : raw_row) : result raw_row :=
  match headers, values with
  | [], [] => Ok r
  | h :: hs, v :: vs => match h with
                        | None => raw_values hs vs r
                        | Some name => bind (raw_value name v r) (raw_values hs vs)
                        end
  | _, _ => Raise ValueError
  end.
Definition named (headers : list (option string)) (h : string) : bool :=
  existsb (fun o => match o with Some n => String.eqb n h | None => false end) headers.
(** Lines 529-538 (and 606-615): the values of a row are stored. *)
Definition store_raw (headers : list (option string)) (r : raw_row) (d : table) : result table :=
  let d := append_all (rr_scalars r) d in
  bind (if named headers "spectrum" then
          bind (or_error (reshape 32 32 (rr_spec r))) (fun m =>
          Ok (push String.eqb "spectrum" (Some (CSpec m)) d))
        else Ok d) (fun d =>
  let d := if named headers "number_concentration"
           then push String.eqb "number_concentration" (Some (CVec (rr_conc r))) d else d in
  Ok (if named headers "fall_velocity"
      then push String.eqb "fall_velocity" (Some (CVec (rr_vel r))) d else d)).
(** Lines 496-544 (and 572-621). *)
Fixpoint raw_loop (headers : list (option string)) (rows : list (list string)) (d : table) (invalid : nat)
  : result (table * nat) :=
  match rows with
  | [] => Ok (d, invalid)
  | row :: rest =>
      match raw_values headers row no_values with
      | Ok r => bind (store_raw headers r d) (fun d' => raw_loop headers rest d' invalid)
      | Raise ValueError => raw_loop headers rest d (S invalid)
      | Raise e => Raise e
      end
  end.
Definition known_names (headers : list (option string)) : list string := flat_map opt_list headers.
Definition read_raw_rows (headers : list (option string)) (rows : list (list string)) : result table :=
  bind (raw_loop headers rows (empty_cols (known_names headers)) 0) (fun p =>
  if snd p =? length rows then Raise DisdrometerDataError else Ok (fst p)).
(** The names of logger columns, [TOA5_HEADERS.get] after the substitutions of lines
    487 and 557-563: arbitrary partial functions of the field. *)
Variable toa5_name : string -> option string.
Variable atmos_name : string -> option string.
(** Lines 475-544, [_read_toa5], on the rows of [csv.reader]. *)
Definition read_toa5_file (rows : list (list string)) : result table :=
  match rows with
  | _ :: header :: _ :: _ :: rest => read_raw_rows (map toa5_name header) rest
  | _ => Raise StopIteration
  end.
(** Lines 547-621, [_read_pyatmoslogger_file].  That this function decodes the file as
    UTF-8, not latin-1, is not modelled. *)
Definition atmos_fields (line : string) : list string := split_on ";" (strip_char ";" (strip line)).
Definition read_atmos (lines : list string) : result table :=
  match lines with
  | [] => Raise IndexError
  | header :: rest => read_raw_rows (map atmos_name (atmos_fields header)) (map atmos_fields rest)
  end.

(** ** Records *)
(** Lines 624-644, [_read_typ_op4a]; tokens left over are ignored. *)
Definition skipped_keys : list string := ["19"; "30"; "31"; "32"; "33"].
Fixpoint op4a_values (lines : list string) (d : list (string * cell)) : result (list (string * cell)) :=
  match lines with
  | [] => Ok d
  | line :: rest =>
      match partition ":" (strip line) with
      | None => op4a_values rest d
      | Some (key, value) =>
          if mem_str key skipped_keys then op4a_values rest d
          else bind (or_error (to_int key)) (fun num =>
          match get Z.eqb num telegram_names with
          | None => op4a_values rest d
          | Some name =>
              bind (parse_value name (split_on ";" value)) (fun p =>
              op4a_values rest (put String.eqb name (fst p) d))
          end)
      end
  end.
Definition read_op4a (lines : list string) : result (list (string * cell)) := op4a_values lines [].
(** A record found by the regular expression of lines 657-662: the time stamp, [None]
    if [datetime.datetime] rejects the numbers, and the lines of the text after it.
    The search itself is not modelled. *)
Record fmi_record := { fr_stamp : option (D * T); fr_lines : list string }.
(** Lines 668-674. *)
Definition add_value (d : table) (kv : string * cell) : table :=
  let d := match column_of String.eqb (fst kv) d with
           | Some _ => d
           | None => (d ++ [(fst kv, repeat None (length (match column_of String.eqb "_datetime" d with
                                                          | Some c => c | None => [] end)))])%list
           end in
  push String.eqb (fst kv) (Some (snd kv)) d.
Definition add_values (record : list (string * cell)) (d : table) : table :=
  let d := fold_left add_value record d in
  map (fun kc => match get String.eqb (fst kc) record with
                 | Some _ => kc
                 | None => if String.eqb (fst kc) "_datetime" then kc else (fst kc, snd kc ++ [None])%list
                 end) d.
(** Lines 647-686, [_read_fmi]: only the ValueError of [_read_typ_op4a] is caught. *)
Fixpoint fmi_loop (records : list fmi_record) (d : table) : result table :=
  match records with
  | [] => Ok d
  | r :: rest =>
      match read_op4a (fr_lines r) with
      | Raise ValueError => fmi_loop rest d
      | Raise e => Raise e
      | Ok record =>
          let d := add_values record d in
          match fr_stamp r with
          | None => Raise ValueError
          | Some s => fmi_loop rest (push String.eqb "_datetime" (Some (CStamp s)) d)
          end
      end
  end.
Definition read_fmi (records : list fmi_record) : result table := fmi_loop records [("_datetime", [])].

(** ** All files *)
(** A file: its lines, its rows according to [csv.reader], its records. *)
Record pfile := { pf_lines : list string; pf_csv : list (list string); pf_records : list fmi_record }.
(** Lines 696-719. *)
Definition read_file (telegram : option (list (option Z))) (f : pfile) : result table :=
  match pf_lines f with
  | [] => Raise DisdrometerDataError
  | first :: rest =>
      if contains "TOA5" first then read_toa5_file (pf_csv f)
      else if contains "N00" first then read_atmos (pf_lines f)
      else if contains "TYP OP4A" first then
        bind (read_op4a (pf_lines f)) (fun d => Ok (map (fun kv => (fst kv, [Some (snd kv)])) d))
      else if contains "Date" first then
        bind (parse_headers first) (fun headers => read_rows headers rest)
      else if contains "[" first then read_fmi (pf_records f)
      else match telegram with
           | Some t => bind (parse_telegram t) (fun headers => read_rows headers (pf_lines f))
           | None => Raise ValueError
           end
  end.
(** Lines 720-724: [datetime.combine] for the two columns.  They hold dates and times
    only, so TypeError is not reached. *)
Definition combine_stamp (p : option cell * option cell) : result (option cell) :=
  match p with
  | (Some (CDate d), Some (CTime t)) => Ok (Some (CStamp (d, t)))
  | _ => Raise TypeError
  end.
Fixpoint combine_stamps (l : list (option cell * option cell)) : result (list (option cell)) :=
  match l with
  | [] => Ok []
  | p :: r => bind (combine_stamp p) (fun s => bind (combine_stamps r) (fun ss => Ok (s :: ss)))
  end.
Definition add_stamps (d : table) : result table :=
  match column_of String.eqb "_datetime" d with
  | Some _ => Ok d
  | None =>
      match column_of String.eqb "_date" d, column_of String.eqb "_time" d with
      | Some dates, Some times =>
          if length dates =? length times
          then bind (combine_stamps (combine dates times)) (fun ss => Ok (d ++ [("_datetime", ss)])%list)
          else Raise ValueError
      | _, _ => Raise KeyError
      end
  end.
(** [combined_data[key].extend(values)]. *)
Fixpoint extend_col (k : string) (vs : list (option cell)) (d : table) : table :=
  match d with
  | [] => [(k, vs)]
  | (k', c) :: d' => if String.eqb k k' then (k', c ++ vs)%list :: d' else (k', c) :: extend_col k vs d'
  end.
Fixpoint read_files (telegram : option (list (option Z))) (no_stamps : bool) (files : list pfile)
  (combined : table) : result table :=
  match files with
  | [] => Ok combined
  | f :: rest =>
      bind (read_file telegram f) (fun d =>
      bind (if no_stamps then add_stamps d else Ok d) (fun d =>
      read_files telegram no_stamps rest
        (fold_left (fun c kv => extend_col (fst kv) (snd kv) c) d combined)))
  end.
(** Lines 689-742, [_read_parsivel]; an entry [None] is masked in the resulting array. *)
Definition read_parsivel (files : list pfile) (telegram : option (list (option Z)))
  (stamps : option (list (D * T))) : result table :=
  bind (read_files telegram (match stamps with None => true | Some _ => false end) files []) (fun d =>
  let d := match stamps with
           | Some l => put String.eqb "_datetime" (map (fun s => Some (CStamp s)) l) d
           | None => d
           end in
  match column_of String.eqb "_datetime" d with
  | Some c => Ok (put String.eqb "time" c d)
  | None => Raise KeyError
  end).

(** ** The wanted day *)
Variable date_eqb : D -> D -> bool.
(** [raw_data[key][valid_mask]]: IndexError if the lengths differ. *)
Definition mask_column {A} (mask : list bool) (c : list A) : result (list A) :=
  if length mask =? length c
  then Ok (map snd (filter (fun p => fst p) (combine mask c)))
  else Raise IndexError.
Fixpoint mask_table (mask : list bool) (d : table) : result table :=
  match d with
  | [] => Ok []
  | (k, c) :: d' => bind (mask_column mask c) (fun c' => bind (mask_table mask d') (fun r => Ok ((k, c') :: r)))
  end.
Definition date_of (c : option cell) : option D :=
  match c with Some (CStamp s) => Some (fst s) | _ => None end.
(** Lines 106-116, [Parsivel._screen_time]: the date of the file and the rows. *)
Definition screen_day (expected : option D) (d : table) : result (D * table) :=
  match column_of String.eqb "time" d with
  | None => Raise KeyError
  | Some time =>
      match expected with
      | None => match time with
                | [] => Raise IndexError
                | t :: _ => match date_of t with Some day => Ok (day, d) | None => Raise TypeError end
                end
      | Some day =>
          let mask := map (fun t => match date_of t with Some x => date_eqb x day | None => false end) time in
          if existsb (fun b => b) mask then bind (mask_table mask d) (fun d' => Ok (day, d'))
          else Raise DisdrometerDataError
      end
  end.
(** Lines 136-143: the serial number, [None] in the result if there is no column.
    Values of [_sensor_id] are texts.  A comparison with a masked value is masked,
    which counts as false. *)
Definition cell_text (c : option cell) : masked string :=
  match c with Some (CText s) => Some s | _ => None end.
Definition differs (a b : masked string) : bool :=
  match a, b with Some x, Some y => negb (String.eqb x y) | _, _ => false end.
Definition serial_number (d : table) : result (option (masked string)) :=
  match column_of String.eqb "_sensor_id" d with
  | None => Ok None
  | Some ids => match map cell_text ids with
                | [] => Raise IndexError
                | (first :: _) as l => if existsb (differs first) l then Raise DisdrometerDataError
                                     else Ok (Some first)
                end
  end.
(** Lines 84-104, the constructor of [Parsivel] as far as it is modelled. *)
Definition parsivel_data (files : list pfile) (telegram : option (list (option Z)))
  (stamps : option (list (D * T))) (expected : option D) : result (D * table * option (masked string)) :=
  bind (read_parsivel files telegram stamps) (fun d =>
  bind (screen_day expected d) (fun p =>
  bind (serial_number (snd p)) (fun s => Ok (p, s)))).
End Parsivel.
