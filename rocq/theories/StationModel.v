(** Model of the readers of weather stations and present weather sensors
    (instruments/fd12p.py, instruments/weather_station.py, instruments/toa5.py). *)
From Verif Require Import Base ArrayModel GridModel OutputModel SiteModel ReaderModel.
Local Open Scope string_scope.
Local Open Scope nat_scope.
Local Notation length := List.length (only parsing).

(** [c in s] for one character. *)
Fixpoint has_char (c : ascii) (s : string) : bool :=
  match s with
  | EmptyString => false
  | String d s' => Ascii.eqb d c || has_char c s'
  end.

(** ** Vaisala FD12P (instruments/fd12p.py) *)
Section FD12P.
Context {D T : Type}.
Variable date_eqb : D -> D -> bool.
(** [int(s)], [float(s)], [_parse_date], [_parse_time]: arbitrary partial functions;
    [None] is ValueError.  [float] may give nan or inf, here [Some None]. *)
Variable to_int : string -> option Z.
Variable to_num : string -> option (masked Q).
Variable to_date : string -> option D.
Variable to_time : string -> option T.
(** fd12p.py 162-171, [_parse_int], [_parse_float]; nan is [None] inside. *)
Definition fd_int (value : string) : option (masked Q) :=
  if has_char "/" value then Some None else option_map (fun z => Some (inject_Z z)) (to_int value).
Definition fd_float (value : string) : option (masked Q) :=
  if has_char "/" value then Some None else to_num value.
Record fd_row := { f_time : D * T; f_vis : masked Q; f_synop : masked Q; f_rate : masked Q;
                   f_amount : masked Q; f_snow : masked Q }.
(** fd12p.py 87-97: one line; [None] is ValueError. *)
Definition fd_line (line : string) : option fd_row :=
  match words line with
  | [c0; c1; _; _; c4; _; _; c7; _; _; c10; c11; c12] =>
      match to_date c0, to_time c1, fd_int c4, fd_int c7, fd_float c10, fd_float c11, fd_int c12 with
      | Some d, Some t, Some v, Some s, Some r, Some a, Some n =>
          Some {| f_time := (d, t); f_vis := v; f_synop := s; f_rate := r; f_amount := a; f_snow := n |}
      | _, _, _, _, _, _, _ => None
      end
  | _ => None
  end.
Record fd_cols := { fc_time : list (D * T); fc_vis : list (masked Q); fc_synop : list (masked Q);
                    fc_rate : list (masked Q); fc_amount : list (masked Q); fc_snow : list (masked Q) }.
(** fd12p.py 98-103: a row is appended. *)
Definition fd_append (c : fd_cols) (line : string) : fd_cols :=
  match fd_line line with
  | None => c
  | Some r => {| fc_time := fc_time c ++ [f_time r]; fc_vis := fc_vis c ++ [f_vis r];
                 fc_synop := fc_synop c ++ [f_synop r]; fc_rate := fc_rate c ++ [f_rate r];
                 fc_amount := fc_amount c ++ [f_amount r]; fc_snow := fc_snow c ++ [f_snow r] |}%list
  end.
(** fd12p.py 78-121, [parse_input_file].  The conversion to int32 and float32 is not
    modelled. *)
Definition fd_parse (expected : option D) (lines : list string) : result fd_cols :=
  let c := fold_left fd_append lines
             {| fc_time := []; fc_vis := []; fc_synop := []; fc_rate := []; fc_amount := []; fc_snow := [] |} in
  let time := match expected with
              | Some d => filter (fun t => date_eqb (fst t) d) (fc_time c)
              | None => fc_time c
              end in
  match time with
  | [] => Raise ValidTimeStampError
  | _ => Ok {| fc_time := time; fc_vis := fc_vis c; fc_synop := fc_synop c; fc_rate := fc_rate c;
               fc_amount := fc_amount c; fc_snow := fc_snow c |}
  end.
(** [is_valid &= mask] for one-dimensional arrays. *)
Definition band (acc : list bool) (mask : list bool) : result (list bool) :=
  if length mask =? length acc then Ok (map2 andb acc mask)
  else match mask with
       | [b] => Ok (map (fun a => a && b) acc)
       | _ => Raise ValueError
       end.
(** [array[valid]] if the array has [n] elements and is not a scalar, as in
    [screen_time_indices] (cloudnet_instrument.py 59-81). *)
Definition cut_time {A} (n : nat) (valid : list bool) (l : list A) : list A :=
  if (length l =? n) && negb (length l =? 1)
  then map snd (filter (fun p => fst p) (combine valid l))
  else l.
(** fd12p.py 131-137, [screen_all_masked], after [add_data] (masked where nan). *)
Definition fd_screen (c : fd_cols) : result fd_cols :=
  let m l := map is_masked l in
  bind (band (map (fun _ => true) (fc_time c)) (m (fc_vis c))) (fun a =>
  bind (band a (m (fc_synop c))) (fun a =>
  bind (band a (m (fc_rate c))) (fun a =>
  bind (band a (m (fc_amount c))) (fun a =>
  bind (band a (m (fc_snow c))) (fun a =>
    let valid := map negb a in
    if existsb (fun b => b) valid then
      let n := length (fc_time c) in
      Ok {| fc_time := cut_time n valid (fc_time c); fc_vis := cut_time n valid (fc_vis c);
            fc_synop := cut_time n valid (fc_synop c); fc_rate := cut_time n valid (fc_rate c);
            fc_amount := cut_time n valid (fc_amount c); fc_snow := cut_time n valid (fc_snow c) |}
    else Raise ValidTimeStampError))))).
(** fd12p.py 46-49, [fd12p2nc] up to the screening. *)
Definition fd_read (expected : option D) (lines : list string) : result fd_cols :=
  bind (fd_parse expected lines) fd_screen.
End FD12P.

(** ** Weather stations (instruments/weather_station.py) *)
Section Stations.
(** Time stamps. *)
Context {S : Type}.
Variable to_num : string -> option (masked Q).
Variable to_stamp : string -> option S.
Inductive wcell := WTime (s : S) | WNum (x : masked Q).
Definition wtable := list (string * list wcell).
(** [float(s)], nan if that fails. *)
Definition num_or_nan (s : string) : wcell :=
  match to_num s with Some x => WNum x | None => WNum None end.

(** *** SIRTA files, Limassol *)
(** One line of the file.  The recognition of lines (the regular expression
    for "# Col. n : title", blank lines and comments) is not modelled; the
    number of a title is [None] if it is not written as [str] writes it. *)
Inductive sirta_line := STitle (no : option nat) (title : string) | SValues (values : list string) | SOther.
(** weather_station.py 728-735. *)
Fixpoint sirta_titles (lines : list sirta_line) (columns : list string) : result (list string) :=
  match lines with
  | [] => Ok columns
  | STitle no title :: r =>
      match no with
      | Some n => if n =? length columns + 1 then sirta_titles r (columns ++ [title])%list else Raise ValueError
      | None => Raise ValueError
      end
  | _ :: r => sirta_titles r columns
  end.
Definition date_title := "Date Time (yyyy-mm-ddThh:mm:ss)".
Definition date_title_z := "Date Time (yyyy-mm-ddThh:mm:ssZ)".
(** [to_stamp_z]: the format that ends with "Z". *)
Variable to_stamp_z : string -> option S.
(** weather_station.py 743-757: one value; [None] is ValueError. *)
Definition sirta_value (column value : string) : option wcell :=
  if String.eqb column date_title then option_map WTime (to_stamp value)
  else if String.eqb column date_title_z then option_map WTime (to_stamp_z value)
  else Some (num_or_nan value).
Fixpoint sirta_row (columns values : list string) (output : wtable) : result wtable :=
  match columns, values with
  | c :: cs, v :: vs =>
      match sirta_value c v with
      | Some x => sirta_row cs vs (push String.eqb c x output)
      | None => Raise ValueError
      end
  | _, _ => Ok output
  end.
Fixpoint sirta_rows (columns : list string) (lines : list sirta_line) (output : wtable) : result wtable :=
  match lines with
  | [] => Ok output
  | SValues values :: r =>
      if length columns =? length values
      then bind (sirta_row columns values output) (sirta_rows columns r)
      else sirta_rows columns r output
  | _ :: r => sirta_rows columns r output
  end.
(** weather_station.py 717-759, [_parse_sirta]. *)
Definition parse_sirta (lines : list sirta_line) : result wtable :=
  bind (sirta_titles lines []) (fun columns =>
    sirta_rows columns lines (fold_left (fun d c => put String.eqb c [] d) columns [])).
(** [self._data[key].extend(values)] for a [defaultdict(list)]. *)
Fixpoint extend (k : string) (vs : list wcell) (d : wtable) : wtable :=
  match d with
  | [] => [(k, vs)]
  | (k', c) :: d' => if String.eqb k k' then (k', c ++ vs)%list :: d' else (k', c) :: extend k vs d'
  end.
Fixpoint limassol_files (files : list (list sirta_line)) (data : wtable) : result wtable :=
  match files with
  | [] => Ok data
  | f :: r => bind (parse_sirta f) (fun t =>
                limassol_files r (fold_left (fun d kv => extend (fst kv) (snd kv) d) t data))
  end.
Fixpoint drop_key (k : string) (d : wtable) : wtable :=
  match d with
  | [] => []
  | (k', c) :: d' => if String.eqb k k' then d' else (k', c) :: drop_key k d'
  end.
(** weather_station.py 663-667, [LimassolWS.__init__]: the table with the column
    "time" last. *)
Definition limassol (files : list (list sirta_line)) : result wtable :=
  bind (limassol_files files []) (fun data =>
    match column_of String.eqb date_title data with
    | None => Raise KeyError
    | Some t => Ok (put String.eqb "time" t (drop_key date_title data))
    end).

(** *** Kenttärova *)
Definition kent_time := "Read time (UTC+2)".
(** A row of [csv.DictReader]: missing fields are [None]; the flag tells that there
    are more values than fields (stored under the key [None]).  Quoting is not
    modelled. *)
Definition dict_row (fields row : list string) : list (string * option string) * bool :=
  (fold_left (fun d kv => put String.eqb (fst kv) (snd kv) d)
     (combine fields (map Some row ++ repeat None (length fields - length row))%list) [],
   length fields <? length row).
(** weather_station.py 394-408: the items of a row.  [float(None)],
    [strptime(None)] and [float] of a list are TypeError. *)
Fixpoint kent_items (items : list (string * option string)) (extra : bool) (raw : wtable) : result wtable :=
  match items with
  | [] => if extra then Raise TypeError else Ok raw
  | (k, None) :: _ => Raise TypeError
  | (k, Some v) :: r =>
      if String.eqb k kent_time then
        match to_stamp v with
        | Some t => kent_items r extra (push String.eqb k (WTime t) raw)
        | None => Ok raw
        end
      else kent_items r extra (push String.eqb k (num_or_nan v) raw)
  end.
Fixpoint kent_rows (fields : list string) (rows : list (list string)) (raw : wtable) : result wtable :=
  match rows with
  | [] => Ok raw
  | [] :: r => kent_rows fields r raw
  | row :: r => let '(items, extra) := dict_row fields row in
                bind (kent_items items extra raw) (kent_rows fields r)
  end.
Definition kent_keys : list (string * string) :=
  [("time", kent_time); ("air_temperature", "Temp 2m (C)"); ("relative_humidity", "Humidity 2m (%)");
   ("air_pressure", "Pressure (hPa)"); ("wind_speed", "Wind speed (m/s)");
   ("wind_direction", "Wind dir (deg)"); ("rainfall_rate", "Precipitation (?)")].
Fixpoint kent_pick (keys : list (string * string)) (raw : wtable) : result wtable :=
  match keys with
  | [] => Ok []
  | (name, key) :: r =>
      match column_of String.eqb key raw with
      | None => Raise KeyError
      | Some c => bind (kent_pick r raw) (fun t => Ok ((name, c) :: t))
      end
  end.
(** weather_station.py 390-417, one file: the field names and the rows. *)
Definition kent_file (fields : list string) (rows : list (list string)) : result wtable :=
  bind (kent_rows fields rows (fold_left (fun d c => put String.eqb c [] d) fields [])) (kent_pick kent_keys).
(** weather_station.py 418-422: the files are joined column by column. *)
Fixpoint kent_files (files : list (list string * list (list string))) (merged : wtable) : result wtable :=
  match files with
  | [] => Ok merged
  | (fields, rows) :: r =>
      bind (kent_file fields rows) (fun data =>
        kent_files r (match merged with
                      | [] => data
                      | _ => map (fun kc => (fst kc, snd kc ++ match column_of String.eqb (fst kc) data with
                                                              | Some c => c | None => [] end)%list) merged
                      end))
  end.
Definition kenttarova (files : list (list string * list (list string))) := kent_files files [].

(** *** Wind direction *)
(** weather_station.py 163-171, [wrap_wind_direction]: one value. *)
Definition wrap_direction (x : masked Q) : masked Q :=
  let x1 := match x with
            | Some v => if qlt (-(2)) v && qlt v 0 then Some (v + 360)%Q else Some v
            | None => None
            end in
  match x1 with
  | Some v => if Qle_bool 360 v && qlt v (360 + 2) then Some (v - 360)%Q else Some v
  | None => None
  end.
(** weather_station.py 113-122, [calculate_rainfall_amount]: [ma.cumsum] of the rates
    times the resolution (masked values count as zero and stay masked); zero for a
    single time stamp. *)
Fixpoint cumsum_masked (acc : Q) (l : list (masked Q)) : list (masked Q) :=
  match l with
  | [] => []
  | None :: r => None :: cumsum_masked acc r
  | Some x :: r => Some (acc + x)%Q :: cumsum_masked (acc + x)%Q r
  end.
Definition rainfall_amount (resolution : Q) (rates : list (masked Q)) : list (masked Q) :=
  match rates with
  | [_] => [Some 0%Q]
  | _ => cumsum_masked 0%Q (map (option_map (fun x => x * resolution)%Q) rates)
  end.

(** ** TOA5 files (instruments/toa5.py) *)
Variable to_int : string -> option Z.
(** Values: a time stamp, a record number, a text, or the list shared by all rows
    for an array name ([row_template.copy()] copies the reference only). *)
Inductive tval := VStamp (s : S) | VInt (z : Z) | VText (s : string).
Inductive tcell := TVal (v : tval) | TRef (name : string).
Definition trow := list (string * tcell).
(** toa5.py 29-32. *)
Definition row_template (header : list string) : trow :=
  fold_left (fun d h => if has_char "(" h then put String.eqb (before_char "(" h) (TRef (before_char "(" h)) d else d)
    header [].
(** toa5.py 37-43; [None] is ValueError. *)
Definition toa5_value (key value : string) : option tval :=
  if String.eqb key "TIMESTAMP" then option_map VStamp (to_stamp value)
  else if String.eqb key "RECORD" then option_map VInt (to_int value)
  else Some (VText value).
(** toa5.py 35-47: one line; [heap] has the shared lists. *)
Fixpoint toa5_row (header values : list string) (row : trow) (heap : list (string * list tval))
  : result (trow * list (string * list tval)) :=
  match header, values with
  | key :: ks, value :: vs =>
      match toa5_value key value with
      | None => Raise ValueError
      | Some v =>
          if has_char "(" key then
            match get String.eqb (before_char "(" key) row with
            | Some (TRef name) => toa5_row ks vs row (push String.eqb name v heap)
            | Some (TVal _) => Raise AttributeError
            | None => Raise KeyError
            end
          else toa5_row ks vs (put String.eqb key (TVal v) row) heap
      end
  | _, _ => Ok (row, heap)
  end.
Fixpoint toa5_rows (header : list string) (lines : list (list string)) (rows : list trow)
  (heap : list (string * list tval)) : result (list trow * list (string * list tval)) :=
  match lines with
  | [] => Ok (rows, heap)
  | l :: r => bind (toa5_row header l (row_template header) heap) (fun rh =>
                toa5_rows header r (rows ++ [fst rh])%list (snd rh))
  end.
(** toa5.py 7-49, [read_toa5], the rows: [header] is the second line of the file,
    [lines] are the lines after the fourth.  Quoting is not modelled. *)
Definition read_toa5 (header : list string) (lines : list (list string)) := toa5_rows header lines [] [].
(** What a caller sees under a key of a row, after the file has been read. *)
Inductive tview := Scalar (v : tval) | Array (l : list tval).
Definition view (heap : list (string * list tval)) (row : trow) (key : string) : option tview :=
  match get String.eqb key row with
  | None => None
  | Some (TVal v) => Some (Scalar v)
  | Some (TRef name) => Some (Array (match column_of String.eqb name heap with Some l => l | None => [] end))
  end.
End Stations.
