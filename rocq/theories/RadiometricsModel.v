(** Model of the readers of Radiometrics microwave radiometers
    (instruments/radiometrics.py; all line numbers refer to this file).  Time stamps are
    whole seconds since 1970; a number that is not a number ([nan]) is [None], as in the
    written file, where such values are masked (382). *)
From Verif Require Import Base ArrayModel FillModel LayerModel GridModel OutputModel SiteModel TelegramModel.
From Coq Require Import Qabs String Ascii.
Open Scope string_scope.
Open Scope nat_scope.
Open Scope list_scope.
Local Notation length := List.length (only parsing).

Definition ok_or {A} (e : exn) (o : option A) : result A := match o with Some x => Ok x | None => Raise e end.
(** [dict.get] for whole numbers; the latest entry comes first. *)
Fixpoint find_z {A} (k : Z) (l : list (Z * A)) : option A :=
  match l with [] => None | (k', v) :: r => if Z.eqb k k' then Some v else find_z k r end.

(** What the two readers leave: the ranges, the time vector and the other variables with
    one row for each time. *)
Record obj (P : Type) := { o_ranges : list string; o_time : list Z; o_vars : list (string * list P) }.
Arguments o_ranges {P}. Arguments o_time {P}. Arguments o_vars {P}. Arguments Build_obj {P}.
(** The combined data: range and height are there if the files have ranges. *)
Record combined (P : Type) := { c_time : list Z; c_vars : list (string * list P); c_range : option (list (masked Q));
                                c_height : option (list (masked Q)) }.
Arguments c_time {P}. Arguments c_vars {P}. Arguments c_range {P}. Arguments c_height {P}. Arguments Build_combined {P}.
(** Date, hours and data of the written file (61-73). *)
Record written (P : Type) := { f_date : Z; f_hours : list Q; f_vars : list (string * list P);
                               f_range : option (list (masked Q)); f_height : option (list (masked Q)) }.
Arguments f_date {P}. Arguments f_hours {P}. Arguments f_vars {P}. Arguments f_range {P}. Arguments f_height {P}.
Arguments Build_written {P}.

Section Radiometrics.
(** [int], [float] (infinities left out) and [datetime.date(year, month, day)] as the
    number of days since 1970; [None] stands for ValueError. *)
Variable to_int : string -> option Z.
Variable to_float : string -> option (masked Q).
Variable ordinal : Z -> Z -> Z -> option Z.

(** Lines 411-415, [_parse_date]. *)
Definition parse_date (text : string) : option Z :=
  match map to_int (split_on "/"%char text) with
  | [Some month; Some day; Some year] => ordinal (if (year <? 100)%Z then (year + 2000)%Z else year) month day
  | _ => None
  end.
(** Lines 418-420, [_parse_time]; [datetime.time] raises ValueError outside the day. *)
Definition parse_time (text : string) : option Z :=
  match map to_int (split_on ":"%char text) with
  | [Some hour; Some minute; Some second] =>
      if ((0 <=? hour) && (hour <? 24) && (0 <=? minute) && (minute <? 60) && (0 <=? second) && (second <? 60))%Z
      then Some (hour * 3600 + minute * 60 + second)%Z else None
  | _ => None
  end.
(** Lines 423-436, [_parse_datetime]. *)
Definition parse_datetime (text : string) : option Z :=
  match words text with
  | [date; time] =>
      match parse_date date, parse_time time with
      | Some d, Some t => Some (d * 86400 + t)%Z
      | _, _ => None
      end
  | _ => None
  end.

(** ** Level 2 files of MP radiometers *)

(** Lines 76-81; a value is looked up by its column name. *)
Record record := { k_row : Z; k_type : Z; k_index : Z; k_time : Z; k_values : list (string * string) }.

Definition is_digit (c : ascii) : bool := match digit_of c with Some _ => true | None => false end.
Fixpoint all_digits (s : string) : bool :=
  match s with EmptyString => true | String c s' => is_digit c && all_digits s' end.
(** [str.isdigit()] for code points below 128. *)
Definition isdigit (s : string) : bool := match s with EmptyString => false | _ => all_digits s end.
(** [re.fullmatch(r"\d+\.\d+", column)]. *)
Definition is_range (column : string) : bool :=
  match split_on "."%char column with [a; b] => isdigit a && isdigit b | _ => false end.
(** [s.replace(".", "", 1)]. *)
Fixpoint drop_dot (s : string) : string :=
  match s with
  | EmptyString => EmptyString
  | String c s' => if Ascii.eqb c "."%char then s' else String c (drop_dot s')
  end.

(** The state of [read_raw_data]: [record_columns], [self.ranges] and [rows]. *)
Record raw_state := { w_columns : list (Z * list string); w_ranges : list string; w_rows : list record }.

(** Lines 108-120: a header row. *)
Definition header_row (st : raw_state) (row : list string) : result raw_state :=
  match row with
  | _ :: d :: rest =>
      if negb (String.eqb d "Date/Time") then Raise RuntimeError
      else match rest with
           | [] => Raise IndexError
           | t :: columns =>
               match to_int t with
               | None => Raise ValueError
               | Some record_type =>
                   Ok {| w_columns := (record_type, columns) :: w_columns st;
                         w_ranges := if (record_type =? 10)%Z || (record_type =? 400)%Z
                                     then filter is_range columns else w_ranges st;
                         w_rows := w_rows st |}
               end
           end
  | _ => Raise IndexError
  end.
(** Lines 121-141: a data row.  [dict(zip(...))] keeps the last value of a column name;
    the pairs are kept in reverse order. *)
Definition data_row (st : raw_state) (row : list string) : result raw_state :=
  match row with
  | r0 :: r1 :: r2 :: _ =>
      match to_int r2 with
      | None => Raise ValueError
      | Some record_type =>
          let block_type := (record_type / 10 * 10)%Z in
          let block_index := (record_type - block_type - 1)%Z in
          match find_z block_type (w_columns st) with
          | None => Ok st
          | Some column_names =>
              let values := skipn 3 (filter (fun v => negb (String.eqb v "")) row) in
              match to_int r0, parse_datetime r1 with
              | Some n, Some t =>
                  if length column_names =? length values
                  then Ok {| w_columns := w_columns st; w_ranges := w_ranges st;
                             w_rows := w_rows st ++
                               [{| k_row := n; k_type := block_type; k_index := block_index; k_time := t;
                                   k_values := rev (combine column_names values) |}] |}
                  else Raise ValueError
              | _, _ => Raise ValueError
              end
          end
      end
  | _ => Raise IndexError
  end.
(** Line 108: an empty row has no first field. *)
Definition raw_row (st : raw_state) (row : list string) : result raw_state :=
  match row with
  | [] => Raise IndexError
  | r0 :: _ => if String.eqb r0 "Record" then header_row st row else data_row st row
  end.
(** Line 143: [sorted] is stable. *)
Fixpoint insert_record (r : record) (l : list record) : list record :=
  match l with [] => [r] | s :: l' => if (k_row r <=? k_row s)%Z then r :: s :: l' else s :: insert_record r l' end.
Definition sort_records (l : list record) : list record := fold_right insert_record [] l.
(** Lines 100-143, [read_raw_data], from the rows of [csv.reader] on: the ranges and the
    records. *)
Definition read_raw (rows : list (list string)) : result (list string * list record) :=
  bind (fold_result raw_row rows {| w_columns := []; w_ranges := []; w_rows := [] |}) (fun st =>
  Ok (w_ranges st, sort_records (w_rows st))).

(** The lists of [read_data] (147-158).  An infrared temperature is a list of one number
    in the code and a number here. *)
Record lists := {
  l_times : list Z; l_lwps : list (masked Q); l_iwvs : list (masked Q);
  l_irts : list (masked Q); l_irt_times : list Z;
  l_temps : list (list (masked Q)); l_temp_times : list Z;
  l_rhs : list (list (masked Q)); l_rh_times : list Z;
  l_ahs : list (list (masked Q)); l_ah_times : list Z;
  l_titles : list (Z * string) }.
Definition no_lists : lists :=
  {| l_times := []; l_lwps := []; l_iwvs := []; l_irts := []; l_irt_times := []; l_temps := []; l_temp_times := [];
     l_rhs := []; l_rh_times := []; l_ahs := []; l_ah_times := []; l_titles := [] |}.
Definition add_integrals (t : Z) (lwp iwv : masked Q) (l : lists) : lists :=
  {| l_times := l_times l ++ [t]; l_lwps := l_lwps l ++ [lwp]; l_iwvs := l_iwvs l ++ [iwv];
     l_irts := l_irts l; l_irt_times := l_irt_times l; l_temps := l_temps l; l_temp_times := l_temp_times l;
     l_rhs := l_rhs l; l_rh_times := l_rh_times l; l_ahs := l_ahs l; l_ah_times := l_ah_times l;
     l_titles := l_titles l |}.
Definition add_irt (t : Z) (x : masked Q) (l : lists) : lists :=
  {| l_times := l_times l; l_lwps := l_lwps l; l_iwvs := l_iwvs l;
     l_irts := l_irts l ++ [x]; l_irt_times := l_irt_times l ++ [t]; l_temps := l_temps l;
     l_temp_times := l_temp_times l; l_rhs := l_rhs l; l_rh_times := l_rh_times l; l_ahs := l_ahs l;
     l_ah_times := l_ah_times l; l_titles := l_titles l |}.
Definition add_temp (t : Z) (x : list (masked Q)) (l : lists) : lists :=
  {| l_times := l_times l; l_lwps := l_lwps l; l_iwvs := l_iwvs l; l_irts := l_irts l; l_irt_times := l_irt_times l;
     l_temps := l_temps l ++ [x]; l_temp_times := l_temp_times l ++ [t];
     l_rhs := l_rhs l; l_rh_times := l_rh_times l; l_ahs := l_ahs l; l_ah_times := l_ah_times l;
     l_titles := l_titles l |}.
Definition add_rh (t : Z) (x : list (masked Q)) (l : lists) : lists :=
  {| l_times := l_times l; l_lwps := l_lwps l; l_iwvs := l_iwvs l; l_irts := l_irts l; l_irt_times := l_irt_times l;
     l_temps := l_temps l; l_temp_times := l_temp_times l; l_rhs := l_rhs l ++ [x]; l_rh_times := l_rh_times l ++ [t];
     l_ahs := l_ahs l; l_ah_times := l_ah_times l; l_titles := l_titles l |}.
Definition add_ah (t : Z) (x : list (masked Q)) (l : lists) : lists :=
  {| l_times := l_times l; l_lwps := l_lwps l; l_iwvs := l_iwvs l; l_irts := l_irts l; l_irt_times := l_irt_times l;
     l_temps := l_temps l; l_temp_times := l_temp_times l; l_rhs := l_rhs l; l_rh_times := l_rh_times l;
     l_ahs := l_ahs l ++ [x]; l_ah_times := l_ah_times l ++ [t]; l_titles := l_titles l |}.
Definition add_title (k : Z) (x : string) (l : lists) : lists :=
  {| l_times := l_times l; l_lwps := l_lwps l; l_iwvs := l_iwvs l; l_irts := l_irts l; l_irt_times := l_irt_times l;
     l_temps := l_temps l; l_temp_times := l_temp_times l; l_rhs := l_rhs l; l_rh_times := l_rh_times l;
     l_ahs := l_ahs l; l_ah_times := l_ah_times l; l_titles := (k, x) :: l_titles l |}.

(** [record.values[column]]. *)
Definition value (r : record) (column : string) : result string := ok_or KeyError (lookup column (k_values r)).
(** [float(record.values[column])]. *)
Definition number (r : record) (column : string) : result (masked Q) :=
  bind (value r column) (fun v => ok_or ValueError (to_float v)).
(** Lines 161-167, [_parse_floats]. *)
Definition parse_floats (ranges : list string) (r : record) : result (list (masked Q)) :=
  sequence (map (fun column =>
    bind (value r column) (fun v => if isdigit (drop_dot v) then ok_or ValueError (to_float v) else Ok None)) ranges).

(** Line 178. *)
Definition good_procs : list string := ["0.00:90.00"; "Zenith"; "Zenith16"; "Zenith18"].
(** Lines 174-177. *)
Definition get_procs (superblock : list record) : result (list string) :=
  sequence (map (fun r => value r "LV2 Processor")
    (filter (fun r => (k_type r =? 400)%Z && (k_index r =? 1)%Z) superblock)).
(** Lines 181-184. *)
Definition new_title (r : record) (l : lists) : result lists :=
  if (k_type r =? 100)%Z
  then bind (value r "Record Type") (fun v => bind (ok_or ValueError (to_int v)) (fun n =>
       bind (value r "Title") (fun title => Ok (add_title (n - 1)%Z title l))))
  else Ok l.
(** Lines 185-196: a record whose type has a title; an empty title is none. *)
Definition titled_record (ranges : list string) (title : string) (r : record) (l : lists) : result lists :=
  bind (value r "LV2 Processor") (fun proc =>
  if negb (mem_str proc good_procs) then Ok l
  else if String.eqb title "Temperature (K)" then
    bind (parse_floats ranges r) (fun x => Ok (add_temp (k_time r) x l))
  else if String.eqb title "Relative Humidity (%)" then
    bind (parse_floats ranges r) (fun x => Ok (add_rh (k_time r) x l))
  else if String.eqb title "Vapor Density (g/m^3)" then
    bind (parse_floats ranges r) (fun x => Ok (add_ah (k_time r) x l))
  else Ok l).
(** Lines 197-214: records of the type 10. *)
Definition record_10 (ranges : list string) (r : record) (l : lists) : result lists :=
  if (k_index r =? 0)%Z then
    bind (value r "Lqint(mm)") (fun lwp => bind (value r "Vint(cm)") (fun iwv => bind (value r "Tir(K)") (fun irt =>
    bind (ok_or ValueError (to_float lwp)) (fun lwp => bind (ok_or ValueError (to_float iwv)) (fun iwv =>
    bind (ok_or ValueError (to_float irt)) (fun irt => bind (parse_floats ranges r) (fun x =>
    Ok (add_temp (k_time r) x (add_irt (k_time r) irt (add_integrals (k_time r) lwp iwv l))))))))))
  else if (k_index r =? 1)%Z then bind (parse_floats ranges r) (fun x => Ok (add_ah (k_time r) x l))
  else if (k_index r =? 2)%Z then bind (parse_floats ranges r) (fun x => Ok (add_rh (k_time r) x l))
  else Ok l.
(** Lines 219-228: records of the type 300; the state is [curr_proc]. *)
Definition record_300 (procs : list string) (r : record) (l : lists) (curr_proc : nat) : result (lists * nat) :=
  let read := bind (value r "Int. Liquid(mm)") (fun lwp => bind (value r "Int. Vapor(cm)") (fun iwv =>
    bind (ok_or ValueError (to_float lwp)) (fun lwp => bind (ok_or ValueError (to_float iwv)) (fun iwv =>
    Ok (add_integrals (k_time r) lwp iwv l))))) in
  match procs with
  | [] => bind read (fun l => Ok (l, curr_proc))
  | _ => bind (ok_or IndexError (nth_error procs curr_proc)) (fun proc =>
         if mem_str proc good_procs then bind read (fun l => Ok (l, Datatypes.S curr_proc))
         else Ok (l, Datatypes.S curr_proc))
  end.
(** Lines 180-228: one record. *)
Definition process_record (ranges procs : list string) (st : lists * nat) (r : record) : result (lists * nat) :=
  let (l, curr_proc) := st in
  bind (new_title r l) (fun l =>
  let keep := fun x => bind x (fun l => Ok (l, curr_proc)) in
  match find_z (k_type r + k_index r)%Z (l_titles l) with
  | Some (String a t) => keep (titled_record ranges (String a t) r l)
  | _ =>
      if (k_type r =? 10)%Z then keep (record_10 ranges r l)
      else if (k_type r =? 200)%Z then keep (bind (number r "Tir(K)") (fun x => Ok (add_irt (k_time r) x l)))
      else if (k_type r =? 300)%Z then record_300 procs r l curr_proc
      else Ok (l, curr_proc)
  end).
(** Lines 169-228, [_process_superblock]. *)
Definition process_superblock (ranges : list string) (superblock : list record) (l : lists) : result lists :=
  bind (get_procs superblock) (fun procs =>
  bind (fold_result (process_record ranges procs) superblock (l, 0)) (fun st => Ok (fst st))).
(** Lines 230-234. *)
Definition read_record (ranges : list string) (st : list record * lists) (r : record) : result (list record * lists) :=
  let (superblock, l) := st in
  if (k_type r =? 200)%Z && (negb (length superblock =? 0))
  then bind (process_superblock ranges superblock l) (fun l => Ok ([r], l))
  else Ok (superblock ++ [r], l).

(** Lines 439-440, [_find_closest]: the first of the nearest. *)
Definition find_closest {A} (x : list Z) (y : list A) (x_new : list Z) : result (list A) :=
  sequence (map (fun t =>
    bind (argmin (map (fun u => inject_Z (Z.abs (t - u))) x)) (fun k => ok_or IndexError (nth_error y k))) x_new).
(** Lines 241-264: a quantity exists if there are times for it. *)
Definition closest {A} (x : list Z) (y : list A) (x_new : list Z) : result (option (list A)) :=
  match x with [] => Ok None | _ => bind (find_closest x y x_new) (fun z => Ok (Some z)) end.

Record mp_data := {
  d_time : list Z; d_lwp : list (masked Q); d_iwv : list (masked Q); d_irt : option (list (masked Q));
  d_temperature : option (list (list (masked Q))); d_rh : option (list (list (masked Q)));
  d_ah : option (list (list (masked Q))) }.
Definition scale (f : Q) (x : masked Q) : masked Q := option_map (fun q => q * f)%Q x.
(** Lines 145-264, [read_data]. *)
Definition read_mp (ranges : list string) (records : list record) : result mp_data :=
  bind (fold_result (read_record ranges) records ([], no_lists)) (fun st =>
  let (superblock, l) := st in
  bind (if length superblock =? 0 then Ok l else process_superblock ranges superblock l) (fun l =>
  bind (closest (l_irt_times l) (l_irts l) (l_times l)) (fun irt =>
  bind (closest (l_temp_times l) (l_temps l) (l_times l)) (fun temperature =>
  bind (closest (l_rh_times l) (map (map (scale (1 # 100))) (l_rhs l)) (l_times l)) (fun rh =>
  bind (closest (l_ah_times l) (map (map (scale (1 # 1000))) (l_ahs l)) (l_times l)) (fun ah =>
  Ok {| d_time := l_times l; d_lwp := l_lwps l; d_iwv := map (scale 10) (l_iwvs l); d_irt := irt;
        d_temperature := temperature; d_rh := rh; d_ah := ah |})))))).

(** ** Files of the WVR-1100 *)

(** A value of [raw_data]. *)
Inductive los_value := LDate (d : Z) | LTime (t : Z) | LNum (x : masked Q).
(** Lines 297-302 with 407-408, [_parse_value]. *)
Definition parse_los (header column : string) : option los_value :=
  if String.eqb header "date" then option_map LDate (parse_date column)
  else if String.eqb header "time" then option_map LTime (parse_time column)
  else if contains "*" column then Some (LNum None) else option_map LNum (to_float column).
(** Lines 281-288: the first line that starts with the words date and time, and the rest. *)
Fixpoint los_headers (lines : list string) : result (list string * list string) :=
  match lines with
  | [] => Raise RuntimeError
  | line :: rest =>
      match words line with
      | a :: b :: _ =>
          if String.eqb a "date" && String.eqb b "time" then Ok (words line, rest) else los_headers rest
      | _ => los_headers rest
      end
  end.
(** Lines 291-303: the values line by line.  The code keeps a list for each header; the
    model keeps the rows, which is the same for distinct headers. *)
Definition los_rows (headers : list string) (lines : list string) : result (list (list los_value)) :=
  sequence (map (fun columns => sequence (map2 (fun h c => ok_or ValueError (parse_los h c)) headers columns))
    (filter (fun columns => length columns =? length headers) (map words lines))).
(** [raw_data[header]]. *)
Fixpoint position (h : string) (headers : list string) : option nat :=
  match headers with
  | [] => None
  | h' :: r => if String.eqb h h' then Some 0 else option_map Datatypes.S (position h r)
  end.
Definition los_column (headers : list string) (rows : list (list los_value)) (h : string) : result (list los_value) :=
  bind (ok_or KeyError (position h headers)) (fun k => Ok (map (fun row => nth k row (LNum None)) rows)).
Definition los_num (v : los_value) : masked Q := match v with LNum x => x | _ => None end.
(** Line 308: [datetime.combine]. *)
Definition los_time (d t : los_value) : Z := match d, t with LDate d, LTime t => (d * 86400 + t)%Z | _, _ => 0%Z end.
(** Comparisons with [nan] are false. *)
Definition is_zenith (x : masked Q) : bool := match x with Some e => qlt (Qabs (e - 90)) 1 | None => false end.
Definition positive (x : masked Q) : bool := match x with Some e => qgt e 0 | None => false end.
(** Lines 279-322, [read_raw_data] and [read_data]: time, liquid water path and
    integrated water vapour. *)
Definition read_wvr (lines : list string) : result (list Z * list (masked Q) * list (masked Q)) :=
  bind (los_headers lines) (fun hr => let (headers, rest) := hr in
  bind (los_rows headers rest) (fun rows =>
  bind (los_column headers rows "date") (fun date => bind (los_column headers rows "time") (fun time =>
  bind (los_column headers rows "LiqCM") (fun liq => bind (los_column headers rows "VapCM") (fun vap =>
  bind (los_column headers rows "ELact") (fun el => bind (los_column headers rows "TbSky23") (fun tb23 =>
  bind (los_column headers rows "TbSky31") (fun tb31 =>
  let is_valid := map2 andb (map2 andb (map (fun v => is_zenith (los_num v)) el)
                                       (map (fun v => positive (los_num v)) tb23))
                            (map (fun v => positive (los_num v)) tb31) in
  Ok (select is_valid (map2 los_time date time),
      select is_valid (map (fun v => scale 10 (los_num v)) liq),
      select is_valid (map (fun v => scale 10 (los_num v)) vap))))))))))).

(** ** Several files *)

(** utils.py 1020-1034, [append_data]. *)
Fixpoint append_rows {P} (key : string) (rows : list P) (d : list (string * list P)) : list (string * list P) :=
  match d with
  | [] => [(key, rows)]
  | (k, v) :: d' => if String.eqb key k then (k, v ++ rows) :: d' else (k, v) :: append_rows key rows d'
  end.
(** Lines 337-342: one file is added. *)
Definition add_obj {P} (ranges : list string) (st : obj P) (o : obj P) : result (obj P) :=
  if list_eq_dec string_dec (o_ranges o) ranges
  then Ok {| o_ranges := ranges; o_time := o_time st ++ o_time o;
             o_vars := fold_left (fun d kv => append_rows (fst kv) (snd kv) d) (o_vars o) (o_vars st) |}
  else Raise InconsistentDataError.
(** Lines 331-347, [RadiometricsCombined.__init__]; [altitude] is [None] if the site has
    none. *)
Definition combine_objs {P} (objs : list (obj P)) (altitude : option Q) : result (combined P) :=
  match objs with
  | [] => Raise IndexError
  | o0 :: _ =>
      bind (fold_result (add_obj (o_ranges o0)) objs {| o_ranges := o_ranges o0; o_time := []; o_vars := [] |}) (fun st =>
      match o_ranges o0 with
      | [] => Ok (Build_combined (o_time st) (o_vars st) None None)
      | _ =>
          bind (sequence (map (fun x => ok_or ValueError (to_float x)) (o_ranges o0))) (fun ranges =>
          bind (ok_or KeyError altitude) (fun altitude =>
          let range := map (scale 1000) ranges in
          Ok (Build_combined (o_time st) (o_vars st) (Some range)
                (Some (map (option_map (fun r => r + altitude)%Q) range)))))
      end)
  end.
(** Day of a time stamp. *)
Definition day_of (t : Z) : Z := (t / 86400)%Z.
(** Lines 349-361, [screen_time]; a boolean index of another length raises IndexError. *)
Definition screen_time {P} (date : option Z) (c : combined P) : result (Z * combined P) :=
  match date with
  | None => match c_time c with [] => Raise IndexError | t :: _ => Ok (day_of t, c) end
  | Some d =>
      let valid_mask := map (fun t => (day_of t =? d)%Z) (c_time c) in
      if negb (existsb (fun b => b) valid_mask) then Raise ValidTimeStampError
      else bind (sequence (map (fun kv =>
             if length (snd kv) =? length valid_mask then Ok (fst kv, select valid_mask (snd kv)) else Raise IndexError)
             (c_vars c))) (fun vars =>
           Ok (d, Build_combined (select valid_mask (c_time c)) vars (c_range c) (c_height c)))
  end.
(** Lines 363-368, [sort_timestamps]; [argsort] stands for [np.argsort]. *)
Definition sort_time {P} (argsort : list Z -> list nat) (c : combined P) : result (combined P) :=
  let ind := argsort (c_time c) in
  bind (gather (c_time c) ind) (fun time =>
  bind (sequence (map (fun kv => bind (gather (snd kv) ind) (fun rows => Ok (fst kv, rows))) (c_vars c))) (fun vars =>
  Ok (Build_combined time vars (c_range c) (c_height c)))).
(** Lines 370-372, [time_to_fractional_hours]. *)
Definition fractional_hours (time : list Z) : result (list Q) :=
  match time with
  | [] => Raise IndexError
  | t0 :: _ => Ok (map (fun t => (inject_Z (t - day_of t0 * 86400) / 3600)%Q) time)
  end.
(** Lines 61-73 of [radiometrics2nc]. *)
Definition radiometrics2nc {P} (argsort : list Z -> list nat) (objs : list (obj P)) (altitude : option Q)
  (date : option Z) : result (written P) :=
  bind (combine_objs objs altitude) (fun c =>
  bind (screen_time date c) (fun dc => let (d, c) := dc in
  bind (sort_time argsort c) (fun c =>
  bind (fractional_hours (c_time c)) (fun hours =>
  Ok (Build_written d hours (c_vars c) (c_range c) (c_height c)))))).
End Radiometrics.
