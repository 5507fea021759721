(** Model of the text readers of disdrometers and weather stations
    (disdronator/lpm.py, disdronator/parsivel.py, instruments/fd12p.py,
    instruments/weather_station.py, instruments/toa5.py,
    instruments/disdrometer/parsivel.py). *)
From Verif Require Import Base GridModel OutputModel SiteModel.
Local Open Scope string_scope.
Local Open Scope nat_scope.
Local Notation length := List.length (only parsing).

(** ** Dictionaries of columns *)
Section Columns.
Context {K A : Type} (eqb : K -> K -> bool).
(** [data[k]], [None] if the key is missing. *)
Fixpoint column_of (k : K) (d : list (K * list A)) : option (list A) :=
  match d with
  | [] => None
  | (k', c) :: d' => if eqb k k' then Some c else column_of k d'
  end.
(** [if k not in data: data[k] = []], then [data[k].append(v)]. *)
Fixpoint push (k : K) (v : A) (d : list (K * list A)) : list (K * list A) :=
  match d with
  | [] => [(k, [v])]
  | (k', c) :: d' => if eqb k k' then (k', c ++ [v])%list :: d' else (k', c) :: push k v d'
  end.
(** [d[k] = v] and [d.get(k)] for a dictionary of values. *)
Fixpoint put (k : K) (v : A) (d : list (K * A)) : list (K * A) :=
  match d with
  | [] => [(k, v)]
  | (k', w) :: d' => if eqb k k' then (k', v) :: d' else (k', w) :: put k v d'
  end.
Fixpoint get (k : K) (d : list (K * A)) : option A :=
  match d with
  | [] => None
  | (k', w) :: d' => if eqb k k' then Some w else get k d'
  end.
End Columns.

(** [s.rstrip(c)] for one character. *)
Fixpoint rstrip_char (c : ascii) (s : string) : string :=
  match s with
  | EmptyString => EmptyString
  | String d s' => match rstrip_char c s' with
                   | EmptyString => if Ascii.eqb d c then EmptyString else String d EmptyString
                   | r => String d r
                   end
  end.
(** [s.replace(c, e)] for characters. *)
Fixpoint replace_char (c e : ascii) (s : string) : string :=
  match s with
  | EmptyString => EmptyString
  | String d s' => String (if Ascii.eqb d c then e else d) (replace_char c e s')
  end.
(** [s.split(c, maxsplit=1)] unpacked into two: [None] is ValueError. *)
Fixpoint partition (c : ascii) (s : string) : option (string * string) :=
  match s with
  | EmptyString => None
  | String d s' =>
      if Ascii.eqb d c then Some (EmptyString, s')
      else match partition c s' with
           | Some (a, b) => Some (String d a, b)
           | None => None
           end
  end.
(** [[f(x) for x in l]] where [f] may raise ValueError. *)
Fixpoint all_read {A B} (f : A -> option B) (l : list A) : option (list B) :=
  match l with
  | [] => Some []
  | x :: r => match f x, all_read f r with
              | Some y, Some ys => Some (y :: ys)
              | _, _ => None
              end
  end.
(** [np.reshape(l, (n, m))] of a list: [None] is ValueError. *)
Fixpoint chunks {A} (n m : nat) (l : list A) : list (list A) :=
  match n with
  | 0 => []
  | S n' => firstn m l :: chunks n' m (skipn m l)
  end.
Definition reshape {A} (n m : nat) (l : list A) : option (list (list A)) :=
  if length l =? n * m then Some (chunks n m l) else None.

Section Readers.
(** Dates, times of day. *)
Context {D T : Type}.
(** [int(s)], [float(s)]: arbitrary partial functions; [None] is ValueError. *)
Variable to_int : string -> option Z.
Variable to_float : string -> option Q.

(** ** Thies LPM (disdronator/lpm.py) *)
(** [datetime.datetime.strptime(s, ...)] for "%d.%m.%y", for "%H:%M:%S" and for
    "%Y-%m-%d %H:%M:%S". *)
Variable to_date : string -> option D.
Variable to_time : string -> option T.
Variable to_stamp : string -> option (D * T).
(** Values stored by the LPM reader. *)
Inductive lpm_cell := LDate (d : D) | LTime (t : T) | LInt (z : Z) | LFloat (q : Q) | LText (s : string).
Definition lpm_table := list (nat * list lpm_cell).
(** lpm.py 13-17. *)
Definition lpm_int_keys : list nat :=
  [2; 3; 7; 8; 11; 12; 18; 20; 22; 23; 24; 25; 26; 27; 28; 29; 30; 31; 32; 33;
   34; 35; 36; 37; 38; 39; 40; 41; 42; 43; 44; 45; 47; 48; 49; 50; 51; 524].
Definition lpm_float_keys : list nat := [10; 14; 15; 16; 17; 19; 21; 46; 521; 522; 523].
Definition mem_nat (n : nat) (l : list nat) : bool := existsb (Nat.eqb n) l.
(** lpm.py 64-73: the value of column [no]. *)
Definition lpm_value (no : nat) (value : string) : option lpm_cell :=
  if no =? 5 then option_map LDate (to_date value)
  else if no =? 6 then option_map LTime (to_time value)
  else if mem_nat no lpm_int_keys || ((81 <=? no) && (no <=? 520))
       then option_map LInt (to_int value)
  else if mem_nat no lpm_float_keys then option_map LFloat (to_float value)
  else Some (LText value).
(** lpm.py 61-77, the loop: the dictionary as it is left, and whether the loop
    ended without ValueError. *)
Fixpoint lpm_values (no : nat) (values : list string) (data : lpm_table) : lpm_table * bool :=
  match values with
  | [] => (data, true)
  | v :: r => match lpm_value no v with
              | Some c => lpm_values (S no) r (push Nat.eqb no c data)
              | None => (data, false)
              end
  end.
Definition lpm_fields (telegram : string) : list string :=
  split_on ";" (rstrip_char ";" (strip telegram)).
(** lpm.py 55-77, [_read_telegram]. *)
Definition read_telegram (telegram : string) (data : lpm_table) : lpm_table * bool :=
  let values := lpm_fields telegram in
  if (length values =? 520) || (length values =? 524)
  then lpm_values 2 (removelast values) data
  else (data, false).
Definition lpm_state := (list (D * T) * lpm_table)%type.
(** [data[no][-1]]. *)
Definition last_cell (no : nat) (data : lpm_table) : option lpm_cell :=
  match column_of Nat.eqb no data with
  | Some c => nth_error c (length c - 1)
  | None => None
  end.
(** lpm.py 108-119, [_read_raw], one line.  The date and the time exist after a
    complete telegram; the last branch is not reached. *)
Definition raw_line (st : lpm_state) (line : string) : lpm_state :=
  let '(time, data) := st in
  let '(data', ok) := read_telegram line data in
  if ok then
    match last_cell 5 data', last_cell 6 data' with
    | Some (LDate d), Some (LTime t) => ((time ++ [(d, t)])%list, data')
    | _, _ => (time, data')
    end
  else (time, data').
Definition read_raw (lines : list string) : lpm_state := fold_left raw_line lines ([], []).
(** lpm.py 80-92, [_read_pyatmoslogger]; [lines] are the lines after the first.
    The time stamp is split off outside the [try] block. *)
Fixpoint pyatmos_lines (st : lpm_state) (lines : list string) : result lpm_state :=
  match lines with
  | [] => Ok st
  | line :: r =>
      match partition ";" line with
      | None => Raise ValueError
      | Some (timestamp, telegram) =>
          let '(time, data) := st in
          let '(data', ok) := read_telegram telegram data in
          let time' := if ok then match to_stamp timestamp with
                                  | Some t => (time ++ [t])%list
                                  | None => time
                                  end
                       else time in
          pyatmos_lines (time', data') r
      end
  end.
Definition read_pyatmoslogger (lines : list string) : result lpm_state := pyatmos_lines ([], []) lines.

(** ** Parsivel text files (disdronator/parsivel.py) *)
(** One item of a telegram: a date, time or date and time with its format (the
    kind is decided by "%H" and "%Y" in the format, lines 265-272), a value number,
    or a column to skip. *)
Inductive item :=
| ItDate (p : string -> option D) | ItTime (p : string -> option T)
| ItStamp (p : string -> option (D * T)) | ItNum (n : nat) | ItSkip.
Inductive pcell :=
| PFloat (q : Q) | PInt (z : Z) | PVec (l : list Q) | PSpec (m : list (list Q)) | PText (s : string).
(** parsivel.py 208-209. *)
Definition pv_float_keys : list nat := [1; 2; 7; 16; 17; 24; 30; 31; 33; 34; 35].
Definition pv_int_keys : list nat := [3; 4; 8; 9; 10; 11; 12; 13; 18; 25; 26; 27; 28; 60].
Record pv_row := { r_time : option T; r_date : option D; r_stamp : option (D * T);
                   r_data : list (nat * pcell) }.
Definition no_row : pv_row := {| r_time := None; r_date := None; r_stamp := None; r_data := [] |}.
Definition set_num (n : nat) (c : pcell) (r : pv_row) : pv_row :=
  {| r_time := r_time r; r_date := r_date r; r_stamp := r_stamp r;
     r_data := put Nat.eqb n c (r_data r) |}.
(** parsivel.py 221-228: number of fields of an item, and of a line. *)
Definition item_width (t : item) : nat :=
  match t with
  | ItNum 90 => 32 | ItNum 91 => 32 | ItNum 93 => 1024
  | _ => 1
  end.
Definition expected_len (telegram : list item) : nat :=
  fold_left (fun n t => n + item_width t) telegram 0.
(** parsivel.py 239-281: one line, item by item; [None] is ValueError. *)
Definition one_field {A} (values : list string) (f : string -> option A)
  (k : A -> list string -> option pv_row) : option pv_row :=
  match values with
  | [] => None
  | v :: rest => match f v with Some a => k a rest | None => None end
  end.
Fixpoint parse_items (dec : ascii) (telegram : list item) (values : list string) (r : pv_row)
  : option pv_row :=
  match telegram with
  | [] => Some r
  | t :: ts =>
      match t with
      | ItNum n =>
          if mem_nat n pv_float_keys then
            one_field values (fun v => to_float (replace_char dec "." v)) (fun q rest =>
              parse_items dec ts rest (set_num n (PFloat q) r))
          else if mem_nat n pv_int_keys then
            one_field values to_int (fun z rest => parse_items dec ts rest (set_num n (PInt z) r))
          else if (n =? 90) || (n =? 91) then
            match all_read to_float (firstn 32 values) with
            | Some l => parse_items dec ts (skipn 32 values) (set_num n (PVec l) r)
            | None => None
            end
          else if n =? 93 then
            match all_read to_float (firstn 1024 values) with
            | Some l => match reshape 32 32 l with
                        | Some m => parse_items dec ts (skipn 1024 values) (set_num n (PSpec m) r)
                        | None => None
                        end
            | None => None
            end
          else one_field values Some (fun v rest => parse_items dec ts rest (set_num n (PText v) r))
      | ItDate p => one_field values p (fun d rest => parse_items dec ts rest
          {| r_time := r_time r; r_date := Some d; r_stamp := r_stamp r; r_data := r_data r |})
      | ItTime p => one_field values p (fun d rest => parse_items dec ts rest
          {| r_time := Some d; r_date := r_date r; r_stamp := r_stamp r; r_data := r_data r |})
      | ItStamp p => one_field values p (fun d rest => parse_items dec ts rest
          {| r_time := r_time r; r_date := r_date r; r_stamp := Some d; r_data := r_data r |})
      | ItSkip => one_field values Some (fun _ rest => parse_items dec ts rest r)
      end
  end.
(** A line: the row, or [None] if the line is skipped (length or ValueError). *)
Definition parse_line (sep dec : ascii) (telegram : list item) (line : string) : option pv_row :=
  let values := split_on sep (rstrip_char sep line) in
  if length values =? expected_len telegram then parse_items dec telegram values no_row else None.
Definition opt_list {A} (o : option A) : list A := match o with Some a => [a] | None => [] end.
Record pv_state := { p_times : list T; p_dates : list D; p_stamps : list (D * T);
                     p_data : list (nat * list pcell) }.
(** parsivel.py 282-289: the row is stored. *)
Definition store_row (r : pv_row) (st : pv_state) : pv_state :=
  {| p_times := p_times st ++ opt_list (r_time r);
     p_dates := p_dates st ++ opt_list (r_date r);
     p_stamps := p_stamps st ++ opt_list (r_stamp r);
     p_data := fold_left (fun d kv => push Nat.eqb (fst kv) (snd kv) d) (r_data r) (p_data st) |}%list.
Definition step_line (sep dec : ascii) (telegram : list item) (st : pv_state) (line : string) : pv_state :=
  match parse_line sep dec telegram line with
  | Some r => store_row r st
  | None => st
  end.
(** [{t: [] for t in telegram if isinstance(t, int)}]. *)
Definition empty_columns (telegram : list item) : list (nat * list pcell) :=
  fold_left (fun d t => match t with ItNum n => put Nat.eqb n [] d | _ => d end) telegram [].
(** parsivel.py 212-297, [_read_lines], after the expansion of the spectra; [lines]
    is [content.splitlines()].  Field separator and decimal separator are one
    character each. *)
Definition read_lines (sep dec : ascii) (telegram : list item) (lines : list string)
  : result (list (D * T) * list (nat * list pcell)) :=
  let st := fold_left (step_line sep dec telegram) lines
              {| p_times := []; p_dates := []; p_stamps := []; p_data := empty_columns telegram |} in
  match p_stamps st with
  | [] => if length (p_dates st) =? length (p_times st)
          then Ok (combine (p_dates st) (p_times st), p_data st)
          else Raise ValueError
  | stamps => Ok (stamps, p_data st)
  end.

(** ** Parsivel records (disdronator/parsivel.py, Hyytiälä) *)
Inductive rcell := RInt (z : Z) | RFloat (q : Q) | RVec (l : list Q) | RSpec (m : list (list Z)).
Definition mem_z (n : Z) (l : list nat) : bool := existsb (fun k => Z.eqb n (Z.of_nat k)) l.
(** parsivel.py 312-325: one line of a record; other numbers are ignored.  [None]
    is ValueError. *)
Definition op4a_line (line : string) (data : list (Z * rcell)) : option (list (Z * rcell)) :=
  match partition ":" line with
  | None => None
  | Some (key, value) =>
      match to_int key with
      | None => None
      | Some num =>
          let add c := option_map (fun x => put Z.eqb num x data) c in
          if mem_z num pv_int_keys then add (option_map RInt (to_int value))
          else if mem_z num pv_float_keys then add (option_map RFloat (to_float value))
          else if ((num =? 90) || (num =? 91))%Z then
            add (option_map RVec (all_read to_float (split_on ";" (rstrip_char ";" value))))
          else if (num =? 93)%Z then
            add (match all_read to_int (split_on ";" (rstrip_char ";" value)) with
                 | Some l => option_map RSpec (reshape 32 32 l)
                 | None => None
                 end)
          else Some data
      end
  end.
Fixpoint op4a_lines (lines : list string) (data : list (Z * rcell)) : option (list (Z * rcell)) :=
  match lines with
  | [] => Some data
  | l :: r => match op4a_line l data with Some d => op4a_lines r d | None => None end
  end.
(** parsivel.py 306-325, [_read_typ_op4a]. *)
Definition read_typ_op4a (lines : list string) : result (list (Z * rcell)) :=
  match lines with
  | [] => Raise IndexError
  | first :: rest =>
      if String.eqb first "TYP OP4A" then
        match op4a_lines rest [] with Some d => Ok d | None => Raise ValueError end
      else Raise ValueError
  end.
(** A record of the file: the time stamp, [None] if [datetime.datetime] rejects the
    numbers, and the lines of its text.  The search for records (the regular
    expression in lines 393-398) is not modelled. *)
Record hy_record := { hr_stamp : option (D * T); hr_lines : list string }.
(** parsivel.py 411-416. *)
Definition add_record (n : nat) (record : list (Z * rcell)) (data : list (Z * list (option rcell)))
  : list (Z * list (option rcell)) :=
  let data1 := fold_left (fun d kv => match column_of Z.eqb (fst kv) d with
                                      | Some _ => d
                                      | None => (d ++ [(fst kv, repeat None n)])%list
                                      end) record data in
  map (fun kc => (fst kc, (snd kc ++ [get Z.eqb (fst kc) record])%list)) data1.
(** parsivel.py 388-417, [_read_hyytiala]; only ValueError is caught. *)
Fixpoint hyytiala_records (rs : list hy_record) (time : list (D * T))
  (data : list (Z * list (option rcell))) : result (list (D * T) * list (Z * list (option rcell))) :=
  match rs with
  | [] => Ok (time, data)
  | r :: rest =>
      match read_typ_op4a (hr_lines r) with
      | Raise ValueError => hyytiala_records rest time data
      | Raise e => Raise e
      | Ok record =>
          match hr_stamp r with
          | None => hyytiala_records rest time data
          | Some t => hyytiala_records rest (time ++ [t])%list (add_record (length time) record data)
          end
      end
  end.
Definition read_hyytiala (rs : list hy_record) := hyytiala_records rs [] [].
End Readers.
