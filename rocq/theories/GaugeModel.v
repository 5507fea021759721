(** Model of the rain gauge reader instruments/rain_e_h3.py, of the RD-80 disdrometer
    (disdronator/rd80.py, instruments/disdrometer/rd80.py) and of the MRR-PRO rain radar
    (instruments/mrr.py).  Numbers are rational: rounding, and what floating point does
    with a division by zero, are not modelled.  [float] is an arbitrary partial function
    to numbers ([Some None] is nan or infinite, which [ma.masked_invalid] masks). *)
From Coq Require Import QArith Qround.
From Verif Require Import Base ArrayModel GridModel TimeModel OutputModel InstrumentModel SiteModel ReaderModel TelegramModel StationModel WsModel.
Local Open Scope string_scope.
Local Open Scope nat_scope.
Local Open Scope list_scope.
Local Notation length := List.length (only parsing).

(** ** RAIN[e]H3 *)
Fixpoint insert_nat (x : nat) (l : list nat) : list nat :=
  match l with [] => [x] | y :: r => if x <=? y then x :: l else y :: insert_nat x r end.
Fixpoint sort_nat (l : list nat) : list nat := match l with [] => [] | x :: r => insert_nat x (sort_nat r) end.
(** rain_e_h3.py 71: [np.median(...).astype(int)]; the median of nothing is nan, whose
    conversion gives a number that no format has, here 0. *)
Definition median_int (l : list nat) : nat :=
  let s := sort_nat l in
  let n := length s in
  if Nat.even n then (nth (n / 2 - 1) s 0 + nth (n / 2) s 0) / 2 else nth (n / 2) s 0.

(** The lists of [self._data] and the serial number. *)
Record gauge := { g_time : list stamp; g_rate : list (masked Q); g_amount : list (masked Q); g_serial : option string }.

Section Rain.
Variable to_num : string -> option (masked Q).
(** [strptime] with the format of the protocol with 16 and with 22 columns. *)
Variable to_stamp16 to_stamp22 : string -> option stamp.

Definition wanted (date : option Z) (t : stamp) : bool :=
  match date with Some d => Z.eqb d (fst t) | None => true end.
(** rain_e_h3.py 104-117, the loop of [_read_talker_protocol_16_columns]. *)
Fixpoint talker16 (date : option Z) (data : list (list string)) (g : gauge) : result gauge :=
  match data with
  | [] => Ok g
  | row :: r =>
      if negb (length row =? 16) then talker16 date r g
      else match to_stamp16 (nth 0 row "" ++ " " ++ nth 1 row "") with
           | None => talker16 date r g
           | Some t =>
               if negb (wanted date t) then talker16 date r g
               else match to_num (nth 2 row ""), to_num (nth 3 row "") with
                    | Some x, Some y =>
                        talker16 date r {| g_time := g_time g ++ [t]; g_rate := g_rate g ++ [x]; g_amount := g_amount g ++ [y];
                                           g_serial := g_serial g |}
                    | _, _ => Raise ValueError
                    end
           end
  end.
(** rain_e_h3.py 150-162, the loop of [_read_talker_protocol_22_columns]. *)
Fixpoint talker22 (date : option Z) (data : list (list string)) (g : gauge) : result gauge :=
  match data with
  | [] => Ok g
  | row :: r =>
      if negb (length row =? 22) then talker22 date r g
      else match to_stamp22 (nth 0 row "") with
           | None => talker22 date r g
           | Some t =>
               if negb (wanted date t) then talker22 date r g
               else match to_num (nth 3 row ""), to_num (nth 4 row "") with
                    | Some x, Some y =>
                        talker22 date r {| g_time := g_time g ++ [t]; g_rate := g_rate g ++ [x]; g_amount := g_amount g ++ [y];
                                           g_serial := Some (nth 18 row "") |}
                    | _, _ => Raise ValueError
                    end
           end
  end.
(** rain_e_h3.py 118-119 and 163-164. *)
Definition some_rows (g : gauge) : result gauge :=
  match g_time g with [] => Raise ValidTimeStampError | _ => Ok g end.
(** rain_e_h3.py 66-79, [parse_input_file], from the rows of [csv.reader]. *)
Definition parse_gauge (date : option Z) (data : list (list string)) : result gauge :=
  let none := {| g_time := []; g_rate := []; g_amount := []; g_serial := None |} in
  let n := median_int (map (@List.length string) data) in
  if n =? 22 then bind (talker22 date data none) some_rows
  else if n =? 16 then bind (talker16 date data none) some_rows
  else Raise NotImplementedError.

Record gauge_out := { go_day : Z; go_hours : list Q; go_rate : list (masked Q); go_amount : list (masked Q); go_serial : option string }.
(** rain_e_h3.py 166-171, [convert_units]. *)
Definition gauge_rate (x : Q) : Q := (x / 3600 / 1000)%Q.
Definition gauge_amount (x : Q) : Q := (x / 1000)%Q.
(** rain_e_h3.py 42-49: [parse_input_file], [add_data], [add_date], [convert_units],
    [normalize_cumulative_amount] (C41), [sort_timestamps] and
    [remove_duplicate_timestamps] (cloudnet_instrument.py 49-57 and 104-114); [argsort] is [np.argsort]. *)
Definition rain_e_h3 (argsort : list Q -> list nat) (date : option Z) (data : list (list string)) : result gauge_out :=
  bind (parse_gauge date data) (fun g =>
    match g_time g with
    | [] => Raise IndexError
    | t :: _ =>
        let hours := map hours_of (g_time g) in
        let rate := map (option_map gauge_rate) (g_rate g) in
        bind (normalize_cumulative_amount (map (option_map gauge_amount) (g_amount g))) (fun amount =>
          let ind := argsort hours in
          let ind' := unique_index (take hours ind) in
          Ok {| go_day := fst t; go_hours := take (take hours ind) ind'; go_rate := take (take rate ind) ind';
                go_amount := take (take amount ind) ind'; go_serial := g_serial g |})
    end).
End Rain.

(** ** RD-80 *)
(** One row: the counts of the 20 classes, the interval in seconds, the rain rate in
    mm/h, and the two amounts in mm. *)
Record drops := { d_n : list Z; d_interval : Z; d_rate : masked Q; d_amount : masked Q; d_total : masked Q }.

Section Rd80.
Variable to_num : string -> option (masked Q).
(** [int(s)]; [None] is ValueError. *)
Variable to_int : string -> option Z.
(** [strptime(s, "%Y-%m-%d %H:%M:%S")]. *)
Variable to_stamp : string -> option stamp.

(** disdronator/rd80.py 33: [replace(",", ".")]. *)
Fixpoint dots (s : string) : string :=
  match s with EmptyString => EmptyString | String c r => String (if Ascii.eqb c "," then "." else c)%char (dots r) end.
(** disdronator/rd80.py 23: [dict(zip(keys, fields, strict=True))]; the last of equal
    keys counts; [None] is KeyError. *)
Definition cell (keys fields : list string) (k : string) : option string := get String.eqb k (rev (combine keys fields)).
Definition text_cell (keys fields : list string) (k : string) : result string :=
  match cell keys fields k with Some w => Ok w | None => Raise KeyError end.
Definition int_cell (keys fields : list string) (k : string) : result Z :=
  bind (text_cell keys fields k) (fun w => match to_int w with Some z => Ok z | None => Raise ValueError end).
Definition float_cell (keys fields : list string) (k : string) : result (masked Q) :=
  bind (text_cell keys fields k) (fun w => match to_num (dots w) with Some z => Ok z | None => Raise ValueError end).
Fixpoint int_cells (keys fields : list string) (ks : list string) : result (list Z) :=
  match ks with
  | [] => Ok []
  | k :: r => bind (int_cell keys fields k) (fun z => bind (int_cells keys fields r) (fun zs => Ok (z :: zs)))
  end.
Definition class_keys : list string :=
  ["n1"; "n2"; "n3"; "n4"; "n5"; "n6"; "n7"; "n8"; "n9"; "n10"; "n11"; "n12"; "n13"; "n14"; "n15"; "n16"; "n17"; "n18"; "n19"; "n20"].
(** disdronator/rd80.py 26-33. *)
Definition rd80_row (keys fields : list string) : result (stamp * drops) :=
  bind (text_cell keys fields "YYYY-MM-DD") (fun a =>
  bind (text_cell keys fields "hh:mm:ss") (fun b =>
  match to_stamp (a ++ " " ++ b) with
  | None => Raise ValueError
  | Some t =>
      bind (int_cells keys fields class_keys) (fun n =>
      bind (int_cell keys fields "Interval [s]") (fun i =>
      bind (float_cell keys fields "RI [mm/h]") (fun x =>
      bind (float_cell keys fields "RA [mm]") (fun y =>
      bind (float_cell keys fields "RAT [mm]") (fun z =>
        Ok (t, {| d_n := n; d_interval := i; d_rate := x; d_amount := y; d_total := z |}))))))
  end)).
(** disdronator/rd80.py 21-33. *)
Fixpoint rd80_rows (keys : list string) (lines : list string) : result (list (stamp * drops)) :=
  match lines with
  | [] => Ok []
  | line :: r =>
      let fields := split_on tab line in
      if negb (length fields =? length keys) then rd80_rows keys r
      else bind (rd80_row keys fields) (fun x => bind (rd80_rows keys r) (fun xs => Ok (x :: xs)))
  end.
(** disdronator/rd80.py 10-34, [read_rd80], from the lines of a file without the line
    ends.  The columns are kept together as rows. *)
Definition read_rd80 (lines : list string) : result (list (stamp * drops)) :=
  match lines with
  | [] => rd80_rows [""] []
  | head :: rest => rd80_rows (split_on tab head) rest
  end.

Fixpoint read_all (files : list (list string)) : result (list (list (stamp * drops))) :=
  match files with
  | [] => Ok []
  | f :: r => bind (read_rd80 f) (fun x => bind (read_all r) (fun xs => Ok (x :: xs)))
  end.
Definition no_rows {A} (l : list A) : bool := match l with [] => true | _ => false end.
(** instruments/disdrometer/rd80.py 82-91: [np.concatenate] refuses an empty list, and arrays
    with different numbers of dimensions: the counts of a file without rows are one-dimensional. *)
Definition join_files (l : list (list (stamp * drops))) : result (list (stamp * drops)) :=
  match l with
  | [] => Raise ValueError
  | _ => if existsb no_rows l && negb (forallb no_rows l) then Raise ValueError else Ok (List.concat l)
  end.
(** instruments/disdrometer/rd80.py 93-101: without a date [self.time] is still empty. *)
Definition rd80_screen (date : option Z) (rows : list (stamp * drops)) : result (Z * list (stamp * drops)) :=
  match date with
  | None => Raise IndexError
  | Some d => Ok (d, filter (fun r => Z.eqb (fst (fst r)) d) rows)
  end.
(** instruments/disdrometer/rd80.py 103-106. *)
Definition rd80_sort (rows : list (stamp * drops)) : list (stamp * drops) :=
  take rows (unique_index (map (fun r => instant (fst r)) rows)).

(** disdronator/rd80.py 38-55: the tables, in units of 0.001 mm and 0.001 m s-1. *)
Definition milli (l : list Z) : list Q := map (fun z => (inject_Z z / 1000)%Q) l.
Definition d_mid : list Q := milli
  [359; 455; 551; 656; 771; 913; 1116; 1331; 1506; 1665; 1912; 2259; 2584; 2869; 3198; 3544; 3916; 4350; 4859; 5373]%Z.
Definition d_spr : list Q := milli
  [92; 100; 91; 119; 112; 172; 233; 197; 153; 166; 329; 364; 286; 284; 374; 319; 423; 446; 572; 455]%Z.
Definition d_low : list Q := milli
  [313; 405; 505; 596; 715; 827; 999; 1232; 1429; 1582; 1748; 2077; 2441; 2727; 3011; 3385; 3704; 4127; 4573; 5145]%Z.
Definition d_upp : list Q := tl d_low ++ [(last d_low 0 + last d_spr 0)%Q].
Definition v_mid : list Q := milli
  [1435; 1862; 2267; 2692; 3154; 3717; 4382; 4986; 5423; 5793; 6315; 7009; 7546; 7903; 8258; 8556; 8784; 8965; 9076; 9137]%Z.
Definition area : Q := 5 # 1000.

(** [log10] is [np.log10] on positive numbers. *)
Variable log10 : Q -> Q.
Definition sum_q (l : list Q) : Q := fold_right Qplus 0%Q l.
(** instruments/disdrometer/rd80.py 118-120, hours since the midnight of [day]. *)
Definition rd80_hour (day : Z) (t : stamp) : Q := (inject_Z ((fst t - day) * 86400000000 + snd t) / 3600000000)%Q.
(** Line 116 and 137. *)
Definition rd80_rate (x : Q) : Q := (x / (3600 / (1 # 1000)))%Q.
(** Line 122. *)
Definition n_particles (n : list Z) : Z := fold_right Z.add 0%Z n.
(** Line 125, one row. *)
Definition number_concentration (d : drops) : list Q :=
  map2 (fun n vd => (inject_Z n / (area * inject_Z (d_interval d) * fst vd * snd vd))%Q) (d_n d) (combine v_mid d_spr).
(** Line 126, one row. *)
Definition reflectivity (d : drops) : Q :=
  (sum_q (map2 (fun n vd => inject_Z n / fst vd * snd vd ^ 6) (d_n d) (combine v_mid d_mid)) / (area * inject_Z (d_interval d)))%Q.
(** Lines 127-128; [ma.log10] masks values that are not positive. *)
Definition reflectivity_db (z : Q) : masked Q :=
  if Qle_bool z 0 then None
  else let x := (10 * log10 z)%Q in if qlt x (-10) then None else Some x.

Record rd80_out := { ro_day : Z; ro_hours : list Q; ro_interval : list Z; ro_rate : list (masked Q); ro_particles : list Z;
  ro_concentration : list (list Q); ro_reflectivity : list (masked Q) }.
(** instruments/disdrometer/rd80.py 115-143, [convert_to_cloudnet_arrays].  Without any
    row in the files ([flat]) the counts are one-dimensional and [np.sum(..., axis=1)] fails. *)
Definition rd80_convert (flat : bool) (day : Z) (rows : list (stamp * drops)) : result rd80_out :=
  if flat then Raise ValueError
  else Ok {| ro_day := day; ro_hours := map (fun r => rd80_hour day (fst r)) rows;
             ro_interval := map (fun r => d_interval (snd r)) rows;
             ro_rate := map (fun r => option_map rd80_rate (d_rate (snd r))) rows;
             ro_particles := map (fun r => n_particles (d_n (snd r))) rows;
             ro_concentration := map (fun r => number_concentration (snd r)) rows;
             ro_reflectivity := map (fun r => reflectivity_db (reflectivity (snd r))) rows |}.
(** instruments/disdrometer/rd80.py 56-58, from the rows of the files. *)
Definition rd80_day (date : option Z) (l : list (list (stamp * drops))) : result rd80_out :=
  bind (join_files l) (fun rows =>
  bind (rd80_screen date rows) (fun dr => rd80_convert (no_rows rows) (fst dr) (rd80_sort (snd dr)))).
Definition rd802nc (date : option Z) (files : list (list string)) : result rd80_out :=
  bind (read_all files) (rd80_day date).
End Rd80.

(** ** MRR-PRO *)
(** A file: seconds since 1970, range gates, the variables (profiles) under their new names
    and the elevation of every profile. *)
Record mrr_file := { m_seconds : list Q; m_range : list Q; m_vars : list (string * image (masked Q)); m_elevation : list Q }.
Record mrr_out := { mo_day : Z; mo_time : list Q; mo_range : list Q; mo_vars : list (string * image (masked Q)); mo_zenith : list Q }.
(** utils.py 54-68 and [.date()]: days since 1970. *)
Definition day_of (seconds : Q) : Z := Qfloor (seconds / 86400).
(** mrr.py 145-148, [fix_units]. *)
Definition mrr_unit (name : string) (x : Q) : Q :=
  if String.eqb name "v" then (x * -1)%Q
  else if String.eqb name "rainfall_rate" then (x / 3600000)%Q
  else if String.eqb name "lwc" then (x * (1 # 1000))%Q
  else x.
(** mrr.py 155-162: the indices of the profiles of a day. *)
Definition profiles_of (day : Z) (seconds : list Q) : list nat :=
  filter (fun i => Z.eqb (day_of (nth i seconds 0%Q)) day) (seq 0 (length seconds)).
(** cloudnet_instrument.py 70-79: one array; only those as long as the time are screened. *)
Definition along_time {A} (n_time : nat) (ind : list nat) (l : list A) : list A :=
  if length l =? n_time then take l ind else l.
(** datasource.py 147-155, [_init_time]. *)
Definition init_time (seconds : list Q) : result (list Q) :=
  match seconds with
  | [] => Raise ValidTimeStampError
  | _ => if existsb (qlt 25) seconds then seconds2hours seconds else Ok seconds
  end.
(** mrr.py 163 with cloudnet_instrument.py 59-81: the screening of the time and the variables. *)
Definition mrr_screen (date : option Z) (seconds hours : list Q) (vars : list (string * image (masked Q)))
  : result (list Q * list (string * image (masked Q))) :=
  match date with
  | None => Ok (hours, vars)
  | Some d =>
      match profiles_of d seconds with
      | [] => Raise ValidTimeStampError
      | ind => Ok (take hours ind, map (fun kv => (fst kv, along_time (length hours) ind (snd kv))) vars)
      end
  end.
(** mrr.py 100-112: [init_data], [fix_units], [init_date], [screen_by_date],
    [add_time_and_range] (without a correction factor), [fix_range], [add_zenith_angle]
    and [sort_timestamps]; the files are concatenated, the location and the height are left out.
    The zenith angle and the range are added after the screening. *)
Definition mrr2nc (argsort : list Q -> list nat) (date : option Z) (f : mrr_file) : result mrr_out :=
  bind (init_time (m_seconds f)) (fun hours =>
    let vars := map (fun kv => (fst kv, map (map (option_map (mrr_unit (fst kv)))) (snd kv))) (m_vars f) in
    let day := day_of (hd 0%Q (m_seconds f)) in
    bind (mrr_screen date (m_seconds f) hours vars) (fun tv =>
      match m_range f with
      | [] => Raise IndexError
      | r0 :: _ =>
          let range := map (fun r => (r - r0)%Q) (m_range f) in
          let zenith := map (fun e => (90 - e)%Q) (m_elevation f) in
          let n := length (fst tv) in
          let ind := argsort (fst tv) in
          Ok {| mo_day := day; mo_time := take (fst tv) ind; mo_range := along_time n ind range;
                mo_vars := map (fun kv => (fst kv, along_time n ind (snd kv))) (snd tv);
                mo_zenith := along_time n ind zenith |}
      end)).
