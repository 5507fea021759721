(** Specifications for the readers of Radiometrics microwave radiometers. *)
From Verif Require Import Base TimeSpec SiteSpec TelegramSpec RadiometricsModel.
From Coq Require Import Qabs String Ascii.
Open Scope string_scope.
Open Scope nat_scope.
Open Scope list_scope.
Local Notation length := List.length (only parsing).

Section Spec.
Variable to_int : string -> option Z.
Variable to_float : string -> option (masked Q).
Variable ordinal : Z -> Z -> Z -> option Z.

(** ** Dates and times: month/day/year and hour:minute:second *)
Definition mdy_text (text : string) (d : Z) : Prop :=
  exists a b c month day year,
    separated "/"%char text [a; b; c] /\ to_int a = Some month /\ to_int b = Some day /\ to_int c = Some year /\
    ((year < 100)%Z /\ ordinal (2000 + year) month day = Some d \/
     (100 <= year)%Z /\ ordinal year month day = Some d).
Definition hms_text (text : string) (t : Z) : Prop :=
  exists a b c h m s,
    separated ":"%char text [a; b; c] /\ to_int a = Some h /\ to_int b = Some m /\ to_int c = Some s /\
    (0 <= h <= 23 /\ 0 <= m <= 59 /\ 0 <= s <= 59)%Z /\ t = (3600 * h + 60 * m + s)%Z.
Definition stamp_text (text : string) (t : Z) : Prop :=
  exists a b d s, words_of text [a; b] /\ mdy_text a d /\ hms_text b s /\ t = (86400 * d + s)%Z.

(** ** Rows of a level 2 file *)

Definition number_digits (s : string) : Prop :=
  s <> "" /\ forall a c b, s = (a ++ String c b)%string -> 48 <= nat_of_ascii c <= 57.
(** A column name that is a height in kilometres. *)
Definition height_name (s : string) : Prop := exists a b, s = (a ++ "." ++ b)%string /\ number_digits a /\ number_digits b.

(** A header row for the record type [t]. *)
Definition header (row : list string) (t : Z) (columns : list string) : Prop :=
  exists f, row = "Record" :: "Date/Time" :: f :: columns /\ to_int f = Some t.
(** The latest header row for [t] among the rows before. *)
Definition in_force (before : list (list string)) (t : Z) (columns : list string) : Prop :=
  exists b1 row b2, before = b1 ++ row :: b2 /\ header row t columns /\
    forall r c, In r b2 -> ~ header r t c.
(** [v] stands in the last column named [c]. *)
Definition value_of (columns values : list string) (c v : string) : Prop :=
  exists k, nth_error columns k = Some c /\ nth_error values k = Some v /\
    forall k', k < k' -> nth_error columns k' <> Some c.
Fixpoint without_empty (l : list string) : list string :=
  match l with [] => [] | "" :: l' => without_empty l' | v :: l' => v :: without_empty l' end.
(** The record of a data row, given the rows before it: tens and ones of the record type
    are split, the values are the fields that are not empty. *)
Definition record_of (before : list (list string)) (row : list string) (r : record) : Prop :=
  exists r0 r1 r2 rest type columns,
    row = r0 :: r1 :: r2 :: rest /\ r0 <> "Record" /\ to_int r2 = Some type /\
    in_force before (type - type mod 10)%Z columns /\
    to_int r0 = Some (k_row r) /\ stamp_text r1 (k_time r) /\
    k_type r = (type - type mod 10)%Z /\ k_index r = (type mod 10 - 1)%Z /\
    length columns = length (skipn 3 (without_empty row)) /\
    forall c v, OutputModel.lookup c (k_values r) = Some v <-> value_of columns (skipn 3 (without_empty row)) c v.
Definition record_at (rows : list (list string)) (i : nat) (r : record) : Prop :=
  exists row, nth_error rows i = Some row /\ record_of (firstn i rows) row r.
(** A row that is understood: a header, a data row without header, or a record. *)
Definition understood (before : list (list string)) (row : list string) : Prop :=
  (exists t columns, header row t columns) \/
  (exists r0 r1 r2 rest type, row = r0 :: r1 :: r2 :: rest /\ r0 <> "Record" /\ to_int r2 = Some type /\
     ((forall columns, ~ in_force before (type - type mod 10)%Z columns) \/ exists r, record_of before row r)).
(** The error for a row that is not understood. *)
Definition row_error (row : list string) (e : exn) : Prop :=
  (exists d rest, row = "Record" :: d :: rest /\ d <> "Date/Time" /\ e = RuntimeError) \/
  ((forall d rest, row = "Record" :: d :: rest -> d = "Date/Time") /\
   (length row < 3 /\ e = IndexError \/ 3 <= length row /\ e = ValueError)).
(** Order of the records: row number, then position in the file. *)
Definition comes_before (a b : nat * record) : Prop :=
  (k_row (snd a) < k_row (snd b))%Z \/ (k_row (snd a) = k_row (snd b) /\ fst a < fst b).
(** The ranges: from the latest header of the types 10 and 400. *)
Definition ranges_of (rows : list (list string)) (ranges : list string) : Prop :=
  (exists b1 row b2 t columns, rows = b1 ++ row :: b2 /\ header row t columns /\ (t = 10 \/ t = 400)%Z /\
     (forall r c, In r b2 -> ~ header r 10 c /\ ~ header r 400 c) /\
     exists keep, ranges = map fst (filter snd (combine columns keep)) /\
       Forall2 (fun c (b : bool) => b = true <-> height_name c) columns keep) \/
  (ranges = [] /\ forall r c, In r rows -> ~ header r 10 c /\ ~ header r 400 c).

(** Ranges and records of a file: one record for each data row with a header, in order. *)
Definition read_ok (rows : list (list string)) (ranges : list string) (records : list record) : Prop :=
  ranges_of rows ranges /\
  exists P, map snd P = records /\ StronglySorted comes_before P /\ NoDup (map fst P) /\
    (forall i r, In (i, r) P -> record_at rows i r) /\
    (forall i r, record_at rows i r -> exists r', In (i, r') P).

(** ** Superblocks *)

(** The records of the superblock before and after a record: the part after the latest
    (before the next) record of the type 200. *)
Fixpoint since_200 (before : list record) : list record :=
  match before with
  | [] => []
  | r :: rest => if existsb (fun s => (k_type s =? 200)%Z) rest then since_200 rest else before
  end.
Fixpoint until_200 (after : list record) : list record :=
  match after with [] => [] | r :: rest => if (k_type r =? 200)%Z then [] else r :: until_200 rest end.
Definition block_before (before : list record) (r : record) : list record :=
  if (k_type r =? 200)%Z then [] else since_200 before.

Definition has (r : record) (c v : string) : Prop := OutputModel.lookup c (k_values r) = Some v.
(** The latest title given to the record type [k] (types 100: "Record Type" and "Title"). *)
Definition titled (before : list record) (k : Z) (title : string) : Prop :=
  exists b1 s b2 f, before = b1 ++ s :: b2 /\ k_type s = 100%Z /\ has s "Record Type" f /\ to_int f = Some k /\
    has s "Title" title /\
    forall s' f', In s' b2 -> k_type s' = 100%Z -> has s' "Record Type" f' -> to_int f' <> Some k.
(** The title that a record has; the record itself may give it. *)
Definition title_of (before : list record) (r : record) (title : string) : Prop :=
  titled (before ++ [r]) (k_type r + k_index r + 1)%Z title /\ title <> "".
Definition no_title (before : list record) (r : record) : Prop := forall title, ~ title_of before r title.

Definition zenith (proc : string) : Prop :=
  proc = "0.00:90.00" \/ proc = "Zenith" \/ proc = "Zenith16" \/ proc = "Zenith18".
(** Processors of a superblock: of its records 400 with index 1, in order. *)
Definition processors (block : list record) (procs : list string) : Prop :=
  Forall2 (fun r p => has r "LV2 Processor" p)
    (filter (fun r => (k_type r =? 400)%Z && (k_index r =? 1)%Z) block) procs.
(** The number of untitled records of the type 300 in [block], which follows [before]. *)
Inductive count_300 : list record -> list record -> nat -> Prop :=
| count_none before : count_300 before [] 0
| count_one before r block n : k_type r = 300%Z -> no_title before r ->
    count_300 (before ++ [r]) block n -> count_300 before (r :: block) (Datatypes.S n)
| count_skip before r block n : (k_type r <> 300%Z \/ ~ no_title before r) ->
    count_300 (before ++ [r]) block n -> count_300 before (r :: block) n.
(** The processor of the n-th record of the type 300 of a superblock is that of the n-th
    processor record; without processor records it is not known. *)
Definition processor_of (before : list record) (r : record) (after : list record) (p : option string) : Prop :=
  exists procs n first,
    processors (block_before before r ++ r :: until_200 after) procs /\
    before = first ++ block_before before r /\ count_300 first (block_before before r) n /\
    match procs with [] => p = None | _ => exists q, p = Some q /\ nth_error procs n = Some q end.

(** A number made of digits with at most one dot. *)
Definition plain_number (v : string) : Prop :=
  number_digits v \/ exists a b, v = (a ++ "." ++ b)%string /\ number_digits (a ++ b) /\ forall x y, a <> (x ++ "." ++ y)%string.
(** The profile of a record: one value for each range. *)
Definition profile_of (ranges : list string) (r : record) (x : list (masked Q)) : Prop :=
  Forall2 (fun c y => exists v, has r c v /\
    (plain_number v /\ to_float v = Some y \/ ~ plain_number v /\ y = None)) ranges x.
Definition number_of (r : record) (c : string) (x : masked Q) : Prop := exists v, has r c v /\ to_float v = Some x.

(** Columns that records must have: titles give a type and a title, processor records
    their processor. *)
Definition well_formed (r : record) : Prop :=
  (k_type r = 100%Z -> exists f k t, has r "Record Type" f /\ to_int f = Some k /\ has r "Title" t) /\
  (k_type r = 400%Z -> k_index r = 1%Z -> exists p, has r "LV2 Processor" p).
(** What a record contributes, given the records before and after it. *)
Inductive item :=
| Integrals (t : Z) (lwp iwv : masked Q) | Infrared (t : Z) (x : masked Q)
| Temperature (t : Z) (x : list (masked Q)) | RelHumidity (t : Z) (x : list (masked Q))
| AbsHumidity (t : Z) (x : list (masked Q)).
Definition contributes (ranges : list string) (before : list record) (r : record) (after : list record)
  (items : list item) : Prop :=
  well_formed r /\
  ((exists title proc, title_of before r title /\ has r "LV2 Processor" proc /\
     (~ zenith proc /\ items = [] \/
      zenith proc /\
        (title = "Temperature (K)" /\ (exists x, profile_of ranges r x /\ items = [Temperature (k_time r) x]) \/
         title = "Relative Humidity (%)" /\ (exists x, profile_of ranges r x /\ items = [RelHumidity (k_time r) x]) \/
         title = "Vapor Density (g/m^3)" /\ (exists x, profile_of ranges r x /\ items = [AbsHumidity (k_time r) x]) \/
         title <> "Temperature (K)" /\ title <> "Relative Humidity (%)" /\ title <> "Vapor Density (g/m^3)" /\
           items = []))) \/
  (no_title before r /\
     (k_type r = 10%Z /\ k_index r = 0%Z /\
        (exists lwp iwv irt x, number_of r "Lqint(mm)" lwp /\ number_of r "Vint(cm)" iwv /\ number_of r "Tir(K)" irt /\
           profile_of ranges r x /\
           items = [Integrals (k_time r) lwp iwv; Infrared (k_time r) irt; Temperature (k_time r) x]) \/
      k_type r = 10%Z /\ k_index r = 1%Z /\ (exists x, profile_of ranges r x /\ items = [AbsHumidity (k_time r) x]) \/
      k_type r = 10%Z /\ k_index r = 2%Z /\ (exists x, profile_of ranges r x /\ items = [RelHumidity (k_time r) x]) \/
      k_type r = 10%Z /\ (k_index r < 0 \/ 2 < k_index r)%Z /\ items = [] \/
      k_type r = 200%Z /\ (exists x, number_of r "Tir(K)" x /\ items = [Infrared (k_time r) x]) \/
      k_type r = 300%Z /\
        (exists p, processor_of before r after p /\
           ((exists q, p = Some q /\ ~ zenith q) /\ items = [] \/
            (p = None \/ exists q, p = Some q /\ zenith q) /\
              (exists lwp iwv, number_of r "Int. Liquid(mm)" lwp /\ number_of r "Int. Vapor(cm)" iwv /\
                 items = [Integrals (k_time r) lwp iwv]))) \/
      k_type r <> 10%Z /\ k_type r <> 200%Z /\ k_type r <> 300%Z /\ items = []))).
(** The contributions of all records, in order. *)
Inductive all_items (ranges : list string) : list record -> list record -> list item -> Prop :=
| items_none before : all_items ranges before [] []
| items_one before r after items rest : contributes ranges before r after items ->
    all_items ranges (before ++ [r]) after rest -> all_items ranges before (r :: after) (items ++ rest).

Definition integrals (l : list item) : list (Z * (masked Q * masked Q)) :=
  flat_map (fun i => match i with Integrals t a b => [(t, (a, b))] | _ => [] end) l.
Definition infrareds (l : list item) : list (Z * masked Q) :=
  flat_map (fun i => match i with Infrared t x => [(t, x)] | _ => [] end) l.
Definition temperatures (l : list item) : list (Z * list (masked Q)) :=
  flat_map (fun i => match i with Temperature t x => [(t, x)] | _ => [] end) l.
Definition rel_humidities (l : list item) : list (Z * list (masked Q)) :=
  flat_map (fun i => match i with RelHumidity t x => [(t, x)] | _ => [] end) l.
Definition abs_humidities (l : list item) : list (Z * list (masked Q)) :=
  flat_map (fun i => match i with AbsHumidity t x => [(t, x)] | _ => [] end) l.

(** [x] is the value given at the time nearest to [t], the first of them if there are
    several. *)
Definition nearest {A} (given : list (Z * A)) (t : Z) (x : A) : Prop :=
  exists k u, nth_error given k = Some (u, x) /\
    forall k' u' x', nth_error given k' = Some (u', x') ->
      (Z.abs (t - u) <= Z.abs (t - u'))%Z /\ (k' < k -> (Z.abs (t - u) < Z.abs (t - u'))%Z).
(** A quantity exists if it is given at all, and has the nearest value at each time. *)
Definition quantity {A B} (change : A -> B -> Prop) (given : list (Z * A)) (times : list Z) (out : option (list B)) : Prop :=
  match given with
  | [] => out = None
  | _ => exists l, out = Some l /\ Forall2 (fun t y => exists x, nearest given t x /\ change x y) times l
  end.
(** Scaled numbers; what is missing stays missing. *)
Definition scaled (f : Q) (x y : masked Q) : Prop :=
  match x, y with Some a, Some b => (b == f * a)%Q | None, None => True | _, _ => False end.

(** The data of a file: integrals as given, other quantities from the nearest time; vapour
    in kg m-2, relative humidity as a fraction, absolute humidity in kg m-3. *)
Definition mp_ok (ranges : list string) (records : list record) (d : mp_data) (items : list item) : Prop :=
  all_items ranges [] records items /\ d_time d = map fst (integrals items) /\
  d_lwp d = map (fun p => fst (snd p)) (integrals items) /\
  Forall2 (fun p y => scaled 10 (snd (snd p)) y) (integrals items) (d_iwv d) /\
  quantity eq (infrareds items) (d_time d) (d_irt d) /\
  quantity eq (temperatures items) (d_time d) (d_temperature d) /\
  quantity (Forall2 (scaled (1 # 100))) (rel_humidities items) (d_time d) (d_rh d) /\
  quantity (Forall2 (scaled (1 # 1000))) (abs_humidities items) (d_time d) (d_ah d).

(** ** WVR-1100 *)

Definition los_number (v : string) (x : masked Q) : Prop :=
  (occurs "*" v /\ x = None) \/ (~ occurs "*" v /\ to_float v = Some x).
(** The fields of a line under a header. *)
Definition field (headers fields : list string) (h v : string) : Prop :=
  exists k, nth_error headers k = Some h /\ nth_error fields k = Some v.
(** A line that can be read. *)
Definition readable (headers fields : list string) : Prop :=
  forall k h v, nth_error headers k = Some h -> nth_error fields k = Some v ->
    if String.eqb h "date" then exists d, mdy_text v d
    else if String.eqb h "time" then exists t, hms_text v t
    else exists x, los_number v x.
(** Time, liquid water path and water vapour of a line; [keep] for a valid observation at
    zenith. *)
Definition los_line (headers fields : list string) (keep : Prop) (t : Z) (lwp iwv : masked Q) : Prop :=
  exists vd vt vl vv ve v23 v31 d s l w e b23 b31,
    field headers fields "date" vd /\ mdy_text vd d /\ field headers fields "time" vt /\ hms_text vt s /\
    t = (86400 * d + s)%Z /\
    field headers fields "LiqCM" vl /\ los_number vl l /\ scaled 10 l lwp /\
    field headers fields "VapCM" vv /\ los_number vv w /\ scaled 10 w iwv /\
    field headers fields "ELact" ve /\ los_number ve e /\
    field headers fields "TbSky23" v23 /\ los_number v23 b23 /\
    field headers fields "TbSky31" v31 /\ los_number v31 b31 /\
    (keep <-> exists e' x y, e = Some e' /\ b23 = Some x /\ b31 = Some y /\
       (89 < e')%Q /\ (e' < 91)%Q /\ (0 < x)%Q /\ (0 < y)%Q).
(** The observations of the lines below the header. *)
Inductive los_data (headers : list string) : list string -> list (Z * (masked Q * masked Q)) -> Prop :=
| los_end : los_data headers [] []
| los_other line lines out fields : words_of line fields -> length fields <> length headers ->
    los_data headers lines out -> los_data headers (line :: lines) out
| los_bad line lines out fields t a b : words_of line fields -> length fields = length headers ->
    los_line headers fields False t a b -> los_data headers lines out -> los_data headers (line :: lines) out
| los_good line lines out fields t a b : words_of line fields -> length fields = length headers ->
    los_line headers fields True t a b -> los_data headers lines out ->
    los_data headers (line :: lines) ((t, (a, b)) :: out).
(** The line of the headers. *)
Definition header_fields (fields : list string) : Prop := exists r, fields = "date" :: "time" :: r.
Definition needed : list string := ["date"; "time"; "LiqCM"; "VapCM"; "ELact"; "TbSky23"; "TbSky31"].
End Spec.

(** ** Several files *)

(** Day of a time stamp: 86400 seconds each. *)
Definition on_day (d t : Z) : Prop := (86400 * d <= t < 86400 * (d + 1))%Z.
(** The rows of a variable in all files. *)
Definition all_rows {P} (k : string) (objs : list (obj P)) : list P :=
  flat_map (fun o => match OutputModel.lookup k (o_vars o) with Some rows => rows | None => [] end) objs.
Definition all_times {P} (objs : list (obj P)) : list Z := flat_map o_time objs.
(** Every file has the same variables, each once, with one row for each time. *)
Definition complete {P} (names : list string) (o : obj P) : Prop :=
  NoDup (map fst (o_vars o)) /\ (forall k, In k (map fst (o_vars o)) <-> In k names) /\
  forall k rows, In (k, rows) (o_vars o) -> length rows = length (o_time o).
(** [np.argsort]: every index once, times not decreasing. *)
Definition sorts (argsort : list Z -> list nat) : Prop :=
  forall time, Permutation (argsort time) (seq 0 (length time)) /\
    StronglySorted (fun i j => forall a b, nth_error time i = Some a -> nth_error time j = Some b -> (a <= b)%Z)
      (argsort time).
(** Range and height in metres; [ranges] are texts in kilometres. *)
Definition in_metres (to_float : string -> option (masked Q)) (altitude : option Q) (ranges : list string)
  (range height : option (list (masked Q))) : Prop :=
  match ranges with
  | [] => range = None /\ height = None
  | _ => exists alt r h, altitude = Some alt /\ range = Some r /\ height = Some h /\
      Forall2 (fun text x => exists km, to_float text = Some km /\ scaled 1000 km x) ranges r /\
      Forall2 (fun x y => match x, y with Some x, Some y => (y == x + alt)%Q | None, None => True | _, _ => False end) r h
  end.
(** The variables are those of [names]; they and the time consist of the rows [idx]. *)
Definition rows_are {P} (names : list string) (objs : list (obj P)) (idx : list nat) (time : list Z)
  (vars : list (string * list P)) : Prop :=
  rows_of idx (all_times objs) time /\
  (forall k, OutputModel.lookup k vars <> None <-> In k names) /\
  forall k rows, OutputModel.lookup k vars = Some rows -> rows_of idx (all_rows k objs) rows.
(** Hours since midnight of the day [d]. *)
Definition hours_since (d : Z) (time : list Z) (hours : list Q) : Prop :=
  Forall2 (fun t h => (3600 * h == inject_Z (t - 86400 * d))%Q) time hours.
(** Files that fit together: the same variables and ranges, ranges that are numbers, an
    altitude if there are ranges. *)
Definition combinable {P} (to_float : string -> option (masked Q)) (names : list string) (altitude : option Q)
  (o0 : obj P) (objs : list (obj P)) : Prop :=
  Forall (complete names) (o0 :: objs) /\ (forall o, In o objs -> o_ranges o = o_ranges o0) /\
  (o_ranges o0 <> [] -> altitude <> None) /\ Forall (fun x => to_float x <> None) (o_ranges o0).
