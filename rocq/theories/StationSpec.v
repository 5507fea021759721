(** Vocabulary for the readers of weather stations and present weather sensors. *)
From Verif Require Import Base OutputModel OutputSpec SiteModel SiteSpec ReaderModel ReaderSpec StationModel.
Local Open Scope string_scope.
Local Open Scope nat_scope.
Local Notation length := List.length (only parsing).

(** ** FD12P *)
Section FD12P.
Context {D T : Type} (to_int : string -> option Z) (to_num : string -> option (masked Q))
  (to_date : string -> option D) (to_time : string -> option T).
(** A field with a slash is a missing value. *)
Definition slashed (w : string) : Prop := exists a b, w = a ++ String "/" b.
Inductive whole_field : string -> masked Q -> Prop :=
| whole_missing : forall w, slashed w -> whole_field w None
| whole_number : forall w z, ~ slashed w -> to_int w = Some z -> whole_field w (Some (inject_Z z)).
Inductive decimal_field : string -> masked Q -> Prop :=
| decimal_missing : forall w, slashed w -> decimal_field w None
| decimal_number : forall w x, ~ slashed w -> to_num w = Some x -> decimal_field w x.
(** The line has thirteen fields and gives the row [r]. *)
Record fd_reading (line : string) (r : @fd_row D T) : Prop := {
  fr_ws : exists ws, words_of line ws /\ length ws = 13 /\
    (exists w, nth_error ws 0 = Some w /\ to_date w = Some (fst (f_time r))) /\
    (exists w, nth_error ws 1 = Some w /\ to_time w = Some (snd (f_time r))) /\
    (exists w, nth_error ws 4 = Some w /\ whole_field w (f_vis r)) /\
    (exists w, nth_error ws 7 = Some w /\ whole_field w (f_synop r)) /\
    (exists w, nth_error ws 10 = Some w /\ decimal_field w (f_rate r)) /\
    (exists w, nth_error ws 11 = Some w /\ decimal_field w (f_amount r)) /\
    (exists w, nth_error ws 12 = Some w /\ whole_field w (f_snow r)) }.
(** At least one value is there. *)
Definition has_value (r : @fd_row D T) : Prop :=
  f_vis r <> None \/ f_synop r <> None \/ f_rate r <> None \/ f_amount r <> None \/ f_snow r <> None.
Definition on_day (expected : option D) (r : @fd_row D T) : Prop :=
  forall d, expected = Some d -> fst (f_time r) = d.
(** The columns are those of the rows. *)
Definition fd_columns (rows : list (@fd_row D T)) (c : @fd_cols D T) : Prop :=
  fc_time c = map f_time rows /\ fc_vis c = map f_vis rows /\ fc_synop c = map f_synop rows /\
  fc_rate c = map f_rate rows /\ fc_amount c = map f_amount rows /\ fc_snow c = map f_snow rows.
(** What a caller expects: the rows of the day that have a value. *)
Definition fd_wanted (expected : option D) (lines : list string) (rows : list (@fd_row D T)) : Prop :=
  collects (fun line r => fd_reading line r /\ on_day expected r /\ has_value r) lines rows.
End FD12P.

(** ** SIRTA files *)
Section Stations.
Context {S : Type} (to_num : string -> option (masked Q)) (to_stamp to_stamp_z : string -> option S).
(** The value of a field: a number, or nan. *)
Inductive number : string -> @wcell S -> Prop :=
| number_ok : forall w x, to_num w = Some x -> number w (WNum x)
| number_bad : forall w, to_num w = None -> number w (WNum None).
Inductive sirta_meaning : string -> string -> @wcell S -> Prop :=
| sm_date : forall w t, to_stamp w = Some t -> sirta_meaning "Date Time (yyyy-mm-ddThh:mm:ss)" w (WTime t)
| sm_date_z : forall w t, to_stamp_z w = Some t -> sirta_meaning "Date Time (yyyy-mm-ddThh:mm:ssZ)" w (WTime t)
| sm_number : forall c w x, c <> "Date Time (yyyy-mm-ddThh:mm:ss)" -> c <> "Date Time (yyyy-mm-ddThh:mm:ssZ)" ->
    number w x -> sirta_meaning c w x.
(** The titles of the file, with their numbers. *)
Definition titles (lines : list sirta_line) (ts : list (option nat * string)) : Prop :=
  collects (fun l t => l = STitle (fst t) (snd t)) lines ts.
Definition numbered (ts : list (option nat * string)) : Prop :=
  forall i no t, nth_error ts i = Some (no, t) -> no = Some (i + 1).
(** The value in column [i], titled [t], of a line with [n] values. *)
Definition sirta_at (n i : nat) (t : string) (l : sirta_line) (x : @wcell S) : Prop :=
  exists vs v, l = SValues vs /\ length vs = n /\ nth_error vs i = Some v /\ sirta_meaning t v x.
(** A full line with an unreadable time stamp. *)
Definition bad_stamp (cs : list string) (l : sirta_line) : Prop :=
  exists vs i c v, l = SValues vs /\ length vs = length cs /\ nth_error cs i = Some c /\
    nth_error vs i = Some v /\ forall x, ~ sirta_meaning c v x.

(** ** Kenttärova *)
(** The quantities and the titles of their columns. *)
Definition kent_quantities : list (string * string) :=
  [("time", "Read time (UTC+2)"); ("air_temperature", "Temp 2m (C)"); ("relative_humidity", "Humidity 2m (%)");
   ("air_pressure", "Pressure (hPa)"); ("wind_speed", "Wind speed (m/s)");
   ("wind_direction", "Wind dir (deg)"); ("rainfall_rate", "Precipitation (?)")].
(** The value of a field in column [k]. *)
Inductive kent_meaning (k w : string) : @wcell S -> Prop :=
| km_time : forall t, k = "Read time (UTC+2)" -> to_stamp w = Some t -> kent_meaning k w (WTime t)
| km_number : forall x, k <> "Read time (UTC+2)" -> number w x -> kent_meaning k w x.
(** The value in column [i] of a row. *)
Definition kent_at (k : string) (i : nat) (row : list string) (x : @wcell S) : Prop :=
  exists w, nth_error row i = Some w /\ kent_meaning k w x.
Definition readable_time (p : nat) (row : list string) : Prop :=
  exists w t, nth_error row p = Some w /\ to_stamp w = Some t.
(** A row with one value for each field, or cut off by an unreadable time. *)
Definition kent_good (fields : list string) (p : nat) (row : list string) : Prop :=
  length row = length fields \/ exists w, nth_error row p = Some w /\ to_stamp w = None.
(** The value of column [i] of a row that gets into the table: columns after the time
    need a readable time. *)
Definition kent_kept (p i : nat) (k : string) (row : list string) (x : @wcell S) : Prop :=
  kent_at k i row x /\ (p <= i -> readable_time p row).

(** ** TOA5 files *)
Context (to_int : string -> option Z).
Inductive toa5_meaning (k w : string) : @tval S -> Prop :=
| tm_stamp : forall t, k = "TIMESTAMP" -> to_stamp w = Some t -> toa5_meaning k w (VStamp t)
| tm_record : forall z, k = "RECORD" -> to_int w = Some z -> toa5_meaning k w (VInt z)
| tm_text : k <> "TIMESTAMP" -> k <> "RECORD" -> toa5_meaning k w (VText w).
(** The name of an element of an array: [name(...]. *)
Definition element_of (name key : string) : Prop :=
  exists rest, key = name ++ String "(" rest /\ without "(" name.
Definition plain (key : string) : Prop := without "(" key.
(** No column has the name of an array. *)
Definition no_clash (header : list string) : Prop :=
  forall k key, In k header -> plain k -> In key header -> ~ element_of k key.
(** The elements of the array [name] in one line, in order. *)
Definition elements (name : string) (header line : list string) (vs : list (@tval S)) : Prop :=
  collects (fun kw v => element_of name (fst kw) /\ toa5_meaning (fst kw) (snd kw) v) (combine header line) vs.
(** A line that can be read. *)
Definition toa5_readable (header line : list string) : Prop :=
  forall k w, In (k, w) (combine header line) -> exists v, toa5_meaning k w v.
End Stations.

(** ** Cumulative amounts *)
(** Sum of the present values among the first [n]. *)
Definition known (x : masked Q) : Q := match x with Some v => v | None => 0%Q end.
Definition sum_first (n : nat) (l : list (masked Q)) : Q := fold_right Qplus 0%Q (map known (firstn n l)).
