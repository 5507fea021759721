(** Vocabulary for the Thies disdrometer. *)
From Coq Require Import QArith.
From Verif Require Import Base OutputModel OutputSpec SiteSpec ReaderSpec TelegramSpec CliSpec ThiesModel.
From Verif Require MeltSpec TimeSpec.
Local Open Scope string_scope.
Local Open Scope nat_scope.
Local Open Scope list_scope.
Local Notation length := List.length (only parsing).

(** The columns of a telegram. *)
Inductive kind := KDate | KTime | KFloat | KText | KInt.
Definition columns : list (nat * string * kind) :=
  [(1, "_serial_number", KText); (2, "_software_version", KText); (3, "_date", KDate); (4, "_time", KTime); (5, "_synop_5min_ww", KInt);
   (6, "_synop_5min_WaWa", KInt); (7, "_metar_5min_4678", KText); (8, "_rainfall_rate_5min", KFloat); (9, "synop_WW", KInt); (10, "synop_WaWa", KInt);
   (11, "_metar_1_min_4678", KText); (12, "rainfall_rate_1min_total", KFloat); (13, "rainfall_rate", KFloat); (14, "rainfall_rate_1min_solid", KFloat);
   (15, "_precipition_amount", KFloat); (16, "visibility", KInt); (17, "radar_reflectivity", KFloat); (18, "measurement_quality", KInt);
   (19, "maximum_hail_diameter", KFloat); (20, "status_laser", KInt); (21, "static_signal", KInt); (22, "status_T_laser_analogue", KInt);
   (23, "status_T_laser_digital", KInt); (24, "status_I_laser_analogue", KInt); (25, "status_I_laser_digital", KInt); (26, "status_sensor_supply", KInt);
   (27, "status_laser_heating", KInt); (28, "status_receiver_heating", KInt); (29, "status_temperature_sensor", KInt); (30, "status_heating_supply", KInt);
   (31, "status_heating_housing", KInt); (32, "status_heating_heads", KInt); (33, "status_heating_carriers", KInt); (34, "status_laser_power", KInt);
   (35, "_status_reserve", KInt); (36, "T_interior", KFloat); (37, "T_laser_driver", KFloat); (38, "I_mean_laser", KInt); (39, "V_control", KInt);
   (40, "V_optical_output", KInt); (41, "V_sensor_supply", KInt); (42, "I_heating_laser_head", KInt); (43, "I_heating_receiver_head", KInt);
   (44, "T_ambient", KFloat); (45, "_V_heating_supply", KInt); (46, "_I_housing", KInt); (47, "_I_heating_heads", KInt); (48, "_I_heating_carriers", KInt);
   (49, "n_particles", KInt)].

Section Thies.
Context (to_float : string -> option Q) (to_int : string -> option Z) (to_day : Z -> Z -> Z -> option Z) (to_stamp : string -> option Z).
Definition three (c : ascii) (w : string) (x y z : Z) : Prop :=
  exists a b d, separated c w [a; b; d] /\ to_int a = Some x /\ to_int b = Some y /\ to_int d = Some z.
(** Day, month and year; years below 100 are of this century. *)
Definition date_text (w : string) (d : Z) : Prop :=
  exists day month year, three "." w day month year /\
    (((year < 100)%Z /\ to_day (2000 + year)%Z month day = Some d) \/ ((100 <= year)%Z /\ to_day year month day = Some d)).
Definition clock_text (w : string) (t : Z) : Prop :=
  exists h m s, three ":" w h m s /\ (0 <= h < 24)%Z /\ (0 <= m < 60)%Z /\ (0 <= s < 60)%Z /\ t = (s + 60 * (m + 60 * h))%Z.
Definition value_of (k : kind) (w : string) (x : field) : Prop :=
  match k with
  | KDate => exists d, date_text w d /\ x = FDay d
  | KTime => exists t, clock_text w t /\ x = FClock t
  | KFloat => exists q, to_float w = Some q /\ x = FNum q
  | KText => x = FText w
  | KInt => exists z, to_int w = Some z /\ x = FNum (inject_Z z)
  end.
(** [n] columns; the last one is not used. *)
Definition fields_are (n : nat) (ws : list string) (fs : list (string * field)) : Prop :=
  NoDup (map fst fs) /\
  forall key x, In (key, x) fs <-> exists i k w, In (i, key, k) columns /\ S i < n /\ nth_error ws i = Some w /\ value_of k w x.
Definition spectrum_is (n : nat) (ws : list string) (sp : option (list (list Z))) : Prop :=
  (n <= 79 /\ sp = None) \/
  (79 < n /\ exists s, sp = Some s /\ length s = 22 /\ (forall row, In row s -> length row = 20) /\
    forall d v row, nth_error s d = Some row -> v < 20 -> exists w z, nth_error ws (79 + 20 * d + v) = Some w /\ to_int w = Some z /\ nth_error row v = Some z).
Definition time_is (stamp : option Z) (fs : list (string * field)) (t : Z) : Prop :=
  match stamp with
  | Some u => t = u
  | None => exists d s, In ("_date", FDay d) fs /\ In ("_time", FClock s) fs /\ t = (86400 * d + s)%Z
  end.
Definition fits (n : nat) (ws : list string) : Prop := length ws = n \/ length ws = n + 4.
Definition line_record (n : nat) (line : string) (stamp : option Z) (r : record) : Prop :=
  exists ws, logger_fields line ws /\ fits n ws /\ fields_are n ws (th_fields r) /\ spectrum_is n ws (th_spectrum r) /\ time_is stamp (th_fields r) (th_time r).
(** What a line has to be to give a record. *)
Definition readable (n : nat) (ws : list string) (stamp : option Z) : Prop :=
  (forall i key k w, In (i, key, k) columns -> S i < n -> nth_error ws i = Some w -> exists x, value_of k w x) /\
  (79 < n -> 519 <= length ws /\ forall i w, 79 <= i < 519 -> nth_error ws i = Some w -> exists z, to_int w = Some z) /\
  (stamp <> None \/ 5 < n).
(** A line that begins with a time stamp. *)
Definition stamped_line (line : string) (telegram : string) (t : Z) : Prop :=
  exists st, without ";" st /\ line = (st ++ ";" ++ telegram)%string /\ to_stamp st = Some t.
End Thies.

(** The classes: velocities in metres per second, diameters in tenths of a micrometre. *)
Definition velocities : list Q :=
  [1 # 10; 3 # 10; 5 # 10; 7 # 10; 9 # 10; 12 # 10; 16 # 10; 20 # 10; 24 # 10; 28 # 10; 32 # 10; 38 # 10; 46 # 10; 54 # 10; 62 # 10; 70 # 10;
   78 # 10; 86 # 10; 95 # 10; 150 # 10]%Q.
Definition diameters : list Q :=
  [1875; 3125; 4375; 6250; 8750; 11250; 13750; 16250; 18750; 22500; 27500; 32500; 37500; 42500; 47500; 52500; 57500; 62500; 67500; 72500; 77500; 82500]%Q.
(** Factor and offset of the variables with other units in the output. *)
Definition conversions : list (string * (Q * Q)) :=
  [("rainfall_rate_1min_total", (1 # 3600000, 0)); ("rainfall_rate", (1 # 3600000, 0)); ("rainfall_rate_1min_solid", (1 # 3600000, 0));
   ("V_sensor_supply", (1 # 10, 0)); ("I_mean_laser", (1 # 100, 0)); ("T_interior", (1, 27315 # 100)); ("T_ambient", (1, 27315 # 100));
   ("T_laser_driver", (1, 27315 # 100))]%Q.
Definition converted (key : string) (x y : Q) : Prop :=
  (exists f o, In (key, (f, o)) conversions /\ (y == x * f + o)%Q) \/ (~ In key (map fst conversions) /\ y = x).
Definition output_value (key : string) (x : Q) (y : masked Q) : Prop :=
  (key = "rainfall_rate" /\ (999 < x)%Q /\ y = None) \/ (~ (key = "rainfall_rate" /\ (999 < x)%Q) /\ exists z, y = Some z /\ converted key x z).
(** [h] is the hour of the second [t] on [day]. *)
Definition hour_on (day t : Z) (h : Q) : Prop := (h * 3600 == inject_Z (t - 86400 * day))%Q.
Definition on_day (day : Z) (r : record) : Prop := (86400 * day <= th_time r < 86400 * (day + 1))%Z.

Section Files.
Context (to_float : string -> option Q) (to_int : string -> option Z) (to_day : Z -> Z -> Z -> option Z) (to_stamp : string -> option Z).
(** What becomes of one telegram. *)
Definition ignored (n : nat) (line : string) : Prop := exists ws, logger_fields line ws /\ ~ fits n ws.
Definition outcome (n : nat) (e : string * option Z) (o : option record) : Prop :=
  match o with
  | Some r => line_record to_float to_int to_day n (fst e) (snd e) r
  | None => ignored n (fst e)
  end.
Definition acceptable (n : nat) (e : string * option Z) : Prop :=
  exists ws, logger_fields (fst e) ws /\ (fits n ws -> readable to_float to_int to_day n ws (snd e)).
Definition starts_in (p s : string) : Prop := exists a b, s = (a ++ b)%string /\ MeltSpec.same_text p a.
(** The telegrams of a file, with the times that go with them. *)
Definition telegrams (toa5 : list (option (string * Z))) (lines : list string) (es : list (string * option Z)) : Prop :=
  match lines with
  | [] => es = []
  | first :: rest =>
      (occurs "TOA5" first /\ Forall2 (fun row e => exists line t, row = Some (line, t) /\ e = (line, Some t)) toa5 es) \/
      (~ occurs "TOA5" first /\ starts_in "datetime [utc];" first /\
         Forall2 (fun line e => exists telegram t, stamped_line to_stamp line telegram t /\ e = (telegram, Some t)) rest es) \/
      (~ occurs "TOA5" first /\ ~ starts_in "datetime [utc];" first /\ es = map (fun line => (line, None)) lines)
  end.
Inductive gathered : list (option record) -> list record -> Prop :=
| gathered_nil : gathered [] []
| gathered_some : forall r os rs, gathered os rs -> gathered (Some r :: os) (r :: rs)
| gathered_none : forall os rs, gathered os rs -> gathered (None :: os) rs.
(** The number of columns of a site. *)
Definition columns_of (truncated : option nat) (n : nat) : Prop :=
  (truncated = None /\ n = 520) \/ (exists k, truncated = Some k /\ n = k - 1).
End Files.

(** ** Days and output *)
(** The records used for a date, and the day of the output. *)
Definition chosen (date : option Z) (rs kp : list record) (day : Z) : Prop :=
  kp <> [] /\ match date with
              | Some d => day = d /\ kept (on_day d) rs kp
              | None => kp = rs /\ exists r rest, rs = r :: rest /\ on_day day r
              end.
Definition one_serial (rs : list record) (s : string) : Prop := forall r, In r rs -> In ("_serial_number", FText s) (th_fields r).
(** The output of a disdrometer with [n] columns for the records [kp]. *)
Definition output_of (n : nat) (kp : list record) (o : thies_out) : Prop :=
  exists J,
    Forall2 (fun i h => exists r, nth_error kp i = Some r /\ hour_on (to_date o) (th_time r) h) J (to_hours o) /\
    TimeSpec.strictly_increasing (to_hours o) /\
    (forall r, In r kp -> exists h, In h (to_hours o) /\ hour_on (to_date o) (th_time r) h) /\
    (forall key, In key (map fst (to_cols o)) <-> exists i k, In (i, key, k) columns /\ S i < n /\ ~ exists u, key = ("_" ++ u)%string) /\
    (forall key col, In (key, col) (to_cols o) ->
       Forall2 (fun i y => exists r x, nth_error kp i = Some r /\ In (key, FNum x) (th_fields r) /\ output_value key x y) J col) /\
    (n <= 79 -> to_spectra o = []) /\
    (79 < n -> Forall2 (fun i s => exists r, nth_error kp i = Some r /\ th_spectrum r = Some s) J (to_spectra o)) /\
    (length kp <> 20 -> Forall2 Qeq (to_velocity o) velocities) /\
    (length kp <> 22 -> Forall2 (fun a x => (a * 10000000 == x)%Q) (to_diameter o) diameters).
