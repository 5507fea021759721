(** Specifications for what a figure shows. *)
From Verif Require Import Base SiteSpec.
From Coq Require Import String Ascii.
Open Scope string_scope.
Open Scope nat_scope.
Open Scope list_scope.
Local Notation length := List.length (only parsing).

(** ** Variables *)

(** Names with a channel: "tb" or "irt", an underscore and a field. *)
Definition with_field (name x field : string) : Prop :=
  (x = "tb" \/ x = "irt") /\ exists rest, separated "_" name (x :: field :: rest).
Inductive asks (name : string) : string -> option Z -> Prop :=
| AsksChannel x field i : with_field name x field -> integer field i -> asks name x (Some i)
| AsksName : ~ (exists x field, with_field name x field) -> asks name name None.
(** The panels: what the file has of the variables asked for, in their order. *)
Inductive panels (variables : list string) : list string -> list (string * option Z) -> Prop :=
| PanelsNil : panels variables [] []
| PanelsTake name x i r l : asks name x i -> In x variables -> panels variables r l ->
    panels variables (name :: r) ((x, i) :: l)
| PanelsSkip name x i r l : asks name x i -> ~ In x variables -> panels variables r l ->
    panels variables (name :: r) l.
Definition bad_field (name : string) : Prop :=
  exists x field, with_field name x field /\ forall i, ~ integer field i.

(** ** Brightness temperatures *)

(** Profile [k] was not measured at the zenith. *)
Definition off_zenith (pointing : option (list Z)) (zenith : option (list Q)) (k : nat) : Prop :=
  exists fl an p a, pointing = Some fl /\ zenith = Some an /\ nth_error fl k = Some p /\ nth_error an k = Some a /\
    (p <> 0%Z \/ (5 < a)%Q \/ (a < -5)%Q).
(** The flags that count: the first of the three that exists. *)
Inductive flags_of (vars : string -> option (image Z)) : image Z -> Prop :=
| FlagsOwn f : vars "tb_quality_flag" = Some f -> flags_of vars f
| FlagsTemperature f : vars "tb_quality_flag" = None -> vars "temperature_quality_flag" = Some f -> flags_of vars f
| FlagsGeneral f : vars "tb_quality_flag" = None -> vars "temperature_quality_flag" = None ->
    vars "quality_flag" = Some f -> flags_of vars f.

(** ** Units *)

Inductive displayed (name : string) (x y : Q) : Prop :=
| ShownRate : In name ["rainfall_rate"; "snowfall_rate"; "precipitation_rate"] -> (y == x * (1000 * 3600))%Q -> displayed name x y
| ShownPressure : name = "air_pressure" -> (y * 100 == x)%Q -> displayed name x y
| ShownHumidity : In name ["relative_humidity"; "rh"] -> (y == x * 100)%Q -> displayed name x y
| ShownAmount : In name ["rainfall_amount"; "snowfall_amount"; "precipitation_amount"; "r_accum_RT"; "r_accum_NRT"] ->
    (y == x * 1000)%Q -> displayed name x y
| ShownCelsius : In name ["air_temperature"; "temperature"; "Tw"; "T_sensor"; "T_ambient"; "T_interior"; "T_laser_driver";
                          "transmitter_temperature"; "receiver_temperature"; "pc_temperature"] ->
    (y + 273 + (15 # 100) == x)%Q -> displayed name x y
| ShownTop : name = "cloud_top_height_agl" -> (y * 1000 == x)%Q -> displayed name x y
| ShownAsIs : ~ In name ["rainfall_rate"; "snowfall_rate"; "precipitation_rate"; "air_pressure"; "relative_humidity"; "rh";
                         "rainfall_amount"; "snowfall_amount"; "precipitation_amount"; "r_accum_RT"; "r_accum_NRT";
                         "air_temperature"; "temperature"; "Tw"; "T_sensor"; "T_ambient"; "T_interior"; "T_laser_driver";
                         "transmitter_temperature"; "receiver_temperature"; "pc_temperature"; "cloud_top_height_agl"] ->
    (y == x)%Q -> displayed name x y.

Definition letter (c : ascii) : Prop :=
  (65 <= nat_of_ascii c <= 90) \/ (97 <= nat_of_ascii c <= 122).
Definition figure_0_9 (c : ascii) : Prop := 48 <= nat_of_ascii c <= 57.
(** The text begins with a digit, or with a minus sign and a digit. *)
Definition begins_exponent (s : string) : Prop :=
  (exists c r, s = String c r /\ figure_0_9 c) \/ (exists c r, s = String "-" (String c r) /\ figure_0_9 c).
(** No letter is followed by an exponent. *)
Definition no_exponent (s : string) : Prop :=
  forall a c r, s = (a ++ String c r)%string -> letter c -> ~ begins_exponent r.
(** [t] without the marks of superscripts is [s]. *)
Inductive unmarked : string -> string -> Prop :=
| UnmarkedNil : unmarked "" ""
| UnmarkedOpen t s : unmarked t s -> unmarked (String "$" (String "^" (String "{" t))) s
| UnmarkedClose t s : unmarked t s -> unmarked (String "}" (String "$" t)) s
| UnmarkedChar c t s : c <> "$"%char -> (c = "}"%char -> forall r, t <> String "$" r) -> unmarked t s ->
    unmarked (String c t) (String c s).
(** Exactly the exponents behind letters are marked, each as a whole. *)
Definition all_figures (d : string) : Prop := forall a c r, d = (a ++ String c r)%string -> figure_0_9 c.
Inductive marked : string -> string -> Prop :=
| MarkedNil : marked "" ""
| MarkedExponent c sign d s t : letter c -> (sign = "" \/ sign = "-") -> d <> "" -> all_figures d ->
    (forall x r, s = String x r -> ~ figure_0_9 x) -> marked s t ->
    marked (String c (sign ++ d ++ s)) (String c ("$^{" ++ sign ++ d ++ "}$" ++ t))
| MarkedChar c s t : (letter c -> ~ begins_exponent s) -> marked s t -> marked (String c s) (String c t).
