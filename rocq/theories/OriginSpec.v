(** Specification: where the variables of a categorize file come from, and references. *)
From Verif Require Import Base.
From Coq Require Import String.
Open Scope string_scope.
Open Scope list_scope.

Definition radar_variables := ["Z"; "v"; "v_sigma"; "width"; "ldr"; "sldr"; "zdr"; "nyquist_velocity"; "radar_frequency"].
Definition lidar_variables := ["lidar_wavelength"; "beta"].
Definition model_variables := ["temperature"; "pressure"; "q"; "uwind"; "vwind"; "Tw"].

(** [comes_from radar lidar model mwr disdrometer k x]: the variable [k] of the file comes
    from the instrument [x].  Rain rates come from the disdrometer if there is one. *)
Inductive comes_from {A : Type} (radar lidar model : A) (mwr disdrometer : option A) : string -> A -> Prop :=
| From_radar : forall k, In k radar_variables -> comes_from radar lidar model mwr disdrometer k radar
| From_lidar : forall k, In k lidar_variables -> comes_from radar lidar model mwr disdrometer k lidar
| From_model : forall k, In k model_variables -> comes_from radar lidar model mwr disdrometer k model
| From_mwr : forall x, mwr = Some x -> comes_from radar lidar model mwr disdrometer "lwp" x
| From_disdrometer : forall x, disdrometer = Some x -> comes_from radar lidar model mwr disdrometer "rainfall_rate" x
| From_radar_rain : disdrometer = None -> comes_from radar lidar model mwr disdrometer "rainfall_rate" radar.

(** Texts with a comma and a blank between them. *)
Inductive listed : list string -> string -> Prop :=
| Listed_one : forall x, listed [x] x
| Listed_more : forall x l t, l <> [] -> listed l t -> listed (x :: l) (x ++ ", " ++ t).

(** Articles, and those that belong to a product. *)
Definition doi (x : string) : string := "https://doi.org/" ++ x.
Definition software := doi "10.21105/joss.02123".
Definition articles : list (string * list string) :=
  [ ("categorize", ["10.1175/BAMS-88-6-883"]);
    ("classification", []);
    ("drizzle", ["10.1175/JAM-2181.1"]);
    ("iwc", ["10.1175/JAM2340.1"]);
    ("lwc", ["10.1175/BAMS-88-6-883"]);
    ("der", ["10.1175/1520-0426(2002)019<0835:TROSCD>2.0.CO;2"]);
    ("ier", ["10.1175/JAM2340.1"; "10.1175/JAM2543.1"; "10.5194/amt-13-5335-2020"]);
    ("epsilon-radar", ["10.5194/amt-13-5335-2020"; "10.1002/2015JD024543"]) ].
(** Cited for a product: the entry of the table, nothing for products not in it. *)
Definition cited (product : string) (l : list string) : Prop :=
  (exists l0, In (product, l0) articles /\ l = map doi l0) \/
  (~ In product (map fst articles) /\ l = []).

(** Every variable that may get a source has metadata in one of the two dictionaries. *)
Definition named : list string := radar_variables ++ lidar_variables ++ model_variables ++ ["lwp"; "rainfall_rate"].
