(** Model of the attributes that say where the variables of a categorize file come from
    (output.py, categorize/categorize.py) and of the references of product files. *)
From Verif Require Import Base.
From Coq Require Import String.
Open Scope string_scope.
Open Scope list_scope.

(** ** Sources *)

(** metadata.py 6-19, [MetaData]: source, pid and units; [m_rest] stands for the other
    fields, which nothing here changes. *)
Record meta := { m_rest : nat; m_units : option string; m_source : option string; m_pid : option string }.
(** A python dictionary of them. *)
Definition dict := string -> option meta.
Definition set_key (d : dict) (k : string) (m : meta) : dict :=
  fun x => if String.eqb x k then Some m else d x.

(** The global attributes of an input file that are used: [source] may be missing
    (AttributeError), [instrument_pid] too (None). *)
Record origin := { g_source : option string; g_pid : option string }.
(** categorize/containers.py, [Observations]: radar, lidar and model are always there. *)
Record observations := {
  o_radar : origin; o_lidar : origin; o_model : origin;
  o_mwr : option origin; o_disdrometer : option origin }.

(** output.py 391-408, the dictionary [variables] in its order, with the result of
    [getattr(data, instrument)]. *)
Definition source_table (o : observations) : list (option origin * list string) :=
  [ (Some (o_radar o), ["v"; "width"; "v_sigma"; "ldr"; "Z"; "zdr"; "sldr"; "radar_frequency"; "nyquist_velocity"; "rainfall_rate"]);
    (Some (o_lidar o), ["beta"; "lidar_wavelength"]);
    (o_mwr o, ["lwp"]);
    (Some (o_model o), ["uwind"; "vwind"; "Tw"; "q"; "pressure"; "temperature"]);
    (o_disdrometer o, ["rainfall_rate"]) ].

(** Statements that change a dictionary in place: the dictionary afterwards, also if an
    exception is raised. *)
Definition effect := (dict * option exn)%type.

(** output.py 415-419, one key; [common] is COMMON_ATTRIBUTES. *)
Definition set_source (common : dict) (s : string) (p : option string) (k : string) (d : dict) : effect :=
  match (match d k with Some m => Some m | None => common k end) with
  | Some m => (set_key d k {| m_rest := m_rest m; m_units := m_units m; m_source := Some s; m_pid := p |}, None)
  | None => (d, Some KeyError)
  end.
(** output.py 414-419. *)
Fixpoint set_sources (common : dict) (s : string) (p : option string) (keys : list string) (d : dict) : effect :=
  match keys with
  | [] => (d, None)
  | k :: r =>
      match set_source common s p k d with
      | (d', None) => set_sources common s p r d'
      | (d', Some e) => (d', Some e)
      end
  end.
(** output.py 409-419. *)
Fixpoint over_instruments (common : dict) (table : list (option origin * list string)) (d : dict) : effect :=
  match table with
  | [] => (d, None)
  | (None, _) :: r => over_instruments common r d
  | (Some g, keys) :: r =>
      match g_source g with
      | None => (d, Some AttributeError)
      | Some s =>
          match set_sources common s (g_pid g) keys d with
          | (d', None) => over_instruments common r d'
          | (d', Some e) => (d', Some e)
          end
      end
  end.
(** output.py 389-420, [add_source_attribute]. *)
Definition add_source_attribute (common : dict) (o : observations) (d : dict) : effect :=
  over_instruments common (source_table o) d.

(** output.py 375-386, [add_time_attribute]; [date] is its ISO text. *)
Definition add_time_attribute (common : dict) (date key : string) (d : dict) : effect :=
  match (match d key with Some m => Some m | None => common key end) with
  | Some m => (set_key d key {| m_rest := m_rest m; m_units := Some ("hours since " ++ date ++ " 00:00:00 +00:00")%string;
                                m_source := m_source m; m_pid := m_pid m |}, None)
  | None => (d, Some KeyError)
  end.

(** categorize/categorize.py 212-214: the dictionary CATEGORIZE_ATTRIBUTES of the module
    is changed in place, so that it stays changed for the next call in this process. *)
Definition one_run (common : dict) (run : string * observations) (d : dict) : effect :=
  match add_time_attribute common (fst run) "time" d with
  | (d1, Some e) => (d1, Some e)
  | (d1, None) =>
      match add_time_attribute common (fst run) "model_time" d1 with
      | (d2, Some e) => (d2, Some e)
      | (d2, None) => add_source_attribute common (snd run) d2
      end
  end.
(** Earlier calls in the same process, whether they failed or not. *)
Definition earlier (common : dict) (history : list (string * observations)) (d : dict) : dict :=
  fold_left (fun d run => fst (one_run common run d)) history d.

(** cloudnetarray.py 97-102, [set_attributes], one text: empty ones do not count. *)
Definition overwrite (old new : option string) : option string :=
  match new with
  | None => old
  | Some t => if String.eqb t "" then old else Some t
  end.
(** output.py 434-438, [update_attributes], and cloudnetarray.py 79-95: one text of the
    variable [k] in the file; [own] is what the array came with. *)
Definition written (f : meta -> option string) (common d : dict) (k : string) (own : option string) : option string :=
  let a := match common k with Some m => overwrite own (f m) | None => own end in
  match d k with Some m => overwrite a (f m) | None => a end.

(** ** References *)

(** output.py 171-205, [get_references]. *)
Definition of_product (identifier : string) : string :=
  if String.eqb identifier "der" then ", https://doi.org/10.1175/1520-0426(2002)019<0835:TROSCD>2.0.CO;2"
  else if String.eqb identifier "ier" then
    ", https://doi.org/10.1175/JAM2340.1, https://doi.org/10.1175/JAM2543.1, https://doi.org/10.5194/amt-13-5335-2020"
  else if String.eqb identifier "lwc" || String.eqb identifier "categorize" then ", https://doi.org/10.1175/BAMS-88-6-883"
  else if String.eqb identifier "iwc" then ", https://doi.org/10.1175/JAM2340.1"
  else if String.eqb identifier "drizzle" then ", https://doi.org/10.1175/JAM-2181.1"
  else if String.eqb identifier "epsilon-radar" then
    ", https://doi.org/10.5194/amt-13-5335-2020, https://doi.org/10.1002/2015JD024543"
  else "".
Definition get_references (identifier : option string) (extra : option (list string)) : string :=
  let base := ("https://doi.org/10.21105/joss.02123" ++ match identifier with Some i => of_product i | None => "" end)%string in
  match extra with
  | None => base
  | Some l => fold_left (fun t r => t ++ ", " ++ r)%string l base
  end.
(** categorize/categorize.py 236-256, the file type and the references of a categorize
    file; [names] are the variables of the output. *)
Definition is_voodoo (names : list string) : bool := existsb (String.eqb "liquid_prob") names.
Definition categorize_type (names : list string) : string :=
  if is_voodoo names then "categorize-voodoo" else "categorize".
Definition categorize_references (names : list string) : string :=
  get_references (Some (categorize_type names))
    (if is_voodoo names then Some ["https://doi.org/10.5194/amt-15-5343-2022"] else None).
