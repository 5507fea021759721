(** Model of the lidars and ceilometers: text files of Vaisala and Campbell Scientific
    ceilometers (vaisala.py), the choice of the reader (ceilo.py) and the netCDF files of
    Lufft and Vaisala lidars (nc_lidar.py, lufft.py, cl61d.py, da10.py).  Floating point
    numbers are exact rationals. *)
From Verif Require Import Base ArrayModel FillModel TimeModel GridModel DropletModel OutputModel
  TelegramModel SiteModel MeltModel NwpModel.
From Coq Require Import String Ascii.
Open Scope string_scope.
Open Scope nat_scope.
Open Scope list_scope.
Local Notation length := List.length (only parsing).

(** ** Text files *)

(** One profile as returned by the reader of the library ceilopyter, which is not
    modelled: backscatter, tilt angle, resolution of the range. *)
Record shot := { p_beta : list Q; p_tilt : Q; p_res : Q }.
(** [self.data] of a text ceilometer with [self.date].  Times are microseconds since
    1970-01-01 UTC, a date is a number of days since then.  The dictionary entries
    calibration_factor and zenith_angle are scalars. *)
Record ceilo := {
  c_time : list Z; c_range : list Q; c_beta : image Q;
  c_factor : Q; c_zenith : Q; c_date : Z }.
(** [datetime.date()] of a time. *)
Definition date_of (t : Z) : Z := Z.div t 86400000000.
(** [np.stack]: ValueError for different lengths. *)
Definition stack (rows : image Q) : result (image Q) :=
  match rows with
  | [] => Raise ValueError
  | r :: rest => if forallb (fun x : list Q => length x =? length r) rest then Ok rows else Raise ValueError
  end.
(** vaisala.py 76-77: an array along the time is cut, others are left alone. *)
Definition cut {A} (n_time : nat) (ind : list nat) (l : list A) : result (list A) :=
  if length l =? n_time then gather l ind else Ok l.
(** vaisala.py 65-77, [_screen_time_indices].  Booleans are given by the indices of the
    true values. *)
Definition screen_ceilo (ind : list nat) (c : ceilo) : result ceilo :=
  match ind with
  | [] => Raise ValidTimeStampError
  | _ =>
    let n_time := length (c_time c) in
    bind (cut n_time ind (c_time c)) (fun time =>
    bind (cut n_time ind (c_range c)) (fun range =>
    bind (cut n_time ind (c_beta c)) (fun beta =>
    Ok {| c_time := time; c_range := range; c_beta := beta;
          c_factor := c_factor c; c_zenith := c_zenith c; c_date := c_date c |})))
  end.
(** vaisala.py 53-57, [sort_time].  [np.unique] with [return_index]. *)
Definition sort_ceilo (c : ceilo) : result ceilo :=
  screen_ceilo (unique_index (map inject_Z (c_time c))) c.
(** vaisala.py 59-63, [screen_date]. *)
Definition screen_date (expected : option Z) (c : ceilo) : result ceilo :=
  match c_time c with
  | [] => Raise IndexError
  | t0 :: _ =>
      let date := match expected with None => date_of t0 | Some d => d end in
      screen_ceilo (where1 (map (fun t => Z.eqb (date_of t) date) (c_time c)))
        {| c_time := c_time c; c_range := c_range c; c_beta := c_beta c;
           c_factor := c_factor c; c_zenith := c_zenith c; c_date := date |}
  end.
(** vaisala.py 79-83, [convert_to_fraction_hour]. *)
Definition fraction_hour (time : list Z) : list Q :=
  match time with
  | [] => []
  | t0 :: _ => map (fun t => (inject_Z (t - date_of t0 * 86400000000) / 3600000000)%Q) time
  end.
(** vaisala.py 45, [calibration_factor or 1.0]. *)
Definition factor_or_one (factor : option Q) : Q :=
  match factor with None => 1%Q | Some f => if Qeq_bool f 0 then 1%Q else f end.
(** vaisala.py 34-51, [read_ceilometer_file], with the hours of the profiles. *)
Definition read_vaisala (expected : option Z) (factor : option Q) (data : list (Z * shot))
  : result (ceilo * list Q) :=
  match data with
  | [] => Raise ValidTimeStampError
  | (_, p0) :: _ =>
      let range := map (fun i => (inject_Z (Z.of_nat i) * p_res p0 + p_res p0 / 2)%Q) (seq 0 (length (p_beta p0))) in
      bind (stack (map (fun d => p_beta (snd d)) data)) (fun beta =>
      let f := factor_or_one factor in
      let zenith := match median (map (fun d => p_tilt (snd d)) data) with Some m => m | None => 0%Q end in
      bind (sort_ceilo {| c_time := map fst data; c_range := range; c_beta := map (map (fun x => (x * f)%Q)) beta;
                          c_factor := f; c_zenith := zenith; c_date := 0%Z |}) (fun c =>
      bind (screen_date expected c) (fun c =>
      Ok (c, fraction_hour (c_time c)))))
  end.
(** vaisala.py 102-107, [ClCeilo._store_ceilometer_info]: the model from the shape of
    the backscatter, which has at least one profile here. *)
Definition cl_model (beta : image Q) : string :=
  match beta with
  | [] => "CL31"
  | r :: _ => if (Z.of_nat (length r) <? 1540)%Z then "CL31" else "CL51"
  end.
(** ceilometer.py 135-139, [check_beta_raw_shape], for a 2-D array with at least one
    profile; arrays of other dimensions are not modelled. *)
Definition check_shape {A} (beta : image A) : result unit :=
  match beta with
  | [] => Ok tt
  | r :: rest => if (length rest =? 0) || (length r =? 1) then Raise ValidTimeStampError else Ok tt
  end.

(** ** The choice of the reader *)

(** A file: netCDF with its title, if any, or something else, as lines of bytes. *)
Inductive lidar_file := NetCDF (title : option string) | Lines (lines : list string).
Inductive reader := ClReader | CtReader | Cl61Reader | Da10Reader | CsReader | LufftReader.
(** ceilo.py 208-213: one line. *)
Definition line_model (model : option string) (line : string) : option string :=
  if String.prefix (String "001"%char "CL") line then Some "cl31_or_cl51"
  else if String.prefix (String "001"%char "CT") line then Some "ct25k"
  else model.
(** ceilo.py 194-217, [_find_ceilo_model]. *)
Definition find_model (path : string) (f : lidar_file) : result string :=
  match f with
  | NetCDF None => Raise AttributeError
  | NetCDF (Some title) =>
      if existsb (fun id => contains id (lower title) || contains id (lower (basename path))) ["cl61d"; "cl61-d"]
      then Ok "cl61d" else Ok "chm15k"
  | Lines lines =>
      match fold_left line_model (firstn 100 lines) None with
      | None => Raise RuntimeError
      | Some model => Ok model
      end
  end.
(** ceilo.py 158-191, [_initialize_ceilo]: the class of the reader. *)
Definition initialize (site_model : option string) (path : string) (f : lidar_file) : result reader :=
  bind (match site_model with
        | Some m =>
            if mem_str m ["cl31"; "cl51"; "cl61d"; "ct25k"; "chm15k"; "cs135"; "da10"] then
              Ok (if mem_str m ["cl31"; "cl51"] then "cl31_or_cl51" else m)
            else Raise ValueError
        | None => find_model path f
        end) (fun model =>
  Ok (if String.eqb model "cl31_or_cl51" then ClReader
      else if String.eqb model "ct25k" then CtReader
      else if String.eqb model "cl61d" then Cl61Reader
      else if String.eqb model "da10" then Da10Reader
      else if String.eqb model "cs135" then CsReader
      else LufftReader)).

(** ** netCDF files *)

(** utils.py 1037-1053, [edges2mid]: [upper] for "upper", otherwise "lower".  The slice
    has no last or first gap if there are fewer than two values: IndexError. *)
Definition edges2mid (data : list Q) (upper : bool) : result (list Q) :=
  let gaps := map2 (fun a b => ((b - a) / 2)%Q) (removelast data) (tl data) in
  if upper then
    match gaps with
    | [] => Raise IndexError
    | g :: _ => Ok (map2 (fun d g => (d - g)%Q) data (g :: gaps))
    end
  else
    match rev gaps with
    | [] => Raise IndexError
    | g :: _ => Ok (map2 (fun d g => (d + g)%Q) data (gaps ++ [g]))
    end.
(** nc_lidar.py 39-50, [_fetch_zenith_angle]: the angles of the file, if it has the
    variable.  The array made of a masked median has the value under the mask, 0. *)
Definition zenith_angle (angles : option (list (masked Q))) (default : Q) : Q :=
  match angles with
  | None => default
  | Some l => match median (unmasked l) with Some m => m | None => 0%Q end
  end.
(** The attribute software_version: missing, an integer, text, or of another type. *)
Inductive version := VMissing | VInteger (v : Z) | VText (v : string) | VOther.
(** lufft.py 62-79, [_get_old_software_version]: whether the version is old. *)
Definition old_version (v : version) : result bool :=
  match v with
  | VMissing => Raise AttributeError
  | VInteger _ => Ok true
  | VText text =>
      match nth_error (words text) 2 with
      | None => Raise IndexError
      | Some firmware => Ok (String.ltb firmware "0.702")
      end
  | VOther => Raise RuntimeError
  end.
(** lufft.py 94-103, [_getvar], for variables that are arrays. *)
Fixpoint getvar {A} (names : list string) (vars : dict A) : result A :=
  match names with
  | [] => Raise ValueError
  | k :: r => match lookup k vars with Some v => Ok v | None => getvar r vars end
  end.
Section Lufft.
  (** [x ** y] for floating point numbers. *)
  Variable power : Q -> Q -> Q.
  (** lufft.py 81-92, [_get_nn].  [None] stands for the scalar 1. *)
  Definition get_nn (nn1 : list (masked Q)) : option (list (masked Q)) :=
    let normalise step reference scale :=
      map (option_map (fun x => power step (- (x - reference) / scale)%Q)) nn1 in
    match median (unmasked nn1) with
    | None => None
    | Some m =>
        if qlt 120 m && qlt m 160 then Some (normalise (124 # 100)%Q 140%Q 5%Q)
        else if qlt 3200 m && qlt m 4000 then Some (normalise (1035 # 1000)%Q 3685%Q 1%Q)
        else None
    end.
  (** Division of masked values: masked if an operand is, or if the divisor is zero. *)
  Definition mdiv (a b : masked Q) : masked Q :=
    match a, b with
    | Some x, Some y => if Qeq_bool y 0 then None else Some (x / y)%Q
    | _, _ => None
    end.
  (** Product of masked values. *)
  Definition mmul (a b : masked Q) : masked Q :=
    match a, b with Some x, Some y => Some (x * y)%Q | _, _ => None end.
  (** lufft.py 54-56: the standard deviations, one per profile, over the normalised
      gain.  [utils.transpose] wants more than one value. *)
  Definition std_column (std : list (masked Q)) (nn : option (list (masked Q))) : result (list (masked Q)) :=
    match nn with
    | None => if 1 <? length std then Ok std else Raise ValueError
    | Some l =>
        if length l =? length std then
          if 1 <? length std then Ok (map2 mdiv std l) else Raise ValueError
        else Raise ValueError
    end.
  (** Product in place of an image and a column, or a row: ValueError for other sizes. *)
  Definition times_column (beta : image (masked Q)) (c : list (masked Q)) : result (image (masked Q)) :=
    if length c =? length beta then Ok (map2 (fun row f => map (fun x => mmul x f) row) beta c)
    else Raise ValueError.
  Definition times_row (beta : image (masked Q)) (r : list Q) : result (image (masked Q)) :=
    if forallb (fun row : list (masked Q) => length row =? length r) beta
    then Ok (map (fun row => map2 (fun x f => option_map (fun v => (v * f)%Q) x) row r) beta)
    else Raise ValueError.
  (** The arrays of a Lufft file: images by name, vectors by name. *)
  Record lufft := {
    l_images : dict (image (masked Q)); l_vectors : dict (list (masked Q)); l_version : version }.
  (** lufft.py 41-60, [_fetch_beta_raw]: calibrated backscatter, factor, whether the
      version is old. *)
  Definition lufft_beta (factor : option Q) (range : list Q) (f : lufft)
    : result (image (masked Q) * Q * bool) :=
    let factor := match factor with None => (3 # 1000000000000)%Q | Some c => c end in
    bind (getvar ["beta_raw"; "beta_att"] (l_images f)) (fun beta =>
    bind (old_version (l_version f)) (fun old =>
    bind (if old then
            bind (getvar ["stddev"] (l_vectors f)) (fun std =>
            bind (getvar ["nn1"; "NN1"] (l_vectors f)) (fun nn1 =>
            bind (std_column std (get_nn nn1)) (fun c =>
            bind (times_column beta c) (fun beta =>
            times_row beta (map (fun x => (x * x)%Q) range)))))
          else Ok beta) (fun beta =>
    Ok (map (map (option_map (fun x => (x * factor)%Q))) beta, factor, old)))).
End Lufft.
(** cl61d.py 39-56 and da10.py 38-51, [_fetch_lidar_variables]: the backscatter. *)
Definition vaisala_beta (factor : option Q) (beta : option (image (masked Q)))
  : result (image (masked Q) * Q) :=
  match beta with
  | None => Raise KeyError
  | Some beta =>
      if forallb (forallb (fun x : masked Q => match x with None => true | Some _ => false end)) beta
      then Raise LidarDataError
      else
        let factor := match factor with None => 1%Q | Some c => c end in
        Ok (map (map (option_map (fun x => (x * factor)%Q))) beta, factor)
  end.
(** cl61d.py 53-55: the depolarisation of CL61, images of one size. *)
Definition cl61_depolarisation (x_pol p_pol : image (masked Q)) : image (masked Q) :=
  map2 (map2 mdiv) x_pol p_pol.
