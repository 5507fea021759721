(** Model of the weather model data of the categorize product (categorize/model.py).
    Floating point numbers are exact rationals. *)
From Verif Require Import Base ArrayModel FillModel TimeModel GridModel ImageModel OutputModel SiteModel TelegramModel SourceModel.
From Coq Require Import String Ascii.
Open Scope string_scope.
Open Scope nat_scope.
Open Scope list_scope.
Local Notation length := List.length (only parsing).
Local Notation dict := OutputModel.dict (only parsing).

(** ** Type of the model *)

(** [os.path.basename]: what follows the last slash. *)
Definition basename (path : string) : string := List.last (split_on "/"%char path) "".
(** model.py 173-182, [_find_model_type]. *)
Definition find_model_type (file_name : string) : result string :=
  match find (fun key => contains key (basename file_name)) ["gdas1"; "icon"; "ecmwf"; "harmonie"; "era5"; "arpege"] with
  | Some key => Ok key
  | None => Raise ValueError
  end.

(** ** Heights *)

(** The variables of a model file that give the heights: the heights with their unit
    (a row for each time step), and the altitude or the geopotential of the surface.
    They have no masked values. *)
Record nwp_file := {
  n_height : option (string * image Q);
  n_sfc_height : option (list Q);
  n_sfc_geopotential : option (list Q) }.
(** utils.py 878-896, [get_model_surface_altitude]: a value for each of [n] time steps. *)
Definition surface_altitude (f : nwp_file) (alt_site : Q) (n : nat) : list Q :=
  match n_sfc_height f with
  | Some h => h
  | None =>
      match n_sfc_geopotential f with
      | Some g => map (fun x => (x / (980665 # 100000))%Q) g
      | None => repeat alt_site n
      end
  end.
(** model.py 138-146, [_get_model_heights].  A surface altitude with another number of
    time steps raises ValueError (numpy would repeat a single one). *)
Definition model_heights (f : nwp_file) (alt_site : Q) : result (image Q) :=
  match n_height f with
  | None => Raise ModelDataError
  | Some (units, h) =>
      bind (to_m_factor units) (fun k =>
      let s := surface_altitude f alt_site (length h) in
      if length s =? length h
      then Ok (map2 (fun row a => map (fun x => (x * k + a)%Q) row) h s)
      else Raise ValueError)
  end.
(** model.py 168-170, [_calc_mean_height]; [n] is the number of levels. *)
Definition mean_height (heights : image Q) (n : nat) : list Q :=
  map (fun j => mean (unmasked (column (map (map Some) heights) j))) (seq 0 n).

(** ** Common heights *)

Fixpoint insert_level (p : Q * Q) (l : list (Q * Q)) : list (Q * Q) :=
  match l with
  | [] => [p]
  | q :: r => if Qle_bool (fst p) (fst q) then p :: l else q :: insert_level p r
  end.
Fixpoint sort_levels (l : list (Q * Q)) : list (Q * Q) :=
  match l with [] => [] | p :: r => insert_level p (sort_levels r) end.
(** [scipy.interpolate.interp1d] with [fill_value="extrapolate"]: the points are sorted,
    and the line through the two points next to [x] is used. *)
Definition extrapolated (points : list (Q * Q)) (x : Q) : Q :=
  let s := sort_levels points in
  let k := Nat.min (Nat.max (searchsorted_left (map fst s) x) 1) (length s - 1) in
  match nth_error s (k - 1), nth_error s k with
  | Some (xa, ya), Some (xb, yb) => ((yb - ya) / (xb - xa) * (x - xa) + ya)%Q
  | _, _ => 0%Q
  end.
(** One profile of model.py 66-74: [interp1d] drops the mask, so that the data under the
    mask are used unless all of them are masked.  Fewer than two levels or different
    lengths raise ValueError. *)
Definition common_profile (mean_h alt : list Q) (prof : list (Q * bool)) : result (list (masked Q)) :=
  if forallb snd prof then Ok (map (fun _ => None) mean_h)
  else if negb (length alt =? length prof) || (length alt <? 2) then Raise ValueError
  else Ok (map (fun x => Some (extrapolated (combine alt (map fst prof)) x)) mean_h).
(** model.py 62-81, [interpolate_to_common_height], one variable. *)
Definition common_height (mean_h : list Q) (heights : image Q) (data : image (Q * bool)) : result (image (masked Q)) :=
  if negb (length heights =? length data) then Raise ValueError
  else sequence (map2 (common_profile mean_h) heights data).
(** model.py 148-165, [calc_attenuations], one variable; [f] is the formula of atmoslib at
    the radar frequency.  The arrays have no masked values. *)
Definition attenuation (f : Q -> Q -> Q -> Q) (temperature pressure q : image Q) : image (masked Q) :=
  map2 (fun t pq => map2 (fun x yz => Some (f x (fst yz) (snd yz))) t (combine (fst pq) (snd pq))) temperature (combine pressure q).

(** ** Dense grid *)

Definition clamp (grid : list Q) (x : Q) : Q :=
  match nth_error grid 0, nth_error grid (length grid - 1) with
  | Some a, Some b => qmax a (qmin b x)
  | _, _ => x
  end.
(** The lower end of the interval of [grid] with [x], and the position of [x] in it. *)
Definition cell_of (grid : list Q) (x : Q) : nat * Q :=
  let i := Nat.min (searchsorted_right grid x - 1) (length grid - 2) in
  match nth_error grid i, nth_error grid (S i) with
  | Some a, Some b => (i, ((x - a) / (b - a))%Q)
  | _, _ => (i, 0%Q)
  end.
Definition mask_at (z : image (masked Q)) (i j : nat) : Q :=
  match pixel z i j with Some None => 1%Q | _ => 0%Q end.
(** [scipy.interpolate.RectBivariateSpline] of the mask with degree one: bilinear, and
    constant beyond the ends. *)
Definition mask_weight (x y : list Q) (z : image (masked Q)) (xn yn : Q) : Q :=
  let (i, u) := cell_of x (clamp x xn) in
  let (j, v) := cell_of y (clamp y yn) in
  ((1 - u) * (1 - v) * mask_at z i j + (1 - u) * v * mask_at z i (S j) +
   u * (1 - v) * mask_at z (S i) j + u * v * mask_at z (S i) (S j))%Q.
Section Griddata.
  (** [scipy.interpolate.griddata] with method "linear": points ((y, x), z), and the value
      at a new point, [None] for NaN. *)
  Variable griddata : list (Q * Q * Q) -> Q -> Q -> option Q.
  (** utils.py 380-384: the visible points. *)
  Definition valid_points (x y : list Q) (z : image (masked Q)) : list (Q * Q * Q) :=
    flat_map (fun xr => flat_map (fun yv => match snd yv with Some v => [(fst yv, fst xr, v)] | None => [] end)
      (combine y (snd xr))) (combine x z).
  (** utils.py 392-399: the line through the outermost values of a row is continued. *)
  Definition extrapolate_row (y_new : list Q) (row : list (option Q)) : list (option Q) :=
    let good := filter (fun p => negb (is_masked (snd p))) (combine y_new row) in
    let points := combine (map fst good) (unmasked (map snd good)) in
    if 2 <=? length points
    then map2 (fun y v => match v with Some v => Some v | None => Some (extrapolated points y) end) y_new row
    else row.
  (** utils.py 351-406, [interpolate_2d_mask].  Axes that are not strictly increasing,
      have fewer than two points or do not fit the data raise ValueError. *)
  Definition interpolate_2d_mask (x y : list Q) (z : image (masked Q)) (x_new y_new : list Q) (extrapolate : bool)
    : result (image (masked Q)) :=
    if negb (strictly_up x && strictly_up y && (2 <=? length x) && (2 <=? length y)) then Raise ValueError
    else if negb ((length x =? length z) && forallb (fun row => length row =? length y) z) then Raise ValueError
    else
      let points := valid_points x y z in
      Ok (map (fun xn =>
        let row := map (fun yn => griddata points yn xn) y_new in
        let row := if extrapolate then extrapolate_row y_new row else row in
        map2 (fun yn v => if qlt (mask_weight x y z xn yn) (1 # 2) then v else None) y_new row) x_new).
  (** model.py 185-188, [_find_number_of_valid_profiles]. *)
  Definition n_valid_profiles (z : image (masked Q)) : nat :=
    length (filter (fun row => negb (forallb is_masked row)) z).
  (** model.py 101: the middle between each height and the one below, with the altitude of
      the site below the first. *)
  Fixpoint half_heights (below : Q) (heights : list Q) : list Q :=
    match heights with [] => [] | h :: r => (h - (h - below) / 2)%Q :: half_heights h r end.
  (** model.py 84-117, [interpolate_to_grid]: the dense fields and the time steps without
      temperature. *)
  Definition interpolate_to_grid (time mean_h : list Q) (alt_site : Q) (sparse : dict (image (masked Q)))
    (time_grid height_grid : list Q) : result (dict (image (masked Q)) * list nat) :=
    bind (sequence (map (fun key =>
      match lookup key sparse with
      | None => Raise KeyError
      | Some array =>
          if n_valid_profiles array <? 2 then Raise ModelDataError
          else bind (interpolate_2d_mask time mean_h array time_grid
                 (if contains "atten" key then half_heights alt_site height_grid else height_grid) true) (fun d => Ok (key, d))
      end) ["temperature"; "pressure"; "rh"; "q"; "specific_gas_atten"; "specific_saturated_gas_atten"; "specific_liquid_atten"])) (fun dense =>
    match lookup "temperature" dense with
    | None => Raise KeyError
    | Some t => Ok (dense, where1 (map (forallb is_masked) t))
    end).
End Griddata.
