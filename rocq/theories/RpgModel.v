(** Model of the files of RPG cloud radars: selection of the files of a day, the
    common height grid, chirp sequences, the record of the day, masks, zenith angle
    and units.  Floating point numbers are exact rationals. *)
From Verif Require Import Base ArrayModel FillModel GridModel OutputModel InstrumentModel TimeModel DropletModel RadarModel.
From Coq Require Import Qabs Qround String.
Local Notation length := List.length (only parsing).
Open Scope string_scope.
Open Scope list_scope.
Open Scope nat_scope.

(** ** One file *)

(** A header value as [rpgpy] returns it: text, a number, or a vector (whose entries
    are masked only after padding). *)
Inductive hval := HStr (s : string) | HNum (x : Q) | HVec (l : list (masked Q)).
(** A data array: one value per profile, or profiles by [n] gates.  Entries carry the
    data and the mask.  Integer arrays are not distinguished: in this file format
    they are one-dimensional. *)
Inductive dval := D1 (l : list entry) | D2 (n : nat) (rows : list (list entry)).
(** instruments/rpg_reader.py 17-107, [Fmcw94Bin] after its keys are replaced.  The
    binary format is read by the package [rpgpy], which is not modelled. *)
Record rpg_file := { f_header : OutputModel.dict hval; f_data : OutputModel.dict dval }.

(** [d[key]]. *)
Definition key_of {A} (k : string) (d : OutputModel.dict A) : result A :=
  match lookup k d with Some v => Ok v | None => Raise KeyError end.
(** [data["time"]] in seconds since 1 January 2001. *)
Definition times_of (f : rpg_file) : result (list Q) :=
  bind (key_of "time" (f_data f)) (fun v =>
  match v with D1 l => Ok (map fst l) | D2 _ _ => Raise TypeError end).

(** instruments/rpg.py 282-287, [_validate_date].  [epoch_us] is the epoch in
    microseconds, [day] the number of the expected day. *)
Definition validate_date (epoch_us day : Z) (f : rpg_file) : result unit :=
  bind (times_of f) (fun ts =>
  if forallb (fun t => (day_of epoch_us t =? day)%Z) ts then Ok tt else Raise ValueError).

(** instruments/rpg.py 197-206, the loop of [_get_fmcw94_objects].  A file is its
    name and the outcome of reading it (an error of [rpgpy] counts as ValueError). *)
Fixpoint read_files (epoch_us : Z) (expected : option Z) (files : list (string * result rpg_file))
  : result (list (string * rpg_file)) :=
  match files with
  | [] => Ok []
  | (name, r) :: rest =>
      match bind r (fun f => bind (match expected with Some d => validate_date epoch_us d f | None => Ok tt end)
                               (fun _ => Ok f)) with
      | Ok f => bind (read_files epoch_us expected rest) (fun l => Ok ((name, f) :: l))
      | Raise (TypeError | ValueError | IndexError) => read_files epoch_us expected rest
      | Raise e => Raise e
      end
  end.

(** ** Common heights *)

(** [header["range"]]; it has no masked values before padding. *)
Definition range_of (f : rpg_file) : result (list Q) :=
  bind (key_of "range" (f_header f)) (fun v =>
  match v with HVec l => Ok (present l) | _ => Raise TypeError end).
(** [np.array_equal]. *)
Fixpoint array_equal (a b : list Q) : bool :=
  match a, b with
  | [], [] => true
  | x :: a', y :: b' => Qeq_bool x y && array_equal a' b'
  | _, _ => false
  end.
(** [max(arrays, key=lambda r: r[-1])]: the first with the largest last entry. *)
Fixpoint highest_from (best : list Q) (top : Q) (l : list (list Q)) : result (list Q) :=
  match l with
  | [] => Ok best
  | r :: l' =>
      match rev r with
      | [] => Raise IndexError
      | t :: _ => if qgt t top then highest_from r t l' else highest_from best top l'
      end
  end.
Definition highest (l : list (list Q)) : result (list Q) :=
  match l with
  | [] => Raise ValueError
  | r :: l' => match rev r with [] => Raise IndexError | t :: _ => highest_from r t l' end
  end.
(** utils.py 444-473, [interpolate_2D_along_y] on entries: the data of the nearest
    gate, masked outside the range. *)
Definition nearest_profile (y y_new : list Q) (row : list entry) : result (list entry) :=
  match y with
  | [] => match y_new with [] => Raise ValueError | _ => Raise IndexError end
  | y0 :: r =>
      bind (gather row (map (nearest_gate y) y_new)) (fun vals =>
      Ok (map2 (fun (v : entry) yn =>
            (fst v, snd v || (qlt yn (list_min y0 r) || qgt yn (list_max y0 r)))) vals y_new))
  end.
(** instruments/rpg.py 226-230: two-dimensional data along the range. *)
Definition to_heights (y y_new : list Q) (v : dval) : result dval :=
  match v with
  | D2 n rows =>
      if n =? length y
      then bind (sequence (map (nearest_profile y y_new) rows)) (fun rows' => Ok (D2 (length y_new) rows'))
      else Ok v
  | D1 _ => Ok v
  end.
(** instruments/rpg.py 236-243, [_interpolate_chirp_start_indices].  Start indices
    are numbers of the header; indices below zero are not modelled. *)
Definition chirp_starts (y y_new : list Q) (starts : list Q) : result (list Q) :=
  bind (gather y (map (fun s => Z.to_nat (Qfloor s)) starts)) (fun vals =>
  bind (sequence (map (fun v => argmin (map (fun t => Qabs (t - v)) y_new)) vals)) (fun ind =>
  match ind with
  | [] => Raise IndexError
  | _ :: r => Ok (map (fun i => inject_Z (Z.of_nat i)) (0 :: r))
  end)).
Definition vector_of (v : hval) : result (list Q) :=
  match v with HVec l => Ok (present l) | HNum x => Ok [x] | HStr _ => Raise IndexError end.
(** instruments/rpg.py 222-232, the loop over the files for one file. *)
Definition common_height (target : list Q) (f : rpg_file) : result rpg_file :=
  bind (range_of f) (fun y =>
  if array_equal y target then Ok f else
  bind (sequence (map (fun kv => bind (to_heights y target (snd kv)) (fun v => Ok (fst kv, v))) (f_data f)))
    (fun data =>
  bind (bind (key_of "chirp_start_indices" (f_header f)) vector_of) (fun starts =>
  bind (chirp_starts y target starts) (fun starts' =>
  Ok {| f_header := set_key "range" (HVec (map Some target))
                      (set_key "chirp_start_indices" (HVec (map Some starts')) (f_header f));
        f_data := data |})))).
(** instruments/rpg.py 216-233, [_interpolate_to_common_height]. *)
Definition to_common_height (files : list rpg_file) : result (list rpg_file) :=
  bind (sequence (map range_of files)) (fun ranges =>
  match ranges with
  | [] => Raise IndexError
  | r0 :: rest =>
      if forallb (array_equal r0) rest then Ok files
      else bind (highest ranges) (fun target => sequence (map (common_height target) files))
  end).

(** ** Chirp sequences *)

(** [len(obj.header["chirp_start_indices"])]. *)
Definition n_chirps (f : rpg_file) : result nat :=
  bind (key_of "chirp_start_indices" (f_header f)) (fun v =>
  match v with HVec l => Ok (length l) | _ => Raise TypeError end).
(** instruments/rpg.py 256-261: a vector with one entry per chirp is padded with
    masked values. *)
Definition pad (n n_max : nat) (v : hval) : hval :=
  match v with
  | HVec l => if length l =? n then HVec (l ++ repeat None (n_max - n)) else v
  | _ => v
  end.
(** instruments/rpg.py 246-262, [_pad_chirp_related_fields]. *)
Definition pad_chirps (files : list rpg_file) : result (list rpg_file) :=
  bind (sequence (map n_chirps files)) (fun lens =>
  match lens with
  | [] => Raise IndexError
  | n0 :: rest =>
      if forallb (Nat.eqb n0) rest then Ok files
      else
        let n_max := fold_left Nat.max rest n0 in
        Ok (map2 (fun n f =>
              if n =? n_max then f
              else {| f_header := map (fun kv => (fst kv, pad n n_max (snd kv))) (f_header f);
                      f_data := f_data f |}) lens files)
  end).

(** ** The record of the day *)

(** A header variable: the vector of the file, or a value for every profile. *)
Inductive xval := Plain (l : list (masked Q)) | PerTime (rows : list hval).
(** [name.startswith("_")]. *)
Definition hidden (k : string) : bool :=
  match k with String "_" _ => true | _ => false end.
(** [arr = ma.median(arr)] for latitude and longitude. *)
Definition median_of (v : hval) : hval :=
  match v with
  | HVec l => match median (present l) with Some m => HNum m | None => HVec [None] end
  | _ => v
  end.
(** A vector with one entry counts as a scalar (utils.py 733-750). *)
Definition one_row (v : hval) : hval := match v with HVec [Some x] => HNum x | _ => v end.
(** instruments/rpg.py 265-279, [_expand_time_related_fields] for one file: every
    profile gets the value of the header.  Hidden variables are not expanded in the
    code; they are dropped when the files are stacked. *)
Definition expand_value (n : nat) (k : string) (v : hval) : xval :=
  match v with
  | HVec l => if (k =? "range")%string || (k =? "time")%string || hidden k then Plain l
              else PerTime (repeat (one_row (if (k =? "latitude")%string || (k =? "longitude")%string
                                             then median_of v else v)) n)
  | _ => PerTime (repeat v n)
  end.
Record rpg_object := { o_header : OutputModel.dict xval; o_data : OutputModel.dict dval }.
Definition expand_time (f : rpg_file) : result rpg_object :=
  bind (times_of f) (fun ts =>
  Ok {| o_header := map (fun kv => (fst kv, expand_value (length ts) (fst kv) (snd kv))) (f_header f);
        o_data := f_data f |}).

(** Shape of the rows of a variable; concatenation fails if it differs. *)
Definition row_size (v : hval) : option nat := match v with HVec l => Some (length l) | _ => None end.
Definition same_size (a b : option nat) : bool :=
  match a, b with Some x, Some y => x =? y | None, None => true | _, _ => false end.
Definition cat_header (a b : xval) : result xval :=
  match a, b with
  | Plain x, Plain y => Ok (Plain (x ++ y))
  | PerTime x, PerTime y =>
      match x, y with
      | u :: _, v :: _ => if same_size (row_size u) (row_size v) then Ok (PerTime (x ++ y)) else Raise ValueError
      | _, _ => Ok (PerTime (x ++ y))
      end
  | _, _ => Raise ValueError
  end.
Definition cat_data (a b : dval) : result dval :=
  match a, b with
  | D1 x, D1 y => Ok (D1 (x ++ y))
  | D2 n x, D2 m y => if n =? m then Ok (D2 n (x ++ y)) else Raise ValueError
  | _, _ => Raise ValueError
  end.
(** instruments/rpg.py 155-170, [_stack_rpg_data]: one dictionary into another. *)
Fixpoint stack_into {V} (cat : V -> V -> result V) (src dst : OutputModel.dict V) {struct src}
  : result (OutputModel.dict V) :=
  match src with
  | [] => Ok dst
  | (k, v) :: rest =>
      if hidden k then stack_into cat rest dst
      else match lookup k dst with
           | None => stack_into cat rest (set_key k v dst)
           | Some a => bind (cat a v) (fun w => stack_into cat rest (set_key k w dst))
           end
  end.
Fixpoint stack {V} (cat : V -> V -> result V) (srcs : list (OutputModel.dict V)) (dst : OutputModel.dict V)
  : result (OutputModel.dict V) :=
  match srcs with [] => Ok dst | s :: rest => bind (stack_into cat s dst) (stack cat rest) end.

(** A value of the record: one value, a vector, values per profile, or data. *)
Inductive rval := RConst (v : hval) | RHead (v : xval) | RData (v : dval).
(** Entries of [np.unique]: numbers and texts of all profiles. *)
Definition entries (v : hval) : list hval :=
  match v with HVec l => map HNum (present l) | _ => [v] end.
Definition same_entry (a b : hval) : bool :=
  match a, b with
  | HStr s, HStr t => String.eqb s t
  | HNum x, HNum y => Qeq_bool x y
  | _, _ => false
  end.
Definition constant_keys : list string :=
  ["customer_name"; "model_number"; "dual_polarization"; "antenna_separation"; "antenna_diameter";
   "antenna_gain"; "half_power_beam_width"; "radar_frequency"].
(** instruments/rpg.py 126-133: the only value of a variable. *)
Definition constant (rows : list hval) : result hval :=
  match flat_map entries rows with
  | [] => Raise IndexError
  | a :: r => if forallb (same_entry a) r then Ok a else Raise ValueError
  end.
(** instruments/rpg.py 110-133, for one variable of the stacked header: [None] if it
    is removed.  The code goes through the constant variables in a fixed order, which
    only matters for the variable named in the error. *)
Definition settle (kv : string * xval) : result (option (string * rval)) :=
  let '(k, v) := kv in
  if existsb (String.eqb k) constant_keys then
    bind (constant (match v with PerTime rows => rows | Plain l => [HVec l] end)) (fun a =>
    Ok (if (k =? "customer_name")%string then None else Some (k, RConst a)))
  else Ok (Some (k, RHead v)).

(** ** Invalid values *)

(** [np.isclose(x, v)] with tolerances [rtol] = 1e-5 and [atol]. *)
Definition isclose (atol x v : Q) : bool := Qle_bool (Qabs (x - v)) (atol + (1 # 100000) * Qabs v).
(** instruments/rpg.py 183-187: zero, -999 and 1e-10 are masked. *)
Definition invalid (x : Q) : bool :=
  Qeq_bool x 0 ||
  existsb (fun v => Qeq_bool x v || isclose (1 # 100000000) x v) [-999; 1 # 10000000000]%Q.
Definition mask_entry (e : entry) : entry := (fst e, snd e || invalid (fst e)).
(** instruments/rpg.py 173-188, [_mask_invalid_data]. *)
Definition mask_invalid_data (d : OutputModel.dict dval) : OutputModel.dict dval :=
  map (fun kv =>
    (fst kv, match snd kv with
             | D2 n rows => D2 n (map (map mask_entry) rows)
             | D1 l => if (fst kv =? "air_temperature")%string || (fst kv =? "air_pressure")%string
                       then D1 (map mask_entry l) else D1 l
             end)) d.

(** instruments/rpg.py 107-136, [create_one_day_data_record].  An empty list of
    objects has no "range" and gives an empty record. *)
Definition one_day_record (objs : list rpg_object) : result (OutputModel.dict rval) :=
  bind (stack cat_data (map o_data objs) []) (fun data =>
  bind (stack cat_header (map o_header objs) []) (fun header =>
  let header := match objs with
                | o :: _ => match lookup "range" header, lookup "range" (o_header o) with
                            | Some _, Some r => set_key "range" r header
                            | _, _ => header
                            end
                | [] => header
                end in
  bind (sequence (map settle header)) (fun settled =>
  Ok (fold_left (fun d kv => set_key (fst kv) (RData (snd kv)) d) (mask_invalid_data data)
        (flat_map (fun o => match o with Some kv => [kv] | None => [] end) settled))))).

(** instruments/rpg.py 191-213 and 67-68: the record of the files of the day, and the
    names of the files used. *)
Definition day_record (epoch_us : Z) (expected : option Z) (files : list (string * result rpg_file))
  : result (OutputModel.dict rval * list string) :=
  bind (read_files epoch_us expected files) (fun used =>
  match used with
  | [] => Raise ValidTimeStampError
  | _ =>
      bind (to_common_height (map snd used)) (fun fs =>
      bind (pad_chirps fs) (fun fs =>
      bind (sequence (map expand_time fs)) (fun objs =>
      bind (one_day_record objs) (fun r => Ok (r, map fst used)))))
  end).

(** [x[t].compressed()]: fails if the profile has a single number. *)
Definition chirp_row (v : hval) : result (list (masked Q)) :=
  match v with HVec l => Ok l | _ => Raise AttributeError end.
(** The rows of a variable per profile, for [ma.array(data[key])]. *)
Definition time_rows (v : rval) : result (list hval) :=
  match v with RHead (PerTime rows) => Ok rows | _ => Raise IndexError end.
(** instruments/rpg.py 139-152, [_expand_nyquist] of the record; the loop is modelled
    in InstrumentModel. *)
Definition record_nyquist (r : OutputModel.dict rval) : result (list (list Q)) :=
  bind (bind (key_of "nyquist_velocity" r) time_rows) (fun nyq =>
  bind (bind (key_of "chirp_start_indices" r) time_rows) (fun starts =>
  bind (key_of "range" r) (fun rng =>
  bind (sequence (map chirp_row starts)) (fun starts =>
  bind (sequence (map chirp_row nyq)) (fun nyq =>
  expand_nyquist (match rng with RHead (Plain l) => length l | _ => 0 end) nyq
    (map (map (option_map Qfloor)) starts)))))).

(** ** Screening by depolarisation and width *)

(** instruments/rpg.py 336-344, [mask_invalid_ldr]. *)
Definition mask_low (threshold : Q) (e : entry) : entry := (fst e, snd e || Qle_bool (fst e) threshold).
Definition mask_invalid_ldr (d : OutputModel.dict (image entry)) : OutputModel.dict (image entry) :=
  map (fun kv =>
    (fst kv, if (fst kv =? "ldr")%string then map (map (mask_low (-35))) (snd kv)
             else if (fst kv =? "sldr")%string then map (map (mask_low (-40))) (snd kv)
             else snd kv)) d.
(** instruments/rpg.py 346-356, [mask_invalid_width]: the comparison uses the data
    under the mask.  The arrays have the shape of the width. *)
Definition mask_invalid_width (d : OutputModel.dict (image entry)) : result (OutputModel.dict (image entry)) :=
  bind (key_of "width" d) (fun width =>
  Ok (map (fun kv =>
    (fst kv, if existsb (String.eqb (fst kv)) ["Zh"; "v"; "ldr"; "width"; "sldr"]
             then map2 (map2 (fun (e w : entry) => (fst e, snd e || qlt (fst w) (5 # 1000)))) (snd kv) width
             else snd kv)) d)).
(** Two-dimensional data of [rpg2nc] after lines 68, 73 and 74. *)
Definition screen_fields (d : OutputModel.dict (image entry)) : result (OutputModel.dict (image entry)) :=
  mask_invalid_width (mask_invalid_ldr (map (fun kv => (fst kv, map (map mask_entry) (snd kv))) d)).

(** ** Zenith angle, units, instrument *)

(** instruments/rpg.py 405-419, [_filter_zenith_angle].  Angles under the mask only
    matter if no visible angle is near zenith: the median is then masked and no
    profile is accepted, as here. *)
Definition near_zenith (x : Q) : bool := qgt x (-5) && qlt x 15.
Definition filter_zenith (zenith : list (masked Q)) : list bool :=
  match median (filter near_zenith (present zenith)) with
  | None => map (fun _ => false) zenith
  | Some m => map (fun z => match z with Some x => isclose (1 # 10) x m | None => false end) zenith
  end.
(** instruments/rpg.py 358-375, [add_zenith_angle], and the screening of the profiles
    in line 81: the zenith angles of the profiles kept, with their indices. *)
Definition zenith_profiles (elevation : list (masked Q)) : result (list (nat * masked Q)) :=
  let zenith := map (option_map (fun e => (90 - e)%Q)) elevation in
  let valid := filter_zenith zenith in
  if length valid - length (filter (fun b => b) valid) =? length zenith then Raise ValidTimeStampError
  else Ok (map fst (filter snd (combine (enumerate zenith) valid))).

(** constants.py: MM_H_TO_M_S, G_TO_KG, HPA_TO_PA and KM_H_TO_M_S; instruments/rpg.py
    376-382, [convert_units]. *)
Definition unit_factors : list (string * Q) :=
  [("rainfall_rate", 1 # 3600000); ("lwp", 1 # 1000); ("relative_humidity", 1 # 100);
   ("air_pressure", 100); ("wind_speed", 1000 # 3600)]%Q.
Fixpoint convert_all (factors : list (string * Q)) (d : OutputModel.dict (list (masked Q)))
  : result (OutputModel.dict (list (masked Q))) :=
  match factors with
  | [] => Ok d
  | (k, c) :: rest =>
      bind (key_of k d) (fun l => convert_all rest (set_key k (map (option_map (fun x => (x * c)%Q)) l) d))
  end.
Definition convert_units := convert_all unit_factors.

(** [math.isclose(x, y, abs_tol=0.1)] with the relative tolerance 1e-9. *)
Definition near_frequency (x y : Q) : bool :=
  Qle_bool (Qabs (x - y)) (qmax ((1 # 1000000000) * qmax (Qabs x) (Qabs y)) (1 # 10)).
(** instruments/rpg.py 385-392, [_get_instrument]. *)
Definition rpg_model (frequency : Q) : result string :=
  if near_frequency frequency 35 then Ok "RPG-FMCW-35"
  else if near_frequency frequency 94 then Ok "RPG-FMCW-94"
  else Raise RuntimeError.
