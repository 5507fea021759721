(** Model of the liquid water path and water vapour files of RPG microwave
    radiometers (HATPRO): reading, screening, dates, joining of files, the record of
    the day.  Floating point numbers are exact rationals. *)
From Verif Require Import Base ArrayModel OutputModel InstrumentModel TimeModel MeltModel RadarModel RpgModel.
From Coq Require Import String Ascii.
Local Notation length := List.length (only parsing).
Open Scope string_scope.
Open Scope list_scope.
Open Scope nat_scope.

(** ** One file *)

Inductive kind := Lwp | Iwv.
(** A sample of the binary file: time in seconds since 1 January 2001, quality flag,
    value and encoded angles. *)
Record sample := { s_time : Z; s_flag : Z; s_value : Q; s_angles : Q }.
(** The contents of a file.  [b_code] is [None] if the file is too short for a header
    (indexing an empty array).  The bytes are not modelled. *)
Record bin_file := { b_code : option Z; b_reference : Z; b_samples : list sample }.
(** A sample in memory; the value has a mask. *)
Record hrow := { w_time : Z; w_flag : Z; w_value : entry; w_zenith : Q }.

(** instruments/rpg_reader.py 249-255 and 288-294: the version of the file format. *)
Definition version_of (k : kind) (f : bin_file) : result Z :=
  match b_code f with
  | None => Raise IndexError
  | Some c =>
      match k with
      | Lwp => if (c =? 934501978)%Z then Ok 1%Z else if (c =? 934501000)%Z then Ok 2%Z else Raise ValueError
      | Iwv => if (c =? 594811068)%Z then Ok 1%Z else if (c =? 594811000)%Z then Ok 2%Z else Raise ValueError
      end
  end.
(** instruments/rpg_reader.py 268: liquid water path in kg m-2. *)
Definition scaled (k : kind) (x : Q) : Q := match k with Lwp => (x * (1 # 1000))%Q | Iwv => x end.
(** instruments/rpg_reader.py 187-193 and 217-229: [HatproBin.__init__]. *)
Definition read_hatpro (k : kind) (f : bin_file) : result (list hrow) :=
  bind (version_of k f) (fun version =>
  bind (gather (b_samples f) (unique_index (map (fun s => inject_Z (s_time s)) (b_samples f)))) (fun samples =>
  bind (decode_angles (map s_angles samples) version) (fun angles =>
  Ok (map2 (fun s ele => {| w_time := s_time s; w_flag := s_flag s; w_value := (scaled k (s_value s), false);
                            w_zenith := (90 - ele)%Q |}) samples (fst angles))))).

Definition hide (w : hrow) : hrow :=
  {| w_time := w_time w; w_flag := w_flag w; w_value := (fst (w_value w), true); w_zenith := w_zenith w |}.
(** [_quality_flag & 0b110 == QUALITY_LOW << 1]. *)
Definition low_quality (w : hrow) : bool := (Z.land (w_flag w) 6 =? 6)%Z.
(** instruments/rpg_reader.py 195-215, [screen_bad_profiles]. *)
Definition screen_bad (rows : list hrow) : result (list hrow) :=
  if forallb (fun w => Qeq_bool (fst (w_value w)) 0) rows then Ok (map hide rows)
  else if length (filter low_quality rows) =? length rows then Raise ValidTimeStampError
  else Ok (map (fun w => if low_quality w then hide w else w) rows).
(** instruments/hatpro.py 261-274, [_validate_date]. *)
Definition rows_of_date (epoch_us day reference : Z) (rows : list hrow) : result (list hrow) :=
  if negb (reference =? 1)%Z then Raise ValueError
  else match filter (fun w => (day_of epoch_us (inject_Z (w_time w)) =? day)%Z) rows with
       | [] => Raise ValueError
       | l => Ok l
       end.

(** ** The directory *)

(** A file of the directory: [Path.stem], [Path.suffix] and contents. *)
Record dir_file := { d_stem : string; d_suffix : string; d_file : bin_file }.
Record hobject := { h_stem : string; h_suffix : string; h_kind : kind; h_rows : list hrow }.
(** instruments/hatpro.py 231-237: the extension in any case of letters. *)
Definition kind_of (suffix : string) : option kind :=
  if (lower suffix =? ".lwp")%string then Some Lwp
  else if (lower suffix =? ".iwv")%string then Some Iwv
  else None.
Definition load (epoch_us : Z) (expected : option Z) (k : kind) (f : dir_file) : result hobject :=
  bind (read_hatpro k (d_file f)) (fun rows =>
  bind (screen_bad rows) (fun rows =>
  bind (match expected with
        | Some day => rows_of_date epoch_us day (b_reference (d_file f)) rows
        | None => Ok rows
        end) (fun rows =>
  Ok {| h_stem := d_stem f; h_suffix := d_suffix f; h_kind := k; h_rows := rows |}))).
(** instruments/hatpro.py 228-245, the first loop of [_get_hatpro_objects]. *)
Fixpoint load_all (epoch_us : Z) (expected : option Z) (files : list dir_file) : result (list hobject) :=
  match files with
  | [] => Ok []
  | f :: rest =>
      match kind_of (d_suffix f) with
      | None => load_all epoch_us expected rest
      | Some k =>
          match load epoch_us expected k f with
          | Ok o => bind (load_all epoch_us expected rest) (fun l => Ok (o :: l))
          | Raise (TypeError | ValueError | ValidTimeStampError) => load_all epoch_us expected rest
          | Raise e => Raise e
          end
      end
  end.
(** [sorted(objects.items())]: every stem once, in ascending order. *)
Fixpoint insert_stem (s : string) (l : list string) : list string :=
  match l with
  | [] => [s]
  | t :: r => if (s =? t)%string then l else if (s <=? t)%string then s :: l else t :: insert_stem s r
  end.
Definition stems (objs : list hobject) : list string := fold_left (fun l o => insert_stem (h_stem o) l) objs [].

(** ** Joining *)

Definition table := OutputModel.dict (list (masked Q)).
Definition variable (k : kind) : string := match k with Lwp => "lwp" | Iwv => "iwv" end.
Definition visible_value (w : hrow) : masked Q := if snd (w_value w) then None else Some (fst (w_value w)).
Definition time_column (ts : list Z) : list (masked Q) := map (fun t => Some (inject_Z t)) ts.
Fixpoint insert_time (t : Z) (l : list Z) : list Z :=
  match l with
  | [] => [t]
  | u :: r => if (t =? u)%Z then l else if (t <? u)%Z then t :: l else u :: insert_time t r
  end.
Definition row_at (rows : list hrow) (t : Z) : option hrow := find (fun w => (w_time w =? t)%Z) rows.
(** instruments/rpg_reader.py 343-347, [_combine_values] at one time. *)
Definition same_zenith (a b : option hrow) : bool :=
  match a, b with Some x, Some y => Qeq_bool (w_zenith x) (w_zenith y) | _, _ => true end.
Definition zenith_at (a b : option hrow) : masked Q :=
  match a, b with Some x, _ => Some (w_zenith x) | None, Some y => Some (w_zenith y) | None, None => None end.
Definition value_at (rows : list hrow) (t : Z) : masked Q :=
  match row_at rows t with Some w => visible_value w | None => None end.
(** instruments/rpg_reader.py 315-340, [HatproBinCombined]: [rfn.join_by] with
    "outer" gives every time once in ascending order, and masked values where a file
    has no such time.  Fields that both files have get the suffixes 1 and 2.  Fields
    that start with an underscore are left out: they are not stacked. *)
Definition combined (objs : list hobject) : result table :=
  match objs with
  | [o] => Ok [("time", time_column (map w_time (h_rows o)));
               (variable (h_kind o), map visible_value (h_rows o));
               ("zenith_angle", map (fun w => Some (w_zenith w)) (h_rows o))]
  | [a; b] =>
      let ts := fold_left (fun l t => insert_time t l) (map w_time (h_rows a) ++ map w_time (h_rows b)) [] in
      if forallb (fun t => same_zenith (row_at (h_rows a) t) (row_at (h_rows b) t)) ts then
        let same := (variable (h_kind a) =? variable (h_kind b))%string in
        Ok [("time", time_column ts);
            (variable (h_kind a) ++ (if same then "1" else ""), map (value_at (h_rows a)) ts)%string;
            (variable (h_kind b) ++ (if same then "2" else ""), map (value_at (h_rows b)) ts)%string;
            ("zenith_angle", map (fun t => zenith_at (row_at (h_rows a) t) (row_at (h_rows b) t)) ts)]
      else Raise ValueError
  | _ => Raise NotImplementedError
  end.
(** instruments/hatpro.py 247-258: the second loop of [_get_hatpro_objects]; the
    files used are given by stem and suffix. *)
Fixpoint combine_all (objs : list hobject) (names : list string) : result (list table * list (string * string)) :=
  match names with
  | [] => Ok ([], [])
  | s :: rest =>
      let group := filter (fun o => (h_stem o =? s)%string) objs in
      match combined group with
      | Ok t => bind (combine_all objs rest) (fun r =>
                Ok (t :: fst r, map (fun o => (h_stem o, h_suffix o)) group ++ snd r))
      | Raise (TypeError | ValueError) => combine_all objs rest
      | Raise e => Raise e
      end
  end.
Definition hatpro_objects (epoch_us : Z) (expected : option Z) (files : list dir_file)
  : result (list table * list (string * string)) :=
  bind (load_all epoch_us expected files) (fun objs => combine_all objs (stems objs)).
(** instruments/hatpro.py 277-285, [_add_missing_variables]. *)
Definition add_missing (key : string) (t : table) : table :=
  match lookup key t with
  | Some _ => t
  | None => set_key key (map (fun _ => None) (match lookup "time" t with Some l => l | None => [] end)) t
  end.
(** instruments/hatpro.py 205-212: the record of the day.  [create_one_day_data_record]
    has no header here, and one-dimensional variables of these names are not masked. *)
Definition hatpro_record (epoch_us : Z) (expected : option Z) (files : list dir_file)
  : result (table * list (string * string)) :=
  bind (hatpro_objects epoch_us expected files) (fun r =>
  let '(objs, used) := r in
  if negb (existsb (fun u => (snd u =? ".LWP")%string) used) then Raise ValidTimeStampError else
  let objs := if existsb (fun u => (snd u =? ".IWV")%string) used
              then map (fun t => add_missing "iwv" (add_missing "lwp" t)) objs else objs in
  bind (stack (fun a b => Ok (a ++ b)) objs []) (fun t => Ok (t, used))).
