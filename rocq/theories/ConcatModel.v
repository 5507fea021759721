(** Model of concat_lib.py: concatenation of netCDF files and appending to an
    existing file.  Reading and writing of netCDF variables is modelled by lists
    of profiles; data types, compression and attributes are left out. *)
From Verif Require Import Base OutputModel.
From Coq Require Export Qabs.
Open Scope nat_scope.

(** A profile: the values of one variable at one time step, masked values
    [None].  Other dimensions than time and range are flattened. *)
Notation profile := (list (masked Q)) (only parsing).

(** A variable of an input file.  [Series]: time is its first dimension, one
    profile per time step.  [Static]: no time dimension, one profile (a scalar is
    a list of one value).  [on_range]: its next dimension is the range. *)
Inductive cvar :=
| Series (on_range : bool) (rows : list profile)
| Static (on_range : bool) (row : profile).

(** An input file: name, the range variable, the variables other than range in
    file order, and the variables whose data cannot be read (RuntimeError
    "NetCDF: HDF error").  Simplifications: the file can be opened, variables of
    one name have profiles of one shape apart from the range, time is the first
    dimension wherever it occurs and the range the second, and the concatenation
    dimension and variable have the same name, "time". *)
Record cfile := {
  cf_name : string;
  cf_range : option (list Q);
  cf_vars : dict cvar;
  cf_broken : list string }.

Definition cvar_rows (v : cvar) : list profile :=
  match v with Series _ rows => rows | Static _ row => [row] end.
Definition on_range (v : cvar) : bool :=
  match v with Series b _ | Static b _ => b end.

(** concat_lib.py 149-155, [_is_valid_file]: [nc[name]] raises IndexError if the
    variable does not exist. *)
Definition is_valid_file (f : cfile) : result bool :=
  match lookup "time" (cf_vars f) with
  | None => Raise IndexError
  | Some t =>
      if 0 <? List.length (cvar_rows t) then
        match cf_range f with
        | None => Raise IndexError
        | Some r => Ok (Z.of_nat (List.length r) <? 10000)%Z
        end
      else Ok false
  end.
Fixpoint valid_files (l : list cfile) : result (list cfile) :=
  match l with
  | [] => Ok []
  | f :: l' => bind (is_valid_file f) (fun b =>
               bind (valid_files l') (fun r => Ok (if b then f :: r else r)))
  end.
(** [sorted(..., key=lambda f: f.name)], stable. *)
Fixpoint insert_file (f : cfile) (l : list cfile) : list cfile :=
  match l with
  | [] => [f]
  | g :: l' => if str_leb (cf_name f) (cf_name g) then f :: l else g :: insert_file f l'
  end.
Definition sort_files (l : list cfile) : list cfile := fold_right insert_file [] l.

Definition n_time (f : cfile) : nat :=
  match lookup "time" (cf_vars f) with Some t => List.length (cvar_rows t) | None => 0 end.

(** concat_lib.py 219-229, [_expand_array]: a variable without the time dimension
    is repeated for all time steps. *)
Definition expand_array (v : cvar) (n : nat) : list profile :=
  match v with Series _ rows => rows | Static _ row => repeat row n end.

(** The output file: size of the unlimited time dimension and the variables; a
    profile that was never written is [None] and reads as masked. *)
Record cout := { co_n : nat; co_vars : dict (list (option profile)) }.

(** concat_lib.py 188-217, [_write_initial_data]: which variables are kept.
    [keep] only concerns variables with the time dimension. *)
Definition mem_opt (k : string) (l : option (list string)) : bool :=
  match l with None => false | Some l => mem_string k l end.
Definition has_time (v : cvar) : bool := match v with Series _ _ => true | Static _ _ => false end.
Definition kept (keep ignore : option (list string)) (key : string) (v : cvar) : bool :=
  negb (match keep with None => false | Some l => negb (mem_string key l) end
        && negb (String.eqb key "time") && has_time v)
  && negb (mem_opt key ignore).
Fixpoint initial_vars (broken : list string) (n : nat) (keep ignore : option (list string))
  (vars : dict cvar) : result (dict (list (option profile))) :=
  match vars with
  | [] => Ok []
  | (key, v) :: vars' =>
      if kept keep ignore key v then
        if mem_string key broken then Raise RuntimeError
        else bind (initial_vars broken n keep ignore vars')
               (fun d => Ok ((key, map Some (expand_array v n)) :: d))
      else initial_vars broken n keep ignore vars'
  end.
Definition write_initial_data (first : cfile) (keep ignore : option (list string)) : result cout :=
  bind (initial_vars (cf_broken first) (n_time first) keep ignore (cf_vars first))
    (fun d => Ok {| co_n := match d with [] => 0 | _ => n_time first end; co_vars := d |}).

(** Nearest neighbour interpolation, concat_lib.py 244-255.  [argmin] is the
    first index of the smallest distance. *)
Definition qabs_diff (a b : Q) : Q := Qabs (a - b).
Fixpoint argmin_from (i best : nat) (d : Q) (l : list Q) : nat :=
  match l with
  | [] => best
  | x :: l' => if Qlt_le_dec x d then argmin_from (S i) i x l' else argmin_from (S i) best d l'
  end.
Definition argmin (l : list Q) : nat :=
  match l with [] => 0 | x :: l' => argmin_from 1 0 x l' end.
Definition nearest (x : list Q) (target : Q) : nat := argmin (map (fun a => qabs_diff a target) x).
(** [(x_target < x.min()) | (x_target > x.max())]. *)
Definition out_of_bounds (x : list Q) (target : Q) : bool :=
  forallb (fun a => if Qlt_le_dec target a then true else false) x ||
  forallb (fun a => if Qlt_le_dec a target then true else false) x.
Definition interpolate_profile (x x_target : list Q) (row : profile) : profile :=
  map (fun t => if out_of_bounds x t then None else nth (nearest x t) row None) x_target.

(** Data of one variable to be appended (concat_lib.py 239-255).  With an empty
    range, [argmin] raises ValueError. *)
Definition appended_rows (first_range range : list Q) (v : cvar) (n : nat)
  : result (list profile) :=
  let rows := expand_array v n in
  if on_range v && negb (List.length first_range =? List.length range) then
    match range with
    | [] => Raise ValueError
    | _ => Ok (map (interpolate_profile range first_range) rows)
    end
  else Ok rows.

(** [variable[ind0:ind1, ...] = rows]: profiles up to [ind0] that were never
    written are filled. *)
Definition write_rows (ind0 : nat) (rows : list profile) (old : list (option profile))
  : list (option profile) :=
  firstn ind0 old ++ repeat None (ind0 - List.length old) ++ map Some rows ++
  skipn (ind0 + List.length rows) old.

(** concat_lib.py 231-257, the loop of [_append_data] over the variables of the
    output file.  The boolean tells whether the loop ended without an HDF error;
    the number is the new size of the time dimension. *)
Fixpoint append_vars (first_range range : list Q) (f : cfile) (ind0 : nat)
  (size : nat) (vars : dict (list (option profile)))
  : result (bool * nat * dict (list (option profile))) :=
  match vars with
  | [] => Ok (true, size, [])
  | (key, old) :: vars' =>
      match lookup key (cf_vars f) with
      | None => bind (append_vars first_range range f ind0 size vars')
                  (fun r => Ok (fst r, (key, old) :: snd r))
      | Some v =>
          if mem_string key (cf_broken f) then Ok (false, size, (key, old) :: vars')
          else bind (appended_rows first_range range v (n_time f)) (fun rows =>
               bind (append_vars first_range range f ind0
                       (Nat.max size (ind0 + List.length rows)) vars')
                 (fun r => Ok (fst r, (key, write_rows ind0 rows old) :: snd r)))
      end
  end.
Definition append_data (first_range : list Q) (f : cfile) (out : cout) : result (bool * cout) :=
  match lookup "time" (co_vars out), lookup "time" (cf_vars f), cf_range f with
  | None, _, _ | _, None, _ => Raise KeyError
  | _, _, None => Raise IndexError
  | Some _, Some _, Some range =>
      bind (append_vars first_range range f (co_n out) (co_n out) (co_vars out))
        (fun r => Ok (fst (fst r), {| co_n := snd (fst r); co_vars := snd r |}))
  end.

(** concat_lib.py 166-186, [concat_data]: a file with an HDF error is left out of
    the returned list; its variables written before the error stay. *)
Fixpoint append_files (first_range : list Q) (files : list cfile) (out : cout)
  : result (list cfile * cout) :=
  match files with
  | [] => Ok ([], out)
  | f :: files' =>
      bind (append_data first_range f out) (fun r =>
      bind (append_files first_range files' (snd r)) (fun s =>
      Ok (if fst r then f :: fst s else fst s, snd s)))
  end.

(** What a reader sees: every variable has as many profiles as the time dimension
    is long. *)
Definition read_var (out : cout) (key : string) : option (list (option profile)) :=
  option_map (fun rows => rows ++ repeat None (co_n out - List.length rows))
             (lookup key (co_vars out)).

(** concat_lib.py 90-123 with [_Concat.__init__] 129-147: the list of
    concatenated files and the output file.  Global attributes are left out.
    Variable range: from the first file, never changed. *)
Definition concatenate_files (files : list cfile) (keep ignore : option (list string))
  : result (list cfile * cout) :=
  bind (valid_files files) (fun valid =>
  match sort_files valid with
  | [] => Raise ValidTimeStampError
  | first :: rest =>
      bind (write_initial_data first keep ignore) (fun out =>
      match cf_range first with
      | None => Raise IndexError
      | Some r =>
          bind (append_files r rest out) (fun s => Ok (first :: fst s, snd s))
      end)
  end).

(** ** Appending to an existing file *)
(** A variable by its dimensions in the new file: [Profiles]: time is one of at
    most two dimensions (first or second), one entry per time step; [Deep]: time
    among three or more dimensions; [Other]: no time dimension. *)
Inductive uvar :=
| Profiles (rows : list profile)
| Deep (rows : list profile)
| Other.
(** An existing or new file: time stamps and the remaining variables.
    Simplification: no masked time stamps; variables of one name have the same
    kind and shape in both files; the time variable is one-dimensional. *)
Record ufile := { uf_time : list Q; uf_vars : dict uvar }.

(** concat_lib.py 300-304, [_find_valid_time_indices]: IndexError if the old file
    has no time stamp. *)
Fixpoint later_from (i : nat) (t : Q) (l : list Q) : list nat :=
  match l with
  | [] => []
  | x :: l' => if Qlt_le_dec t x then i :: later_from (S i) t l' else later_from (S i) t l'
  end.
Definition valid_time_indices (old new : list Q) : result (list nat) :=
  match old with
  | [] => Raise IndexError
  | _ => Ok (later_from 0 (List.last old 0%Q) new)
  end.

(** [variable[i] = x] on an unlimited dimension. *)
Fixpoint set_at {A} (l : list (option A)) (i : nat) (x : A) : list (option A) :=
  match l, i with
  | [], O => [Some x]
  | _ :: l', O => Some x :: l'
  | [], S i' => None :: set_at [] i' x
  | a :: l', S i' => a :: set_at l' i' x
  end.
(** [variable[idx] = data[valid_ind]] with [idx = ind0 + valid_ind]. *)
Fixpoint scatter {A} (ind0 : nat) (valid : list nat) (data : list A) (old : list (option A))
  : list (option A) :=
  match valid with
  | [] => old
  | k :: valid' =>
      scatter ind0 valid' data
        (match nth_error data k with Some x => set_at old (ind0 + k) x | None => old end)
  end.
(** The updated file; time stamps that were never written are [None], and every
    variable has as many profiles as the time dimension is long. *)
Record unew := { un_time : list (option Q); un_vars : dict (option (list (option profile))) }.
Definition pad {A} (n : nat) (l : list (option A)) : list (option A) :=
  l ++ repeat None (n - List.length l).
(** concat_lib.py 306-325, [_update_fields]; [None] is a variable without time
    dimension, which stays as it is. *)
Definition update_fields (old new : ufile) (valid : list nat) : unew :=
  let ind0 := List.length (uf_time old) in
  let time := scatter ind0 valid (uf_time new) (map Some (uf_time old)) in
  {| un_time := time;
     un_vars := map (fun kv =>
       (fst kv,
        match snd kv with
        | Other => None
        | Profiles rows | Deep rows =>
            Some (pad (List.length time)
              (match lookup (fst kv) (uf_vars new) with
               | Some (Profiles data) => scatter ind0 valid data (map Some rows)
               | _ => map Some rows
               end))
        end)) (uf_vars old) |}.
(** concat_lib.py 62-87, [update_nc]: result code and new content ([None]:
    unchanged).  An argument [None] is a file that cannot be opened (OSError). *)
Definition update_nc (old new : option ufile) : result (nat * option unew) :=
  match old, new with
  | Some o, Some n =>
      bind (valid_time_indices (uf_time o) (uf_time n)) (fun valid =>
      match valid with
      | [] => Ok (0, None)
      | _ => Ok (1, Some (update_fields o n valid))
      end)
  | _, _ => Ok (0, None)
  end.

(** concat_lib.py 328-333, [concatenate_text_files]: the files' bytes in the given
    order. *)
Definition concatenate_text_files (files : list string) : string := String.concat "" files.

(** concat_lib.py 22-59, [truncate_netcdf_file], one variable: [time_first] tells
    whether its first dimension contains the name of the truncated dimension,
    [ndim] its number of dimensions.  Variables of three or more dimensions are
    created but not written. *)
Definition truncate_var (n : nat) (time_first : bool) (ndim : nat) (rows : list profile)
  : list (option profile) :=
  if time_first then
    if (ndim =? 1) || (ndim =? 2) then map Some (firstn n rows) else []
  else map Some rows.
