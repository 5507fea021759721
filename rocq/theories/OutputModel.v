(** Model of the text attributes and the copying functions of output.py:
    source UUIDs, history, source names, [copy_variables], [copy_global],
    [_get_identifier], [get_l1b_source].

    A Python [str] is a Coq [string]; characters are code points 0..255, which
    loses nothing because no modelled function looks at a character except to
    compare code points or to find line breaks, blanks and " - ". *)
From Verif Require Import Base.
From Coq Require Export String Ascii.
Open Scope nat_scope.

Definition newline : ascii := "010"%char.
Definition nl : string := String newline EmptyString.

(** [str.split("\n")]: never the empty list. *)
Fixpoint split_nl (s : string) : list string :=
  match s with
  | EmptyString => [EmptyString]
  | String c s' =>
      if Ascii.eqb c newline then EmptyString :: split_nl s'
      else match split_nl s' with
           | h :: t => String c h :: t
           | [] => [String c EmptyString]
           end
  end.

(** [list(dict.fromkeys(l))] and [set(l)]: first occurrences in order. *)
Definition mem_string (s : string) (l : list string) : bool :=
  existsb (String.eqb s) l.
Fixpoint from_keys (seen l : list string) : list string :=
  match l with
  | [] => []
  | x :: l' => if mem_string x seen then from_keys seen l'
               else x :: from_keys (x :: seen) l'
  end.

(** Order of [sorted] on strings: by code points, a proper prefix first. *)
Fixpoint str_leb (s t : string) : bool :=
  match s, t with
  | EmptyString, _ => true
  | String _ _, EmptyString => false
  | String a s', String b t' =>
      if (nat_of_ascii a <? nat_of_ascii b)%nat then true
      else if (nat_of_ascii b <? nat_of_ascii a)%nat then false
      else str_leb s' t'
  end.
Fixpoint insert_str (x : string) (l : list string) : list string :=
  match l with
  | [] => [x]
  | y :: l' => if str_leb x y then x :: l else y :: insert_str x l'
  end.
(** [sorted(set(l))]. *)
Definition sorted_set (l : list string) : list string :=
  fold_right insert_str [] (from_keys [] l).

(** output.py 208-228, [get_source_uuids].  Each entry is the [file_uuid] of the
    object's dataset, [None] if the object has no dataset or the dataset no
    [file_uuid].  The objects are already listed (fields of [Observations], or
    the given list). *)
Definition present {A} (l : list (option A)) : list A :=
  flat_map (fun o => match o with Some a => [a] | None => [] end) l.
Definition get_source_uuids (uuids : list (option string)) : string :=
  String.concat ", " (sorted_set (present uuids)).

(** One input of a product: [dataset.history] if there is one, and whether it is
    a model file (output.py 241-250). *)
Record history_source := { hs_history : option string; hs_model : bool }.
Definition extract_history (s : history_source) : list string :=
  match hs_history s with
  | None => []
  | Some h => if hs_model s then [List.last (split_nl h) EmptyString] else split_nl h
  end.

(** [line.split(" - ", maxsplit=1)[0]]. *)
Fixpoint before_dash (s : string) : string :=
  match s with
  | EmptyString => EmptyString
  | String c s' => if String.prefix " - " s then EmptyString else String c (before_dash s')
  end.
(** [str.strip()]: white space at both ends (the code points up to 255 for which
    [str.isspace] holds). *)
Definition is_space (c : ascii) : bool :=
  let n := nat_of_ascii c in
  ((9 <=? n) && (n <=? 13)) || ((28 <=? n) && (n <=? 32)) || (n =? 133) || (n =? 160).
Fixpoint lstrip (s : string) : string :=
  match s with
  | EmptyString => EmptyString
  | String c s' => if is_space c then lstrip s' else s
  end.
Fixpoint rstrip (s : string) : string :=
  match s with
  | EmptyString => EmptyString
  | String c s' => match rstrip s' with
                   | EmptyString => if is_space c then EmptyString else String c EmptyString
                   | r => String c r
                   end
  end.
Definition strip (s : string) : string := rstrip (lstrip s).

Section History.
(** [datetime.strptime(_, "%Y-%m-%d %H:%M:%S %z")]: an arbitrary partial function
    to instants; [None] is ValueError.  [tmin] is [datetime.min] in UTC. *)
Variable strptime : string -> option Z.
Variable tmin : Z.

(** output.py 264-273, [parse_time]. *)
Definition parse_time (line : string) : Z :=
  match strptime (strip (before_dash line)) with Some t => t | None => tmin end.

(** output.py 275, [histories.sort(key=parse_time, reverse=True)]: stable. *)
Fixpoint insert_desc (x : string) (l : list string) : list string :=
  match l with
  | [] => [x]
  | y :: l' => if (parse_time y <=? parse_time x)%Z then x :: l else y :: insert_desc x l'
  end.
Definition sort_desc (l : list string) : list string := fold_right insert_desc [] l.

(** output.py 231-277, [merge_history].  [now] is the result of [get_time()].
    The sources are listed in the order of the fields of [Observations] (or the
    one data source), then the extra sources. *)
Definition merge_history (now file_type : string) (sources : list history_source) : string :=
  let histories := flat_map extract_history sources in
  let histories := from_keys [] histories in
  let histories := sort_desc histories in
  let new_record := (now ++ " - " ++ file_type ++ " file created")%string in
  (new_record ++ String.concat "" (map (fun h => nl ++ h)%string histories))%string.
End History.

(** output.py 280-299, [add_source_instruments], the [source] attribute: the
    [source] strings of the objects that have one; [None] if the attribute is not
    set. *)
Definition source_names (sources : list (option string)) : option string :=
  let names := sorted_set (flat_map split_nl (present sources)) in
  match names with [] => None | _ => Some (String.concat nl names) end.
(** The [source_instrument_pids] attribute: the PIDs that are present and not
    empty. *)
Definition source_pids (pids : list (option string)) : option string :=
  let l := sorted_set (filter (fun s => negb (String.eqb s EmptyString)) (present pids)) in
  match l with [] => None | _ => Some (String.concat nl l) end.

(** output.py 134-144, [_append_extra_sources]: [existing] is the [source]
    attribute copied so far, [extras] the [source] of the extra inputs.
    Simplification: every extra input has a [source] attribute (otherwise
    AttributeError). *)
Definition append_extra_sources (existing : option string) (extras : list string)
  : option string :=
  match extras with
  | [] => existing
  | _ =>
      let old := match existing with Some s => split_nl s | None => [] end in
      let new := filter (fun s => negb (String.eqb s EmptyString)) extras in
      let merged := from_keys [] (old ++ new) in
      match merged with [] => existing | _ => Some (String.concat nl merged) end
  end.

(** output.py 147-152, [get_l1b_source]; [category] is already capitalised. *)
Definition get_l1b_source (manufacturer model : option string) (category : string) : string :=
  match present [manufacturer; model] with
  | [] => category
  | parts => String.concat " " parts
  end.

(** output.py 465-489, [_get_identifier]. *)
Definition get_identifier (short_id : string) : result string :=
  if negb (mem_string short_id
       ["lwc"; "iwc"; "drizzle"; "classification"; "der"; "ier";
        "classification-voodoo"; "epsilon-radar"]%string) then Raise ValueError
  else if (short_id =? "iwc")%string then Ok "ice water content"%string
  else if (short_id =? "lwc")%string then Ok "liquid water content"%string
  else if (short_id =? "ier")%string then Ok "ice effective radius"%string
  else if (short_id =? "der")%string then Ok "droplet effective radius"%string
  else if (short_id =? "epsilon-radar")%string
       then Ok "dissipation rate of turbulent kinetic energy"%string
  else Ok short_id.

(** ** Copying *)
Section Copy.
(** Type of attribute values and of array data. *)
Context {V D : Type}.

(** A netCDF dictionary: names in creation order. *)
Definition dict (A : Type) := list (string * A).
Fixpoint lookup {A} (k : string) (d : dict A) : option A :=
  match d with
  | [] => None
  | (k', v) :: d' => if String.eqb k k' then Some v else lookup k d'
  end.
(** [setattr] / [d[k] = v]: replaces in place or appends. *)
Fixpoint set_key {A} (k : string) (v : A) (d : dict A) : dict A :=
  match d with
  | [] => [(k, v)]
  | (k', v') :: d' => if String.eqb k k' then (k, v) :: d' else (k', v') :: set_key k v d'
  end.

(** A netCDF variable: dimension names, attributes ([_FillValue] among them) and
    data.  Data type and compression are left out. *)
Record ncvar := { nv_dims : list string; nv_attrs : dict V; nv_data : D }.
(** A netCDF file: dimensions, variables and global attributes. *)
Record ncfile := { nf_dims : list string; nf_vars : dict ncvar; nf_attrs : dict V }.

(** [createVariable(..., fill_value=...)] then [setncatts] without [_FillValue]:
    the new variable has the source's [_FillValue] first (if it has one), then
    the other attributes in order. *)
Definition copied_attrs (a : dict V) : dict V :=
  match lookup "_FillValue" a with Some v => [("_FillValue"%string, v)] | None => [] end ++
  filter (fun kv => negb (String.eqb (fst kv) "_FillValue")) a.
Definition copy_variable (key : string) (v : ncvar) (target : ncfile) : result ncfile :=
  if forallb (fun d => mem_string d (nf_dims target)) (nv_dims v) then
    Ok {| nf_dims := nf_dims target;
          nf_vars := nf_vars target ++
            [(key, {| nv_dims := nv_dims v; nv_attrs := copied_attrs (nv_attrs v);
                      nv_data := nv_data v |})];
          nf_attrs := nf_attrs target |}
  else Raise KeyError.

(** output.py 322-353, [copy_variables].  [createVariable] raises KeyError if a
    dimension is unknown in the target.  Simplification: dimensions of the same
    name have the same size, so [var_out[:] = variable[:]] copies the data. *)
Fixpoint copy_variables (source : ncfile) (keys : list string) (target : ncfile)
  : result ncfile :=
  match keys with
  | [] => Ok target
  | k :: keys' =>
      match lookup k (nf_vars source), lookup k (nf_vars target) with
      | Some v, None => bind (copy_variable k v target) (copy_variables source keys')
      | _, _ => copy_variables source keys' target
      end
  end.

(** output.py 356-373, [copy_global]. *)
Fixpoint copy_global (source : ncfile) (attributes : list string) (target : ncfile) : ncfile :=
  match attributes with
  | [] => target
  | a :: attrs =>
      match lookup a (nf_attrs source) with
      | Some v => copy_global source attrs
                    {| nf_dims := nf_dims target; nf_vars := nf_vars target;
                       nf_attrs := set_key a v (nf_attrs target) |}
      | None => copy_global source attrs target
      end
  end.
End Copy.
Arguments ncvar : clear implicits.
Arguments ncfile : clear implicits.
