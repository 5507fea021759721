(** Model of the correction of variable attributes (output.py) and of small helpers
    (utils.py).  Texts are ASCII. *)
From Verif Require Import Base.
From Coq Require Import String Ascii.
Open Scope string_scope.
Open Scope list_scope.

(** Attributes of a variable; the variables of a file, by name; python dictionaries. *)
Definition attrs := string -> option string.
Definition file := string -> option attrs.
Definition assign {A : Type} (f : string -> option A) (k : string) (v : A) : string -> option A :=
  fun x => if String.eqb x k then Some v else f x.
Definition discard {A : Type} (f : string -> option A) (k : string) : string -> option A :=
  fun x => if String.eqb x k then None else f x.

(** output.py 496-506, [fix_attribute_name], the body of the loop for one variable. *)
Definition fix_unit (a : attrs) : attrs :=
  match a "unit" with
  | Some u => discard (assign a "units" u) "unit"
  | None => a
  end.
(** output.py 496-506, [fix_attribute_name]: the loop visits every variable once. *)
Definition fix_attribute_name (f : file) : file := fun var => option_map fix_unit (f var).

(** output.py 509-515, [fix_time_attributes]; [global] are the attributes of the file.  The
    file afterwards, also if an exception is raised. *)
Definition fix_time_attributes (global : attrs) (f : file) : file * option exn :=
  match f "time" with
  | None => (f, Some KeyError)
  | Some a =>
      let a := assign (assign (assign a "standard_name" "time") "long_name" "Time UTC") "calendar" "standard" in
      match global "year", global "month", global "day" with
      | Some y, Some m, Some d =>
          (assign f "time" (assign a "units" ("hours since " ++ y ++ "-" ++ m ++ "-" ++ d ++ " 00:00:00 +00:00")%string), None)
      | _, _, _ => (assign f "time" a, Some AttributeError)
      end
  end.

(** metadata.py 6-19, [MetaData]: [None] is a name that is no field (AttributeError),
    [Some None] a field without a value.  Values are texts; [dimensions] is not used here. *)
Definition metadata := string -> option (option string).
(** output.py 526-529, the inner loop. *)
Fixpoint set_attributes (m : metadata) (attributes : list string) (a : attrs) : attrs * option exn :=
  match attributes with
  | [] => (a, None)
  | attr :: rest =>
      match m attr with
      | None => (a, Some AttributeError)
      | Some None => set_attributes m rest a
      | Some (Some value) => set_attributes m rest (assign a attr value)
      end
  end.
(** output.py 518-529, [replace_attribute_with_standard_value]; [common] is
    COMMON_ATTRIBUTES. *)
Fixpoint replace_attributes (common : string -> option metadata) (variables attributes : list string) (f : file) : file * option exn :=
  match variables with
  | [] => (f, None)
  | key :: rest =>
      match common key, f key with
      | Some m, Some a =>
          match set_attributes m attributes a with
          | (a', Some e) => (assign f key a', Some e)
          | (a', None) => replace_attributes common rest attributes (assign f key a')
          end
      | _, _ => replace_attributes common rest attributes f
      end
  end.

(** utils.py 806-821, [del_dict_keys]: the test looks at the given dictionary, [del] at the
    copy. *)
Fixpoint del_keys {A : Type} (data temp : string -> option A) (keys : list string) : result (string -> option A) :=
  match keys with
  | [] => Ok temp
  | key :: rest =>
      match data key with
      | None => del_keys data temp rest
      | Some _ => match temp key with None => Raise KeyError | Some _ => del_keys data (discard temp key) rest end
      end
  end.
Definition del_dict_keys {A : Type} (data : string -> option A) (keys : list string) : result (string -> option A) := del_keys data data keys.

(** utils.py 760-766, [date_range]; days as numbers. *)
Definition date_range (start_date end_date : Z) : list Z :=
  map (fun n => start_date + Z.of_nat n)%Z (seq 0 (Z.to_nat (end_date - start_date))).

(** utils.py 899-902, [is_timestamp]; [d] in the pattern is a digit, [re.match] looks at the
    beginning of the text only. *)
Definition is_digit (c : ascii) : bool := (48 <=? nat_of_ascii c)%nat && (nat_of_ascii c <=? 57)%nat.
Fixpoint match_pattern (pattern text : string) : bool :=
  match pattern, text with
  | EmptyString, _ => true
  | String p pattern', String c text' =>
      (if Ascii.eqb p "d" then is_digit c else Ascii.eqb p c) && match_pattern pattern' text'
  | String _ _, EmptyString => false
  end.
Definition is_timestamp (timestamp : string) : bool := match_pattern "-dddd-dd-dd dd:dd:dd" timestamp.
