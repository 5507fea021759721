(** Model of the command line interface (cli.py): parsing of its arguments, selection of
    instruments and of files, and the names of the files written.  Strings are lists of
    characters with code points below 256.  The answers of the data portal are
    arbitrary lists; requests that fail are not modelled. *)
From Coq Require Import List Bool Arith ZArith String Ascii.
From Verif Require Import Base OutputModel SiteModel StationModel TelegramModel MeltModel PollyModel.
Import ListNotations.
Open Scope string_scope. Open Scope nat_scope. Open Scope list_scope.
Local Notation length := List.length (only parsing).

(** An instrument of the data portal: the fields used here.  Two instruments are equal if
    these fields are. *)
Record instrument := { i_name : string; i_id : string; i_pid : string }.
Definition instrument_eqb (a b : instrument) : bool :=
  String.eqb (i_name a) (i_name b) && String.eqb (i_id a) (i_id b) && String.eqb (i_pid a) (i_pid b).

(** A raw file and its instrument. *)
Record raw_file := { r_name : string; r_instrument : instrument }.

(** A processed file; [f_geophysical] is ["geophysical" in product.type]. *)
Record product_file := { f_name : string; f_geophysical : bool; f_instrument : option instrument }.

(* ------------------------------------------------------------------ *)
(** ** Arguments *)

(** cli.py 476-477, [_is_pid] *)
Definition is_pid (v : string) : bool := prefix "https://hdl.handle.net/" v.

(** cli.py 480-483, [_instrument_matches] *)
Definition instrument_matches (i : instrument) (v : string) : bool :=
  if is_pid v then String.eqb (i_pid i) v else String.eqb (i_id i) v.

(** [s.split(c, 1)] for a string with the character, [s[:s.index(c)]] and
    [s[s.index(c) + 1:]]: what is before and after the first [c]. *)
Fixpoint split_first (c : ascii) (s : string) : option (string * string) :=
  match s with
  | EmptyString => None
  | String d r =>
      if Ascii.eqb d c then Some (EmptyString, r)
      else match split_first c r with Some (a, b) => Some (String d a, b) | None => None end
  end.

(** cli.py 528-535, [_parse_instrument] *)
Definition parse_instrument (s : string) : string * option string :=
  match split_first "["%char s with
  | Some (name, rest) =>
      if ends_with "]" s then (name, Some (substring 0 (String.length rest - 1) rest)) else (s, None)
  | None => (s, None)
  end.

(** cli.py 508-523: one argument of [_parse_instrument_preferences]; [None] is
    ArgumentTypeError. *)
Definition preference_values (arg : string) : option (string * list string) :=
  match split_first ":"%char arg with
  | None => None
  | Some (product, value) =>
      let values := filter (fun v => negb (String.eqb v "")) (map strip (split_on ","%char value)) in
      if existsb (fun v => has_char ":"%char v && negb (is_pid v)) values then None
      else Some (product, values)
  end.

(** 524: [prefs.setdefault(product, []).extend(values)] *)
Definition extend (product : string) (values : list string) (prefs : dict (list string)) : dict (list string) :=
  match lookup product prefs with
  | Some old => set_key product (old ++ values) prefs
  | None => prefs ++ [(product, values)]
  end.

(** cli.py 498-525, [_parse_instrument_preferences]; without arguments the list is
    empty. *)
Fixpoint preferences_from (prefs : dict (list string)) (args : list string) : option (dict (list string)) :=
  match args with
  | [] => Some prefs
  | arg :: r =>
      match preference_values arg with
      | None => None
      | Some (product, values) => preferences_from (extend product values prefs) r
      end
  end.
Definition parse_instrument_preferences (args : list string) : option (dict (list string)) :=
  preferences_from [] args.

(** [instrument_prefs.get(product, [])] *)
Definition prefs_of (product : string) (prefs : dict (list string)) : list string :=
  match lookup product prefs with Some l => l | None => [] end.

(** cli.py 739-747, [_parse_products]; [valid_options] are the products of the portal.
    The level 3 products are listed in 32-36. *)
Definition l3_source_products : dict string := [("l3-cf", "categorize"); ("l3-iwc", "iwc"); ("l3-lwc", "lwc")].
Definition parse_products (valid_options : list string) (argument : string) : list string :=
  filter (fun p => let prod := fst (parse_instrument p) in
                   mem_str prod valid_options || mem_str prod (map fst l3_source_products))
         (split_on ","%char argument).

(** cli.py 750-762, [_parse_model]; models are pairs of [id] and [source_model_id];
    [None] is ArgumentTypeError. *)
Fixpoint check_models (model_id : string) (found : bool) (models : list (string * string)) : option bool :=
  match models with
  | [] => Some found
  | (id, source) :: r =>
      if String.eqb model_id source && negb (String.eqb id source) then None
      else check_models model_id (if String.eqb model_id id then true else found) r
  end.
Definition parse_model (models : list (string * string)) (model_id : string) : option string :=
  match check_models model_id false models with
  | Some true => Some model_id
  | _ => None
  end.

(* ------------------------------------------------------------------ *)
(** ** Instruments *)

(** cli.py 458-473, [_get_source_instruments]; [possible] are the instruments the portal
    lists for a product. *)
Definition source_models (prefs : dict (list string)) (product : string) : list string :=
  match snd (parse_instrument product) with
  | Some model => [model]
  | None => filter (fun p => negb (is_pid p)) (prefs_of (fst (parse_instrument product)) prefs)
  end.
Definition source_ids (possible : string -> list string) (prefs : dict (list string)) (product : string)
  : list string :=
  let all_possible := possible (fst (parse_instrument product)) in
  match filter (fun m => mem_str m all_possible) (source_models prefs product) with
  | [] => all_possible
  | match_ => match_
  end.
Definition get_source_instruments (possible : string -> list string) (products : list string)
  (prefs : dict (list string)) : dict (list string) :=
  fold_left (fun d p => set_key (fst (parse_instrument p)) (source_ids possible prefs p) d) products [].

(** cli.py 442-445, [_filter_by_pid] *)
Definition filter_by_pid (meta : list raw_file) (i : instrument) : list raw_file :=
  filter (fun m => String.eqb (i_pid (r_instrument m)) (i_pid i)) meta.

(** cli.py 448-455, [_filter_by_suffix] *)
Definition filter_by_suffix (meta : list raw_file) (product : string) : list raw_file :=
  if String.eqb product "radar" then filter (fun m => negb (ends_with ".lv0" (lower (r_name m)))) meta
  else if String.eqb product "mwr" then
    filter (fun m => contains ".lwp" (lower (r_name m)) || contains ".iwv" (lower (r_name m))) meta
  else if String.eqb product "mwr-l1c" then filter (fun m => negb (ends_with ".nc" (lower (r_name m)))) meta
  else meta.

(** [sorted(l, key=lambda x: x.name)]: stable. *)
Fixpoint insert_by_name (i : instrument) (l : list instrument) : list instrument :=
  match l with
  | [] => [i]
  | j :: r => if String.leb (i_name i) (i_name j) then i :: l else j :: insert_by_name i r
  end.
Definition sort_by_name (l : list instrument) : list instrument := fold_right insert_by_name [] l.

(** cli.py 538-571, [_select_instrument]; [unique] are the instruments of the files, each
    once, in the order in which Python iterates over their set (575); [answer] is the
    number typed by the user, [None] if it is not a number or the input is closed. *)
Definition select_instrument (unique : list instrument) (prefs : list string) (answer : option Z)
  : option instrument :=
  let instruments := sort_by_name unique in
  match instruments with
  | [] => None
  | first :: _ =>
      match find (fun pref => existsb (fun i => instrument_matches i pref) instruments) prefs with
      | Some pref => find (fun i => instrument_matches i pref) instruments
      | None =>
          if 1 <? length instruments then
            match answer with
            | None => None
            | Some n => if ((0 <=? n - 1) && (n - 1 <? Z.of_nat (length instruments)))%Z
                        then nth_error instruments (Z.to_nat (n - 1)) else None
            end
          else Some first
      end
  end.

(** cli.py 52-66, the raw files processed for a product: [raw] are the raw files of the
    site and the date, of which the portal returns those of the wanted instruments (437).
    [iterate] lists the set of the instruments of these files. *)
Definition instrument_input (iterate : list raw_file -> list instrument) (raw : list raw_file)
  (possible : list string) (product : string) (prefs : list string) (answer : option Z)
  : option (instrument * list raw_file) :=
  match possible with
  | [] => None
  | _ :: _ =>
      let meta := filter (fun m => mem_str (i_id (r_instrument m)) possible) raw in
      match select_instrument (iterate meta) prefs answer with
      | None => None
      | Some i =>
          match filter_by_suffix (filter_by_pid meta i) product with
          | [] => None
          | files => Some (i, files)
          end
      end
  end.

(** What a converter is given: all files, one file, one file put together from all, or
    the folder. *)
Inductive input_kind := AllFiles | OneFile | Concatenated | Bundled | Folder.

(** cli.py 297-353, the choice of the converter.  [Ok None] stands for the
    UnboundLocalError of [fun] when no case matches; [n] is the number of files, and
    [_check_input] (308, 657-660) raises ValueError for more than one. *)
Definition converter (product id : string) (n : nat) : result (option (string * input_kind)) :=
  let is p := String.eqb product p in
  let concat := if 1 <? n then Concatenated else OneFile in
  if is "radar" && contains "mira" id then Ok (Some ("mira2nc", AllFiles))
  else if is "radar" && contains "rpg" id then Ok (Some ("rpg2nc", Folder))
  else if is "radar" && contains "basta" id then
    (if 1 <? n then Raise ValueError else Ok (Some ("basta2nc", OneFile)))
  else if is "radar" && contains "copernicus" id then Ok (Some ("copernicus2nc", AllFiles))
  else if is "radar" && contains "galileo" id then Ok (Some ("galileo2nc", AllFiles))
  else if is "disdrometer" && contains "parsivel" id then Ok (Some ("parsivel2nc", AllFiles))
  else if is "disdrometer" && contains "thies" id then Ok (Some ("thies2nc", concat))
  else if is "lidar" && contains "pollyxt" id then Ok (Some ("pollyxt2nc", AllFiles))
  else if is "lidar" && String.eqb id "cl61d" then Ok (Some ("ceilo2nc", Bundled))
  else if is "lidar" then Ok (Some ("ceilo2nc", concat))
  else if is "mwr" then Ok (Some ("hatpro2nc", Folder))
  else if is "mwr-l1c" then Ok (Some ("hatpro2l1c", Folder))
  else if is "mrr" then Ok (Some ("mrr2nc", AllFiles))
  else if is "weather-station" then Ok (Some ("ws2nc", AllFiles))
  else Ok None.

(* ------------------------------------------------------------------ *)
(** ** Names of files *)

(** cli.py 653-654, [_shorten_pid] *)
Definition shorten_pid (pid : string) : string :=
  substring 0 8 (List.last (split_on "."%char pid) "").

(** cli.py 402-410, the file name of [_create_instrument_filepath] *)
Definition instrument_filename (date site : string) (i : instrument) : string :=
  (remove_char "-"%char date ++ "_" ++ site ++ "_" ++ i_id i ++ "_" ++ shorten_pid (i_pid i) ++ ".nc")%string.

(** [s.replace(old, new)] for a non-empty [old]; [skip] characters belong to an occurrence
    that is replaced already. *)
Fixpoint replace_from (skip : nat) (old new s : string) : string :=
  match s with
  | EmptyString => EmptyString
  | String c r =>
      match skip with
      | S k => replace_from k old new r
      | O => if prefix old s then (new ++ replace_from (String.length old - 1) old new r)%string
             else String c (replace_from 0 old new r)
      end
  end.
Definition replace (old new s : string) : string := replace_from 0 old new s.

(** cli.py 721, the output of [_process_cat_product] *)
Definition cat_product_path (product categorize_file : string) : string :=
  replace "categorize" product categorize_file.
(** cli.py 415, [_create_categorize_filepath]; 731, [_process_mwrpy_product] *)
Definition categorize_filename (date site : string) : string :=
  (remove_char "-"%char date ++ "_" ++ site ++ "_categorize.nc")%string.
Definition mwrpy_filename (date site product : string) : string :=
  (date ++ "_" ++ site ++ "_" ++ product ++ ".nc")%string.

(* ------------------------------------------------------------------ *)
(** ** Input of categorize *)

Section Portal.
  (** The processed files of the portal for the site and the date, by product, and those
      of the model asked for. *)
  Variable files : string -> list product_file.
  Variable model_files : list product_file.

  (** cli.py 596-597 and 425-428: the place of a downloaded file in the output folder of
      the site and the date. *)
  Definition file_path (m : product_file) : string :=
    ((if f_geophysical m then "geophysical/" else "instrument/") ++ f_name m)%string.

  (** cli.py 579-598, [_fetch_product] *)
  Definition fetch_product (product : string) (source : option string) : option string :=
    let meta := files product in
    let meta := match source with
      | Some s => if String.eqb s "" then meta
          else filter (fun m => match f_instrument m with Some i => instrument_matches i s | None => false end) meta
      | None => meta
      end in
    match meta with [] => None | m :: _ => Some (file_path m) end.

  (** cli.py 601-614, [_fetch_model], and 632-641: more than one file raises. *)
  Definition fetch_model : result (option string) :=
    match model_files with
    | [] => Ok None
    | [m] => Ok (Some ("instrument/" ++ f_name m)%string)
    | _ => Raise ValueError
    end.

  (** cli.py 191-211, [fetch_instrument] *)
  Fixpoint fetch_preferred (product : string) (prefs : list string) : option string :=
    match prefs with
    | [] => None
    | source :: r =>
        let filepath := fetch_product product (Some source) in
        let filepath := match filepath with
          | None => if String.eqb product "lidar" then fetch_product "doppler-lidar" (Some source) else None
          | Some _ => filepath
          end in
        match filepath with Some f => Some f | None => fetch_preferred product r end
    end.
  Definition fetch_instrument (prefs : dict (list string)) (product : string) : option string :=
    match fetch_preferred product (prefs_of product prefs) with
    | Some f => Some f
    | None => fetch_product product None
    end.

  (** cli.py 259-270, [_fetch_mwr] *)
  Fixpoint fetch_first (sources : list (string * option string)) : option string :=
    match sources with
    | [] => None
    | (product, source) :: r =>
        match fetch_product product source with Some f => Some f | None => fetch_first r end
    end.
  Definition fetch_mwr : option string :=
    fetch_first [("mwr-single", None); ("mwr", None); ("radar", Some "rpg-fmcw-35"); ("radar", Some "rpg-fmcw-94")].

  (** cli.py 224-228: the downloads that run at the same time. *)
  Definition downloads (input_files : dict (option string)) : list string :=
    "model" :: filter (fun p => match lookup p input_files with None => true | Some _ => false end)
                      ["radar"; "lidar"; "disdrometer"].
  Definition download (prefs : dict (list string)) (key : string) : result (option string) :=
    if String.eqb key "model" then fetch_model else Ok (fetch_instrument prefs key).

  (** cli.py 230-233: the results in the order [completed] in which the downloads finish. *)
  Fixpoint collect (prefs : dict (list string)) (completed : list string) (input_files : dict (option string))
    : result (dict (option string)) :=
    match completed with
    | [] => Ok input_files
    | key :: r =>
        bind (download prefs key) (fun filepath =>
        collect prefs r (match filepath with Some f => set_key key (Some f) input_files | None => input_files end))
    end.

  (** cli.py 183-243: the files given to [generate_categorize], or [None] if it is not
      called.  [input_files] are the results of the instrument products of this run;
      [None] for those only downloaded (292-293). *)
  Definition categorize_input (prefs : dict (list string)) (completed : list string)
    (input_files : dict (option string)) : result (option (dict (option string))) :=
    bind (collect prefs completed input_files) (fun input_files =>
    let input_files := match fetch_mwr with Some f => set_key "mwr" (Some f) input_files | None => input_files end in
    match lookup "model" input_files with None => Ok None | Some _ => Ok (Some input_files) end).
End Portal.
