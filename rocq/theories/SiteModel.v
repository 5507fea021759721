(** Model of [get_epoch] and of the site coordinates (utils.py). *)
From Verif Require Import Base GridModel OutputModel.
Open Scope nat_scope.

(** ** Epoch *)
(** [str.split()]: the words between runs of white space. *)
Fixpoint words_from (w : string) (s : string) : list string :=
  match s with
  | EmptyString => match w with EmptyString => [] | _ => [w] end
  | String c s' =>
      if is_space c
      then match w with EmptyString => words_from "" s' | _ => w :: words_from "" s' end
      else words_from (w ++ String c "") s'
  end.
Definition words (s : string) : list string := words_from "" s.
(** [s.replace(c, "")] for one character. *)
Fixpoint remove_char (c : ascii) (s : string) : string :=
  match s with
  | EmptyString => EmptyString
  | String d s' => if Ascii.eqb d c then remove_char c s' else String d (remove_char c s')
  end.
(** [s[:s.index(c)]] if [c in s], else [s]. *)
Fixpoint before_char (c : ascii) (s : string) : string :=
  match s with
  | EmptyString => EmptyString
  | String d s' => if Ascii.eqb d c then EmptyString else String d (before_char c s')
  end.
(** [s.split(c)] for one character. *)
Fixpoint split_on (c : ascii) (s : string) : list string :=
  match s with
  | EmptyString => [EmptyString]
  | String d s' =>
      if Ascii.eqb d c then EmptyString :: split_on c s'
      else match split_on c s' with
           | h :: t => String d h :: t
           | [] => [String d EmptyString]
           end
  end.
Definition digit_of (c : ascii) : option Z :=
  let n := nat_of_ascii c in
  if (48 <=? n) && (n <=? 57) then Some (Z.of_nat (n - 48)) else None.
(** [int(s)] for a string without white space and with code points below 256: an
    optional sign, then digits; single underscores may separate digits.  [None]
    is ValueError. *)
Fixpoint int_digits (acc : Z) (s : string) : option Z :=
  match s with
  | EmptyString => Some acc
  | String c s' =>
      match digit_of c with
      | Some d => int_digits (10 * acc + d)%Z s'
      | None =>
          if Ascii.eqb c "_"%char then
            match s' with
            | EmptyString => None
            | String c' s'' =>
                match digit_of c' with
                | Some d => int_digits (10 * acc + d)%Z s''
                | None => None
                end
            end
          else None
      end
  end.
Definition int_unsigned (s : string) : option Z :=
  match s with
  | EmptyString => None
  | String c s' => match digit_of c with Some d => int_digits d s' | None => None end
  end.
Definition parse_int (s : string) : option Z :=
  match s with
  | EmptyString => None
  | String c s' =>
      if Ascii.eqb c "-"%char then option_map Z.opp (int_unsigned s')
      else if Ascii.eqb c "+"%char then int_unsigned s'
      else int_unsigned s
  end.
(** [[int(x) for x in l]]. *)
Fixpoint parse_ints (l : list string) : option (list Z) :=
  match l with
  | [] => Some []
  | x :: r => match parse_int x, parse_ints r with
              | Some z, Some zs => Some (z :: zs)
              | _, _ => None
              end
  end.
(** [datetime.datetime(year, month, day)]; the caller has checked the year and the
    month. *)
Definition leap (y : Z) : bool :=
  ((y mod 4 =? 0) && (negb (y mod 100 =? 0) || (y mod 400 =? 0)))%Z.
Definition month_days (y m : Z) : Z :=
  if (m =? 2)%Z then (if leap y then 29 else 28)%Z
  else if ((m =? 4) || (m =? 6) || (m =? 9) || (m =? 11))%Z then 30%Z else 31%Z.
Definition datetime (y m d : Z) : result (Z * Z * Z) :=
  if (d <=? month_days y m)%Z then Ok (y, m, d) else Raise ValueError.
Definition fallback : Z * Z * Z := (2001, 1, 1)%Z.
(** utils.py 924-945, [get_epoch]; [current_year] is the year of
    [datetime.datetime.now].  [year, month, day = date_components] fails unless
    there are three components. *)
Definition get_epoch (current_year : Z) (units : string) : result (Z * Z * Z) :=
  match nth_error (words units) 2 with
  | None => Ok fallback
  | Some date =>
      let date := before_char "T" (remove_char "," date) in
      match (match parse_ints (split_on "-" date) with
             | Some l => Some l
             | None => parse_ints (split_on "." date)
             end) with
      | None => Ok fallback
      | Some [y; m; d] =>
          if ((1900 <? y) && (y <=? current_year) && ((0 <? m) && (m <? 13)) &&
              ((0 <? d) && (d <? 32)))%Z
          then datetime y m d
          else Ok fallback
      | Some _ => Raise ValueError
      end
  end.

(** ** Site coordinates *)
Inductive coord_key := Lat | Lon | Alt.
Inductive coord_source := GPS | SiteMeta | RawFile.
(** Source file: values of a variable, text of a global attribute. *)
Record raw_file := { rf_var : coord_key -> option (list (masked Q));
                     rf_attr : coord_key -> option string }.
(** A value found: a Python float, or an array (scalars have one element). *)
Inductive coord := CFloat (q : Q) | CArray (l : list (masked Q)).
(** [float(s)] for a string of digits and points: at most one point, at least one
    digit; [None] is ValueError. *)
Fixpoint frac_digits (num den : Z) (s : string) : option (Z * Z) :=
  match s with
  | EmptyString => Some (num, den)
  | String c s' => match digit_of c with
                   | Some d => frac_digits (10 * num + d)%Z (10 * den)%Z s'
                   | None => None
                   end
  end.
Fixpoint whole_digits (num : Z) (s : string) : option (Z * Z) :=
  match s with
  | EmptyString => Some (num, 1%Z)
  | String c s' => match digit_of c with
                   | Some d => whole_digits (10 * num + d)%Z s'
                   | None => if Ascii.eqb c "."%char then frac_digits num 1 s' else None
                   end
  end.
Definition parse_float (s : string) : option Q :=
  if (String.eqb s "" || String.eqb s ".")%bool then None
  else match whole_digits 0 s with
       | Some (num, den) => Some (num # Z.to_pos den)
       | None => None
       end.
Definition numeral_char (c : ascii) : bool :=
  match digit_of c with Some _ => true | None => Ascii.eqb c "."%char end.
Fixpoint keep_numeral (s : string) : string :=
  match s with
  | EmptyString => EmptyString
  | String c s' => if numeral_char c then String c (keep_numeral s') else keep_numeral s'
  end.
(** utils.py 1189-1197, [_parse_global_attribute_numeral], for text attributes.
    [char.isdigit()] also holds for superscript digits, on which [float] fails;
    they are not modelled. *)
Definition parse_attribute (attr : string) : result (option Q) :=
  if String.eqb attr "Unknown" then Ok None
  else match parse_float (keep_numeral attr) with
       | Some q => Ok (Some q)
       | None => Raise ValueError
       end.

Definition all_masked (l : list (masked Q)) : bool := forallb is_masked l.
Definition nonzero (x : masked Q) : bool :=
  match x with Some q => negb (Qeq_bool q 0) | None => false end.

Section Geolocation.
(** [np.cos(np.radians(x))]. *)
Variable cosdeg : Q -> Q.
Variable gps : bool.
(** User-supplied coordinates, numbers. *)
Variable site_meta : coord_key -> option Q.
(** The source file, if it is a netCDF file. *)
Variable file : option raw_file.
(** Coordinates already in [data]. *)
Variable data : coord_key -> option (list (masked Q)).

Definition file_var (k : coord_key) : option (list (masked Q)) :=
  match file with Some f => rf_var f k | None => None end.
(** utils.py 1121-1135. *)
Definition gps_value (k : coord_key) : option (list (masked Q)) :=
  if gps && match k with Alt => false | _ => true end then
    let values := match file_var k with Some l => Some l | None => data k end in
    match values with
    | Some l => if negb (all_masked l) && existsb nonzero l
                then Some (map (fun x => if nonzero x then x else None) l)
                else None
    | None => None
    end
  else None.
(** utils.py 1149-1157: the global attribute. *)
Definition attr_coord (k : coord_key) : result (option (coord * coord_source)) :=
  match file with
  | Some f => match rf_attr f k with
              | Some a => bind (parse_attribute a) (fun o =>
                  Ok (option_map (fun q => (CFloat q, RawFile)) o))
              | None => Ok None
              end
  | None => Ok None
  end.
(** utils.py 1118-1160: value and source of one coordinate. *)
Definition find_coord (k : coord_key) : result (option (coord * coord_source)) :=
  match gps_value k with
  | Some l => Ok (Some (CArray l, GPS))
  | None =>
      match site_meta k with
      | Some q => Ok (Some (CArray [Some q], SiteMeta))
      | None =>
          match file_var k with
          | Some l => if all_masked l then attr_coord k else Ok (Some (CArray l, RawFile))
          | None => attr_coord k
          end
      end
  end.
(** [np.atleast_1d]. *)
Definition atleast_1d (c : coord) : list (masked Q) :=
  match c with CFloat q => [Some q] | CArray l => l end.
(** Minimum, maximum and mean of the valid values (zero without any). *)
Definition ma_min (l : list (masked Q)) : Q :=
  match present l with [] => 0%Q | x :: r => fold_left (fun a b => if qlt b a then b else a) r x end.
Definition ma_max (l : list (masked Q)) : Q :=
  match present l with [] => 0%Q | x :: r => fold_left (fun a b => if qlt a b then b else a) r x end.
Definition ma_mean (l : list (masked Q)) : Q :=
  (fold_left Qplus (present l) 0 / inject_Z (Z.of_nat (List.length (present l))))%Q.
(** utils.py 1200-1208, [_are_stationary]. *)
Definition are_stationary (lat lon : list (masked Q)) : bool :=
  let avg_lat := ((ma_min lat + ma_max lat) / 2)%Q in
  Qle_bool (ma_max lat - ma_min lat) (1 # 100) &&
  Qle_bool (ma_max lon - ma_min lon) ((1 # 100) / cosdeg avg_lat).
(** utils.py 1107-1186, [add_site_geolocation]: the coordinates stored; [None]
    leaves [data] as it is.  The statement in line 1166 has no effect.  Arrays of
    latitude and longitude need at least one valid value, which [find_coord]
    guarantees. *)
Definition add_site_geolocation : result (coord_key -> option (coord * coord_source)) :=
  bind (find_coord Lat) (fun lat => bind (find_coord Lon) (fun lon => bind (find_coord Alt) (fun alt =>
  let '(lat, lon) :=
    match lat, lon with
    | Some (a, sa), Some (o, so) =>
        let la := atleast_1d a in
        let lo := atleast_1d o in
        if are_stationary la lo
        then (Some (CFloat (ma_mean la), sa), Some (CFloat (ma_mean lo), so))
        else (Some (CArray la, sa), Some (CArray lo, so))
    | _, _ => (lat, lon)
    end in
  let alt :=
    match alt with
    | Some (a, sa) => let l := atleast_1d a in
                      if qlt (ma_max l - ma_min l) 100 then Some (CFloat (ma_mean l), sa)
                      else Some (a, sa)
    | None => None
    end in
  Ok (fun k => match k with Lat => lat | Lon => lon | Alt => alt end)))).
End Geolocation.
