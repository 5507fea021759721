(** Model of the netCDF cloud radars: reading (instruments/nc_radar.py), Galileo
    (galileo.py), Copernicus (copernicus.py), BASTA (basta.py), BOW-TIE (bowtie.py) and
    parts of MIRA (mira.py).  Floating point numbers are exact rationals; NaN and
    infinite numbers are [None]. *)
From Verif Require Import Base ArrayModel GridModel OutputModel DropletModel SiteModel TelegramModel MeltModel.
From Coq Require Import Ascii String.
Open Scope string_scope.
Open Scope nat_scope.
Open Scope list_scope.
Local Notation length := List.length (only parsing).

(** An entry of a numpy.ma array: the number under the mask, and the mask. *)
Notation cell := (masked Q * bool)%type (only parsing).
Definition number (x : cell) : masked Q := fst x.
Definition hidden (x : cell) : bool := snd x.
(** [x < t], [x > t] and [x >= t] compare the numbers under the mask; NaN compares as
    false. *)
Definition test (p : Q -> bool) (x : cell) : bool := match number x with Some q => p q | None => false end.
Definition hide (b : bool) (x : cell) : cell := (number x, hidden x || b).
(** Variables of zero, one and two dimensions. *)
Inductive nvar : Type := N0 (x : cell) | N1 (l : list cell) | N2 (m : image cell).
Definition ndict := list (string * nvar).
(** [self.data[key]] for an image and for a vector.  Another dimension counts as
    IndexError. *)
Definition image_of (d : ndict) (key : string) : result (image cell) :=
  match lookup key d with Some (N2 m) => Ok m | Some _ => Raise IndexError | None => Raise KeyError end.
Definition vector_of (d : ndict) (key : string) : result (list cell) :=
  match lookup key d with Some (N1 l) => Ok l | Some _ => Raise IndexError | None => Raise KeyError end.

(** ** Reading *)

(** nc_radar.py 48: what is not finite is masked.  Scalars are finite. *)
Definition mask_infinite (x : cell) : cell := hide (is_masked (number x)) x.
Definition read_variable (v : nvar) : nvar :=
  match v with N0 x => N0 x | N1 l => N1 (map mask_infinite l) | N2 m => N2 (imap mask_infinite m) end.
(** nc_radar.py 38-49, [init_data]; [d] is the data before, [{}] at the start. *)
Fixpoint init_data (file : ndict) (keymap : list (string * string)) (d : ndict) : ndict :=
  match keymap with
  | [] => d
  | (key, name) :: rest =>
      init_data file rest (match lookup key file with Some v => set_key name (read_variable v) d | None => d end)
  end.
(** nc_radar.py 51-63, [add_time_and_range], the range: [np.array] drops the mask.
    Fill values under the mask stay. *)
Definition add_range (file : ndict) (factor : option Q) : result (list (masked Q)) :=
  let values v := match v with N0 x => [number x] | N1 l => map number l | N2 m => map number (List.concat m) end in
  bind (match lookup "range" file with
        | Some v => Ok (values v)
        | None => match lookup "height" file with Some v => Ok (values v) | None => Raise KeyError end
        end) (fun range =>
  Ok (match factor with Some f => map (option_map (fun r => (r * f)%Q)) range | None => range end)).
(** nc_radar.py 165-168: the Nyquist velocity of the file; a missing variable is only
    logged.  The variable has no missing values. *)
Definition nyquist (file : list (string * list Q)) : option (masked Q) :=
  match lookup "ambiguous_velocity" file with
  | Some l => Some (median l)
  | None => option_map median (lookup "NyquistVelocity" file)
  end.
(** nc_radar.py 174-179, [test_if_all_masked]; v is a masked array. *)
Definition test_if_all_masked (d : ndict) : result unit :=
  bind (image_of d "v") (fun v =>
  if forallb (forallb hidden) v then Raise RadarDataError else Ok tt).

(** ** Masks *)

(** [data[ind] = ma.masked] where [ind] is given by a function of the pixel; [map2] with
    the image the indices were found in, which has the same shape. *)
Definition mask_where (ind : image bool) (m : image cell) : image cell := map2 (map2 hide) ind m.
(** nc_radar.py 68-70: only variables with two dimensions. *)
Definition mask_var (ind : image bool) (v : nvar) : nvar :=
  match v with N2 m => N2 (mask_where ind m) | N1 l => N1 l | N0 x => N0 x end.
(** Loop over the two-dimensional variables. *)
Definition mask_each (ind : image bool) (d : ndict) : ndict :=
  map (fun kv : string * nvar => (fst kv, mask_var ind (snd kv))) d.
(** Mask of one variable. *)
Definition mask_one (key : string) (ind : image bool) (d : ndict) : result ndict :=
  bind (image_of d key) (fun m => Ok (set_key key (N2 (mask_where ind m)) d)).
(** nc_radar.py 65-71, [screen_by_snr] without the variable snr_limit. *)
Definition screen_snr (limit : Q) (d : ndict) : result ndict :=
  bind (image_of d "SNR") (fun snr => Ok (mask_each (imap (test (fun q => qlt q limit)) snr) d)).
(** nc_radar.py 83-90, [mask_invalid_data]. *)
Definition mask_invalid (d : ndict) : result ndict :=
  bind (image_of d "Zh") (fun z =>
  bind (image_of d "v") (fun v =>
  Ok (mask_each (imap hidden v) (mask_each (imap hidden z) d)))).

(** ** Galileo *)

(** galileo.py 131-137, [mask_clutter].  The value of [a and b] is [b] for a tuple [a],
    which has two elements. *)
Definition low_gates (f : cell -> bool) (row : list cell) : list bool :=
  map (fun jx => (fst jx <? 15) && f (snd jx)) (enumerate row).
Definition mask_clutter (d : ndict) : result ndict :=
  bind (image_of d "Zh") (fun _ =>
  bind (image_of d "ldr") (fun ldr =>
  mask_one "v" (map (low_gates (test (fun q => qlt (-5) q))) ldr) d)).
(** utils.py 733-749, [isscalar]. *)
Definition isscalar (v : nvar) : bool :=
  match v with N0 _ => true | N1 l => length l =? 1 | N2 m => length m =? 1 end.
(** [arr.shape[-1]]; an image without profiles has no gates here. *)
Definition last_size (v : nvar) : nat :=
  match v with N0 _ => 0 | N1 l => length l | N2 m => match m with [] => 0 | row :: _ => length row end end.
(** [arr[..., valid_idx]]. *)
Definition cut_last (valid : list bool) (v : nvar) : nvar :=
  match v with N0 x => N0 x | N1 l => N1 (select valid l) | N2 m => N2 (map (select valid) m) end.
(** galileo.py 148-151 for [n] gates. *)
Definition cut_var (n : nat) (valid : list bool) (v : nvar) : nvar :=
  if isscalar v then v else if last_size v =? n then cut_last valid v else v.
(** galileo.py 139-151, [screen_negative_altitudes]. *)
Definition screen_negative_altitudes (d : ndict) : result ndict :=
  bind (vector_of d "range") (fun range =>
  let valid := map (test (fun q => qlt 0 q)) range in
  if negb (existsb (fun b => b) valid) then Raise ValueError
  else if forallb (fun b => b) valid then Ok d
  else Ok (map (fun kv : string * nvar => (fst kv, cut_var (length range) valid (snd kv))) d)).
(** galileo.py 95-99. *)
Definition galileo_screen (snr_limit : option Q) (d : ndict) : result ndict :=
  bind (screen_negative_altitudes d) (fun d =>
  bind (screen_snr (match snr_limit with Some l => l | None => 3%Q end) d) (fun d =>
  bind (mask_clutter d) mask_invalid)).

(** ** Copernicus *)

(** [x - a + o] of numpy.ma: numbers under the mask stay. *)
Definition shifted (a o : Q) (x : cell) : cell :=
  (if hidden x then number x else option_map (fun q => (q - a + o)%Q) (number x), hidden x).
(** copernicus.py 133-142, [calibrate_reflectivity], without the variable Zh_offset, which
    is the second result; [applied] is the attribute of the file. *)
Definition calibrate_reflectivity (applied site : option Q) (d : ndict) : result (ndict * Q) :=
  let a := match applied with Some a => a | None => 0%Q end in
  let o := match site with Some o => o | None => (- (1495 # 10))%Q end in
  bind (image_of d "Zh") (fun z => Ok (set_key "Zh" (N2 (imap (shifted a o) z)) d, o)).
(** nc_radar.py 73-81, [screen_using_top_gates_snr].  The mean of the highest 50 gates
    that are not masked; if all are masked it is [ma.masked], and the comparison is with
    0.  Visible numbers are finite. *)
Definition noise_limit (limit : Q) (row : list cell) : Q :=
  let top := skipn (length row - 50) row in
  match ma_stat mean (map (fun x => if hidden x then None else number x) top) with
  | Some m => (m + limit)%Q
  | None => 0%Q
  end.
Definition screen_top_snr (limit : Q) (d : ndict) : result ndict :=
  bind (image_of d "SNR") (fun snr =>
  mask_one "Zh" (map (fun row => map (test (fun q => qlt q (noise_limit limit row))) row) snr) d).
(** copernicus.py 157-167, [mask_corrupted_values]; the velocity is masked twice. *)
Definition exceeds (t : Q) (q : Q) : bool := qlt t (Coq.QArith.Qabs.Qabs q).
Definition mask_corrupted (d : ndict) : result ndict :=
  bind (image_of d "width") (fun w =>
  bind (mask_one "v" (imap (test (exceeds 3)) w) d) (fun d =>
  bind (image_of d "v") (fun v => mask_one "v" (imap (test (exceeds 9)) v) d))).
(** nc_radar.py 92-98, [mask_first_range_gates]. *)
Definition mask_first_gates (limit : Q) (d : ndict) : result ndict :=
  match lookup "v" d, lookup "range" d with
  | Some _, Some _ =>
      bind (vector_of d "range") (fun range =>
      bind (image_of d "v") (fun v =>
      mask_one "v" (map (fun _ => map (test (fun q => qlt q limit)) range) v) d))
  | _, _ => Ok d
  end.
(** copernicus.py 144-155, [fix_range_offset]; the range has no mask. *)
Definition fix_range_offset (applied site : option Q) (d : ndict) : result (ndict * Q) :=
  let a := match applied with Some a => a | None => 0%Q end in
  let o := match site with Some o => o | None => (-720)%Q end in
  bind (vector_of d "range") (fun range => Ok (set_key "range" (N1 (map (shifted a o) range)) d, o)).
(** copernicus.py 175-178. *)
Definition cut_range (valid : list bool) (key : string) (v : nvar) : nvar :=
  match v with
  | N2 m => cut_last valid (N2 m)
  | N1 l => if String.eqb key "range" then cut_last valid (N1 l) else N1 l
  | N0 x => N0 x
  end.
(** copernicus.py 169-180, [screen_negative_ranges].  Images have the gates of the
    range. *)
Definition screen_negative_ranges (d : ndict) : result ndict :=
  bind (vector_of d "range") (fun range =>
  let valid := map (test (fun q => Qle_bool 0 q)) range in
  Ok (map (fun kv : string * nvar => (fst kv, cut_range valid (fst kv) (snd kv))) d)).
(** Offsets: the attribute of the file and the one of the site. *)
Record offsets := { o_applied : option Q; o_site : option Q }.
(** copernicus.py 96-102, without the variables Zh_offset and range_offset. *)
Definition copernicus_screen (zh range : offsets) (d : ndict) : result ndict :=
  bind (calibrate_reflectivity (o_applied zh) (o_site zh) d) (fun r =>
  bind (screen_top_snr 2 (fst r)) (fun d =>
  bind (mask_corrupted d) (fun d =>
  bind (mask_first_gates 150 d) (fun d =>
  bind (mask_invalid d) (fun d =>
  bind (fix_range_offset (o_applied range) (o_site range) d) (fun r =>
  screen_negative_ranges (fst r))))))).

(** ** BASTA *)

(** basta.py 95-100, [screen_data]; a masked value of the background mask is different
    from 1.  The background mask is an image, so only images have its dimensions. *)
Definition background (x : cell) : bool := hidden x || negb (test (Qeq_bool 1) x).
Fixpoint screen_background (mask : image cell) (names : list string) (d : ndict) : ndict :=
  match names with
  | [] => d
  | k :: rest =>
      screen_background mask rest
        (match lookup k d with Some (N2 m) => set_key k (N2 (mask_where (imap background mask) m)) d | _ => d end)
  end.
(** basta.py 54-60. *)
Definition basta_keymap : list (string * string) :=
  [("reflectivity", "Zh"); ("velocity", "v"); ("radar_pitch", "radar_pitch"); ("radar_yaw", "radar_yaw"); ("radar_roll", "radar_roll")].
(** basta.py 63-66 without the date. *)
Definition basta_data (file : ndict) : result ndict :=
  let d := init_data file basta_keymap [] in
  bind (image_of file "background_mask") (fun mask => Ok (screen_background mask (map snd basta_keymap) d)).
(** [datetime.date.fromisoformat] for dates as YYYY-MM-DD; other forms, which newer
    versions of Python read, are not modelled. *)
Fixpoint digits_value (n : nat) (acc : Z) (s : string) {struct s} : option Z :=
  match n, s with
  | 0, EmptyString => Some acc
  | S n', String c s' => match digit_of c with Some k => digits_value n' (10 * acc + k)%Z s' | None => None end
  | _, _ => None
  end.
Definition fromisoformat (s : string) : result (Z * Z * Z) :=
  match split_on "-" s with
  | [y; m; d] =>
      match digits_value 4 0 y, digits_value 2 0 m, digits_value 2 0 d with
      | Some y, Some m, Some d =>
          if ((1 <=? y) && (1 <=? m) && (m <=? 12) && (1 <=? d))%Z then datetime y m d else Raise ValueError
      | _, _, _ => Raise ValueError
      end
  | _ => Raise ValueError
  end.
Definition same_date (a b : Z * Z * Z) : bool :=
  let '(y, m, d) := a in let '(y', m', d') := b in ((y =? y') && (m =? m') && (d =? d'))%Z.
(** basta.py 102-109, [validate_date]. *)
Definition validate_date (units : string) (expected : Z * Z * Z) : result unit :=
  match nth_error (words units) 2 with
  | None => Raise IndexError
  | Some s => bind (fromisoformat s) (fun date => if same_date expected date then Ok tt else Raise ValidTimeStampError)
  end.
(** nc_radar.py 195-200, [check_date] of the Chilbolton radars; the year of today is
    [current_year]. *)
Definition chilbolton_check_date (current_year : Z) (units : string) (date : Z * Z * Z) : result unit :=
  bind (get_epoch current_year units) (fun d => if same_date d date then Ok tt else Raise ValidTimeStampError).

(** ** BOW-TIE *)

(** [x *= c] of numpy.ma. *)
Definition scaled (c : Q) (x : cell) : cell :=
  (if hidden x then number x else option_map (fun q => (q * c)%Q) (number x), hidden x).
Definition scale_var (c : Q) (v : nvar) : nvar :=
  match v with N0 x => N0 (scaled c x) | N1 l => N1 (map (scaled c) l) | N2 m => N2 (imap (scaled c) m) end.
(** bowtie.py 87-90, [convert_units]; [G_TO_KG] and [MM_H_TO_M_S] are in constants.py. *)
Fixpoint convert (factors : list (string * Q)) (d : ndict) : result ndict :=
  match factors with
  | [] => Ok d
  | (k, c) :: rest => match lookup k d with
                      | Some v => convert rest (set_key k (scale_var c v) d)
                      | None => Raise KeyError
                      end
  end.
Definition convert_units (d : ndict) : result ndict :=
  convert [("lwp", (1 # 1000)%Q); ("rainfall_rate", (1 # 3600000)%Q); ("relative_humidity", (1 # 100)%Q)] d.
(** bowtie.py 97-100, [add_correction_bits]. *)
Definition add_correction_bits (d : ndict) : result ndict :=
  bind (image_of d "v") (fun v =>
  Ok (set_key "correction_bits" (N2 (imap (fun x => (Some 1%Q, hidden x)) v)) d)).

(** ** MIRA *)

(** mira.py 345-395, [_get_keymap], the variables of the radar image. *)
Definition znc_keymap : list (string * string) :=
  [("Zg", "Zh"); ("Zh2l", "Zh"); ("VELg", "v"); ("VELh2l", "v"); ("RMSg", "width"); ("RMSh2l", "width");
   ("LDRg", "ldr"); ("LDRh2l", "ldr"); ("SNRg", "SNR"); ("SNRh2l", "SNR"); ("elv", "elevation"); ("azi", "azimuth_angle");
   ("nfft", "nfft"); ("nave", "nave"); ("prf", "prf"); ("rg0", "rg0"); ("NyquistVelocity", "nyquist_velocity"); ("tpow", "tpow")].
Definition mmclx_keymap : list (string * string) :=
  [("Ze", "Zh"); ("Zg", "Zh"); ("VELg", "v"); ("RMSg", "width"); ("LDRg", "ldr"); ("SNRg", "SNR"); ("elv", "elevation");
   ("azi", "azimuth_angle"); ("nfft", "nfft"); ("nave", "nave"); ("prf", "prf"); ("rg0", "rg0");
   ("NyquistVelocity", "nyquist_velocity"); ("tpow", "tpow")].
(** With [_check_file_type] (398-402). *)
Definition get_keymap (filetype : string) : result (list (string * string)) :=
  if String.eqb (lower filetype) "znc" then Ok znc_keymap
  else if String.eqb (lower filetype) "mmclx" then Ok mmclx_keymap
  else Raise ValueError.
(** mira.py 338-342, [_get_suffix]: the regular expression [\.(\w+)(\.\d+)?$].  The
    parts of the name between points; [\w] is a letter, a digit or an underscore of
    ASCII.  A line feed at the end is not modelled. *)
Definition word_char (c : ascii) : bool :=
  let n := nat_of_ascii c in
  ((48 <=? n) && (n <=? 57)) || ((65 <=? n) && (n <=? 90)) || ((97 <=? n) && (n <=? 122)) || (n =? 95).
Fixpoint all_chars (p : ascii -> bool) (s : string) : bool :=
  match s with EmptyString => true | String c s' => p c && all_chars p s' end.
Definition is_word (s : string) : bool := negb (String.eqb s "") && all_chars word_char s.
Definition is_number (s : string) : bool :=
  negb (String.eqb s "") && all_chars (fun c => match digit_of c with Some _ => true | None => false end) s.
Fixpoint suffix_of (parts : list string) : string :=
  match parts with
  | [] => ""
  | a :: rest => match rest with
                 | [] => if is_word a then a else ""
                 | b :: rest' => match rest' with
                                 | [] => if is_word a && is_number b then a else suffix_of rest
                                 | _ :: _ => suffix_of rest
                                 end
                 end
  end.
Definition get_suffix (filename : string) : string :=
  match split_on "." filename with [] => "" | _ :: parts => lower (suffix_of parts) end.
(** mira.py 304-310: all files have one type.  [len(set) > 1] of the suffixes. *)
Definition keymap_of_files (files : list string) : result (list (string * string)) :=
  match map get_suffix files with
  | [] => Raise OSError
  | t :: rest => if forallb (String.eqb t) rest then get_keymap t else Raise TypeError
  end.
(** mira.py 243-260, [screen_invalid_ldr]: [pol] is an entry of the attribute hrd.  The
    mean of nothing is masked, and [if ma.masked] is false. *)
Definition screen_ldr (pol : option string) (d : ndict) : result ndict :=
  match lookup "ldr" d with
  | None => Ok d
  | Some _ =>
      match pol with
      | None => Raise KeyError
      | Some p =>
          if String.eqb p "0" then Ok (filter (fun kv : string * nvar => negb (String.eqb (fst kv) "ldr")) d)
          else bind (image_of d "ldr") (fun ldr =>
               match ma_stat mean (map (fun x => if hidden x then None else number x) (List.concat ldr)) with
               | Some m => if qlt 0 m then mask_one "ldr" (imap (fun _ => true) ldr) d else Ok d
               | None => Ok d
               end)
      end
  end.
(** cloudnet_instrument.py 44-47 and cloudnetarray.py 45-49: [linear_to_db] of mira.py 81.
    [db] is 10 log10, [None] where numpy.ma masks it (utils.py 547-551, [lin2db]).  Under
    the mask the product has the number of its first factor, 10. *)
Definition in_db (db : Q -> option Q) (x : cell) : cell :=
  match number x with
  | Some q => if hidden x then (Some 10%Q, true) else match db q with Some y => (Some y, false) | None => (Some 10%Q, true) end
  | None => (Some 10%Q, true)
  end.
Fixpoint linear_to_db (db : Q -> option Q) (names : list string) (d : ndict) : result ndict :=
  match names with
  | [] => Ok d
  | k :: rest => bind (image_of d k) (fun m => linear_to_db db rest (set_key k (N2 (imap (in_db db) m)) d))
  end.
(** mira.py 81 and 96-98 (the power is modelled in RadarModel.v). *)
Definition mira_screen (db : Q -> option Q) (pol : option string) (snr_limit : Q) (d : ndict) : result ndict :=
  bind (linear_to_db db ["Zh"; "ldr"; "SNR"] d) (fun d =>
  bind (screen_snr snr_limit d) (fun d =>
  bind (screen_ldr pol d) mask_invalid)).
(** mira.py 84-88: the limit. *)
Definition mira_snr_limit (site : option Q) (mira10 : bool) : Q :=
  match site with Some l => l | None => if mira10 then (-30)%Q else (-17)%Q end.
