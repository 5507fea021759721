(** Model of the PollyXT lidar (instruments/pollyxt.py).  Floating point numbers are exact
    rationals.  The contents of the files, and the times they hold, are given. *)
From Verif Require Import Base ArrayModel TimeModel GridModel OutputModel TelegramModel NcRadarModel LidarModel.
From Coq Require Import Qabs String Ascii.
Open Scope string_scope.
Open Scope nat_scope.
Open Scope list_scope.
Local Notation length := List.length (only parsing).
Local Notation dict := OutputModel.dict (only parsing).

(** ** The files *)

(** [s.endswith(p)]. *)
Fixpoint ends_with (p s : string) : bool :=
  String.eqb p s || match s with EmptyString => false | String _ r => ends_with p r end.
Definition is_digit (c : ascii) : bool := (48 <=? nat_of_ascii c) && (nat_of_ascii c <=? 57).
(** [s] without its first [n] characters. *)
Fixpoint drop (n : nat) (s : string) : string :=
  match n, s with S k, String _ r => drop k r | _, _ => s end.
(** [fnmatch(s, "*[0-9]" + key + "*.nc")]. *)
Fixpoint fnmatch (key s : string) : bool :=
  match s with
  | EmptyString => false
  | String c r => (is_digit c && String.prefix key r && ends_with ".nc" (drop (String.length key) r)) || fnmatch key r
  end.
(** [list.sort] of strings. *)
Fixpoint insert_name (s : string) (l : list string) : list string :=
  match l with
  | [] => [s]
  | t :: r => if String.leb s t then s :: l else t :: insert_name s r
  end.
Definition sort_names (l : list string) : list string := fold_right insert_name [] l.
(** pollyxt.py 117-128: the files of a sequence of paths.  A directory, whose files are
    found with glob, is not modelled. *)
Definition find_files (files : list string) : result (list string * list string) :=
  let bsc := sort_names (filter (fnmatch "_att") files) in
  let depol := sort_names (filter (fnmatch "_vol") files) in
  match bsc with
  | [] => Raise RuntimeError
  | _ => if length bsc =? length depol then Ok (bsc, depol) else Raise InconsistentDataError
  end.

(** A backscatter file: heights, times with their epoch, and for each channel the
    backscatter with its calibration constant, and the signal-to-noise ratio.  The times
    have no masked values. *)
Record bsc_file := {
  b_height : list (masked Q); b_time : list Q; b_epoch : Z;
  b_beta : dict (image cell * Q); b_snr : dict (image cell) }.
(** A depolarisation file. *)
Record depol_file := { d_height : list (masked Q); d_time : list Q; d_ratio : option (image cell) }.

(** pollyxt.py 219-221, [get_sum]: [None] is [ma.masked]. *)
Definition height_sum (height : list (masked Q)) : masked Q :=
  match unmasked height with
  | [] => None
  | l => Some (fold_right Qplus 0%Q (map (fun h => inject_Z (round_half_even h)) l))
  end.
(** How often a value occurs. *)
Definition occurrences (x : Q) (l : list Q) : nat := length (filter (Qeq_bool x) l).
(** [Counter(l).most_common(1)[0][0]]: the first of the values that occur most often. *)
Fixpoint most_common_of (all rest : list Q) (best : Q) : Q :=
  match rest with
  | [] => best
  | x :: r => most_common_of all r (if occurrences best all <? occurrences x all then x else best)
  end.
Definition most_common (l : list Q) : option Q :=
  match l with [] => None | x :: r => Some (most_common_of l r x) end.
(** pollyxt.py 216-244, [_fetch_files_with_same_range], for pairs of files; the lists have
    the same length here. *)
Definition same_range (pairs : list (bsc_file * depol_file)) : list (bsc_file * depol_file) :=
  let bsc_sums := map (fun p : bsc_file * depol_file => height_sum (b_height (fst p))) pairs in
  let depol_sums := map (fun p : bsc_file * depol_file => height_sum (d_height (snd p))) pairs in
  match most_common (unmasked (bsc_sums ++ depol_sums)) with
  | None => []
  | Some s =>
      let is x := match x with Some v => Qeq_bool v s | None => false end in
      filter (fun p : bsc_file * depol_file => is (height_sum (b_height (fst p))) && is (height_sum (d_height (snd p)))) pairs
  end.

(** ** The channel *)

(** pollyxt.py 260-262, [_only_zeros_or_masked]; the sum ignores masked values.  The
    values are finite. *)
Definition only_zeros_or_masked (m : image cell) : bool :=
  let visible := flat_map (fun x : cell => if hidden x then [] else match number x with Some q => [q] | None => [] end) (List.concat m) in
  Qeq_bool (fold_right Qplus 0%Q visible) 0 || forallb (forallb hidden) m.
(** pollyxt.py 193-206: the first file of a list where the channel works; KeyError if the
    file has no such channel. *)
Fixpoint channel_works (channel : string) (files : list bsc_file) : result bool :=
  match files with
  | [] => Ok false
  | f :: r =>
      match lookup channel (b_beta f) with
      | None => Raise KeyError
      | Some (beta, _) => if only_zeros_or_masked beta then channel_works channel r else Ok true
      end
  end.
(** pollyxt.py 190-208, [_get_valid_beta_channel]: the channel and the wavelength of the
    instrument afterwards.  [wavelength] is that of the instrument before; the instrument is
    an object of the module instruments.py, shared by all conversions of a process. *)
Fixpoint valid_channel (channels : list string) (files : list bsc_file) (wavelength : string) : result (string * string) :=
  match channels with
  | [] => Raise ValidTimeStampError
  | c :: r =>
      bind (channel_works c files) (fun works =>
      if works then Ok (c, if String.eqb c "1064" then wavelength else c)
      else valid_channel r files wavelength)
  end.
Definition beta_channel (files : list bsc_file) (wavelength : string) : result (string * string) :=
  valid_channel ["1064"; "532"; "355"] files wavelength.

(** ** The data *)

(** [self.data] after reading: [y_range] is set at once, the others by the pairs. *)
Record polly := {
  y_time : list Q; y_beta : image cell; y_depol : image cell; y_snr : image cell; y_factors : list Q }.
(** [assert_almost_equal(array1, array2, decimal=2)]. *)
Definition almost_equal (a b : list Q) : bool :=
  (length a =? length b) && forallb (fun p : Q * Q => qlt (Qabs (snd p - fst p)) (15 # 1000)) (combine a b).
(** [ma.concatenate] of images: ValueError for profiles of different length.  The width of
    an image without profiles is not modelled: it fits. *)
Definition join (a b : image cell) : result (image cell) :=
  match a, b with
  | r :: _, r' :: _ => if length r =? length r' then Ok (a ++ b) else Raise ValueError
  | _, _ => Ok (a ++ b)
  end.
(** pollyxt.py 139-180: one pair of files.  [None] is [self.data] without data. *)
Definition add_pair (channel : string) (p : bsc_file * depol_file) (data : option polly) : result (option polly) :=
  let (b, d) := p in
  if almost_equal (b_time b) (d_time d) then
    match lookup channel (b_beta b), d_ratio d with
    | Some (beta, factor), Some depol =>
        match lookup channel (b_snr b) with
        | None => Ok data
        | Some snr =>
            let factors := repeat factor (length (b_time b)) in
            match data with
            | None => Ok (Some {| y_time := b_time b; y_beta := beta; y_depol := depol; y_snr := snr; y_factors := factors |})
            | Some y =>
                bind (join (y_beta y) beta) (fun beta =>
                bind (join (y_depol y) depol) (fun depol =>
                bind (join (y_snr y) snr) (fun snr =>
                Ok (Some {| y_time := y_time y ++ b_time b; y_beta := beta; y_depol := depol; y_snr := snr;
                            y_factors := y_factors y ++ factors |}))))
            end
        end
    | _, _ => Raise KeyError
    end
  else Ok data.
Fixpoint add_pairs (channel : string) (pairs : list (bsc_file * depol_file)) (data : option polly) : result (option polly) :=
  match pairs with
  | [] => Ok data
  | p :: r => bind (add_pair channel p data) (add_pairs channel r)
  end.
(** pollyxt.py 108-182, [fetch_data], with the error of [get_date_and_time] (ceilometer.py
    98-101) if no pair was read: data, heights, epoch of the times, channel, wavelength.
    [bsc] and [depol] open the files. *)
Definition fetch_data (bsc : string -> bsc_file) (depol : string -> depol_file) (wavelength : string) (files : list string)
  : result (polly * list (masked Q) * Z * string * string) :=
  bind (find_files files) (fun names =>
  let pairs := same_range (combine (map bsc (fst names)) (map depol (snd names))) in
  match pairs with
  | [] => Raise InconsistentDataError
  | first :: _ =>
      bind (beta_channel (map fst pairs) wavelength) (fun channel =>
      bind (add_pairs (fst channel) pairs None) (fun data =>
      match data with
      | None => Raise ValidTimeStampError
      | Some y => Ok (y, b_height (fst first), b_epoch (fst (List.last pairs first)), fst channel, snd channel)
      end))
  end).

(** ** Masks *)

(** [ma.masked_where(condition, a)]: masked where the condition holds or is masked, and
    where [a] is masked. *)
Definition masked_below (limit : Q) (snr m : image cell) : image cell :=
  map2 (map2 (fun s x : cell => hide (hidden s || test (fun q => qlt q limit) s) x)) snr m.
(** pollyxt.py 92-102, [calc_screened_products]; images of one size. *)
Definition screened_beta (limit : Q) (snr raw : image cell) : image cell :=
  imap (fun x : cell => hide (test (fun q => qlt q 0) x) x) (masked_below limit snr raw).
Definition screened_depol (limit : Q) (snr raw : image cell) : image cell :=
  imap (fun x : cell => hide (test (fun q => qlt q 0) x) x)
    (imap (fun x : cell => hide (test (fun q => qlt 1 q) x) x) (masked_below limit snr raw)).
(** pollyxt.py 87-90, [mask_nan_values], for an image. *)
Definition mask_nan (m : image cell) : image cell := imap mask_infinite m.
(** pollyxt.py 104-106, [fetch_zenith_angle].  [self.metadata] is the empty dictionary of
    ceilometer.py 29, which nothing fills; the site is in [self.site_meta]. *)
Definition polly_zenith (site_meta : dict Q) : Q :=
  let metadata : dict Q := [] in
  match lookup "zenith_angle" metadata with Some z => z | None => 5%Q end.
(** pollyxt.py 62: the limit of the signal-to-noise ratio. *)
Definition polly_limit (site_meta : dict Q) : Q :=
  match lookup "snr_limit" site_meta with Some z => z | None => 2%Q end.
(** The arrays of the product: vectors and images. *)
Inductive parray := P1 (l : list Q) | P2 (m : image cell).
Definition rows_where {A} (valid : list bool) (l : list A) : list A := map snd (filter (fun p : bool * A => fst p) (combine valid l)).
(** pollyxt.py 184-188, [screen_completely_masked_profiles]. *)
Definition screen_array (valid : list bool) (a : parray) : parray :=
  match a with
  | P1 l => P1 (if length l =? length valid then rows_where valid l else l)
  | P2 m => P2 (if length m =? length valid then rows_where valid m else m)
  end.
Definition screen_profiles (data : dict parray) : result (dict parray) :=
  match lookup "beta_raw" data with
  | Some (P2 m) =>
      let valid := map (fun row => negb (forallb hidden row)) m in
      Ok (map (fun kv : string * parray => (fst kv, screen_array valid (snd kv))) data)
  | Some (P1 _) => Raise IndexError
  | None => Raise KeyError
  end.
