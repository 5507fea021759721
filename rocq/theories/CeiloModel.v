(** Model of the noise screening of ceilometer and lidar profiles
    (instruments/ceilometer.py) and of the final masks of ceilo.py.  Floating point
    numbers are exact rationals; a standard deviation is represented by its square. *)
From Verif Require Import Base ArrayModel FillModel TimeModel GridModel OutputModel TelegramModel MeltModel RadarModel.
From Coq Require Import Qabs String.
Open Scope string_scope.
Open Scope nat_scope.
Open Scope list_scope.
Local Notation length := List.length (only parsing).

(** The arguments of [NoisyData.__init__] (ceilometer.py 161-172) and [screen_data]
    (174-185): limit of the signal-to-noise ratio, number of consequent negatives,
    switches, and the model name of the instrument ([None] without instrument or
    model).  The noise minima are positive in all uses. *)
Record noisy := {
  y_limit : Q; y_negatives : nat; y_smoothed : bool; y_keep_negative : bool;
  y_fog : bool; y_filter_negatives : bool; y_snr : bool;
  y_range_corrected : bool; y_model : option string;
  y_noise_min : Q; y_noise_smooth_min : Q }.

(** ceilometer.py 291-303, [_get_altitude_ind]: the limit and the gates below it. *)
Definition alt_limit (c : noisy) : Q :=
  if y_range_corrected c then inject_Z 1000000000000
  else match y_model c with
       | Some m => let model := lower m in
           if String.eqb model "ct25k" then 0%Q
           else if String.eqb model "cl31" || String.eqb model "cl51" then 2400%Q
           else inject_Z 1000000000000
       | None => inject_Z 1000000000000
       end.
(** ceilometer.py 305-308, [_get_range_squared]. *)
Definition range_squared (r : Q) : Q := ((r * (1 # 1000)) * (r * (1 # 1000)))%Q.

(** ceilometer.py 283-285, [_calc_range_uncorrected], one profile without mask.  A gate
    of range 0 would be masked by the division of numpy.ma; ranges are not 0 here. *)
Definition calc_range_uncorrected (c : noisy) (range profile : list Q) : list Q :=
  map2 (fun r x => if qlt r (alt_limit c) then (x / range_squared r)%Q else x) range profile.
(** ceilometer.py 287-289, [_calc_range_corrected].  A product of numpy.ma leaves the
    data under the mask as they are. *)
Definition calc_range_corrected (c : noisy) (range : list Q) (profile : list entry) : list entry :=
  map2 (fun r e => if qlt r (alt_limit c) && negb (hides e) then ((raw e * range_squared r)%Q, hides e) else e)
    range profile.

(** [ma.var] of values without mask. *)
Definition var (l : list Q) : Q := mean (map (fun x => (x - mean l) * (x - mean l))%Q l).
(** ceilometer.py 328-331, [_calc_var_from_top_gates]; the slice [-0:] is everything.
    [n * 0.1] is taken as exact. *)
Definition calc_var_from_top_gates (l : list Q) : Q :=
  let n_gates := Z.to_nat (round_half_even (inject_Z (Z.of_nat (length l)) * (1 # 10))%Q) in
  var (if n_gates =? 0 then l else skipn (length l - n_gates) l).
(** ceilometer.py 323-325 and 210-222, [_estimate_background_noise] and [_adjust_noise],
    as a square: noise below the minimum becomes the minimum. *)
Definition adjust_noise (c : noisy) (variance : Q) : Q :=
  let noise_min := if y_smoothed c then y_noise_smooth_min c else y_noise_min c in
  if qlt variance (noise_min * noise_min) then (noise_min * noise_min)%Q else variance.

(** [profile[k:][profile[k:] < threshold] = ma.masked]; the data stay. *)
Definition mask_from (k : nat) (threshold : Q) (profile : list entry) : list entry :=
  map (fun p => let (i, e) := (p : nat * entry) in
         if (k <=? i) && qlt (raw e) threshold then (raw e, true) else e) (enumerate profile).

(** ceilometer.py 224-244, [_mask_low_values_above_consequent_negatives], one profile:
    the gates with enough negatives in a row, ending there, inside gates 5 to 99. *)
Definition consequent_negatives (n_negatives : nat) (profile : list Q) : list nat :=
  let negative_data := map (fun x => if qlt x 0 then 1 else 0)%Q (firstn 95 (skipn 5 profile)) in
  let n_consequent_negatives := cumsumr negative_data in
  map (fun k => k + 5) (where1 (map (fun n => qlt (inject_Z (Z.of_nat n_negatives)) n) n_consequent_negatives)).
Definition mask_low_values (alt_indices : list nat) (profile : list entry) : list entry :=
  fold_left (fun prof alt_ind => mask_from alt_ind (8 # 1000000) prof) alt_indices profile.

(** ceilometer.py 246-260, [_find_fog_profiles], one profile of beta_raw. *)
Definition is_fog (beta_raw : list Q) : bool :=
  qgt (fold_right Qplus 0%Q (map Qabs (firstn 20 beta_raw))) (1 # 1000)
  || qlt (calc_var_from_top_gates beta_raw) (1 # 1000000000000000).
(** ceilometer.py 310-320, [_clean_fog_profiles], one profile: masked values are below
    all others for [np.argmax]. *)
Definition clean_fog (profile : list entry) : result (list entry) :=
  bind (masked_argmax (map (fun e => if hides e then None else Some (raw e)) profile)) (fun peak_ind =>
  Ok (mask_from peak_ind (2 # 1000000) profile)).

(** [y < limit * sqrt variance] for a positive variance, in terms of squares. *)
Definition under_noise (limit variance y : Q) : bool :=
  if qlt limit 0 then qlt y 0 && qlt (limit * limit * variance) (y * y)
  else qlt y 0 || qlt (y * y) (limit * limit * variance).
(** [abs(y) < limit * sqrt variance]. *)
Definition abs_under_noise (limit variance y : Q) : bool :=
  negb (qlt limit 0) && qlt (y * y) (limit * limit * variance).
(** ceilometer.py 262-281, [_remove_noise], one profile.  Masked gates stay masked. *)
Definition remove_noise (c : noisy) (range : list Q) (variance : Q) (profile : list entry) : list entry :=
  map2 (fun r e =>
    let snr := if negb (y_range_corrected c) && qlt r (alt_limit c) then (raw e * 6)%Q else raw e in
    if (if y_keep_negative c then abs_under_noise (y_limit c) variance snr
        else under_noise (y_limit c) variance snr)
    then (raw e, true) else e) range profile.

(** ceilometer.py 174-208, [screen_data], one profile (profiles do not influence each
    other) of data without mask; [beta_raw] is the same profile of [data["beta_raw"]].
    The square of 1e-12 is 1e-24. *)
Definition screen_profile (c : noisy) (range beta_raw data_in : list Q) : result (list entry) :=
  let data := calc_range_uncorrected c range data_in in
  let noise := adjust_noise c (calc_var_from_top_gates data) in
  let negatives := if y_filter_negatives c then consequent_negatives (y_negatives c) data else [] in
  let profile := mask_low_values negatives (map (fun x => (x, false)) data) in
  let noise := match negatives with [] => noise | _ => ((1 # 1000000000000) * (1 # 1000000000000))%Q end in
  bind (if y_fog c && is_fog beta_raw then clean_fog profile else Ok profile) (fun profile =>
  let noise := if y_fog c && is_fog beta_raw then ((1 # 1000000000000) * (1 # 1000000000000))%Q else noise in
  let profile := if y_snr c then remove_noise c range noise profile else profile in
  Ok (calc_range_corrected c range profile)).
(** [screen_data] of an image. *)
Definition screen_data (c : noisy) (range : list Q) (beta_raw data_in : image Q) : result (image entry) :=
  sequence (map2 (screen_profile c range) beta_raw data_in).

(** ** Smoothed backscatter *)

(** ceilometer.py 367-371, [_estimate_clouds_from_beta]: [np.where] looks at the data
    under the mask. *)
Definition is_cloud (e : entry) : bool := qgt (raw e) (1 # 1000000).
(** ceilometer.py 57-85, [calc_beta_smooth].  [smooth] stands for [gaussian_filter] with
    the sigma of the time and height steps.  Assigning a masked array to a plain one
    copies the data under the mask. *)
Definition calc_beta_smooth (c : noisy) (smooth : image Q -> image Q) (range : list Q)
  (beta_raw : image Q) (beta : image entry) : result (image entry) :=
  let limited := map2 (map2 (fun e x => if is_cloud e then 1 # 1000000 else x)) beta beta_raw in
  let smoothed := map2 (map2 (fun e x => if is_cloud e then raw e else x)) beta (smooth limited) in
  screen_data c range beta_raw smoothed.

(** ceilo.py 146-155, [_get_n_negatives]; [old] for old versions of the CHM15k
    software, [model] is the name of the instrument. *)
Definition get_n_negatives (old : bool) (model : string) : nat :=
  if old || (String.eqb (lower model) "ct25k" || String.eqb (lower model) "cl31") then 20 else 5.

(** ceilo.py 104-116, screening of ceilometers other than CT25k with [snr_limit] 5. *)
Definition ceilo_settings (old : bool) (model : string) (range_corrected : bool) (noise_min noise_smooth_min : Q)
  (smoothed : bool) : noisy :=
  {| y_limit := 5; y_negatives := get_n_negatives old model; y_smoothed := smoothed; y_keep_negative := false;
     y_fog := true; y_filter_negatives := true; y_snr := true; y_range_corrected := range_corrected;
     y_model := Some model; y_noise_min := noise_min; y_noise_smooth_min := noise_smooth_min |}.

(** ceilo.py 120-126: the models whose backscatter takes the mask of the smoothed one. *)
Definition masked_by_smooth (model : string) (range_corrected : bool) : bool :=
  existsb (fun m => contains m (lower model)) ["cl61"; "chm15k"; "chm15kx"; "cl51"; "cl31"; "da10"]
  && range_corrected.
(** ceilo.py 127-129: [ma.masked_where(mask, beta_raw)], then values of 0 or less are
    masked. *)
Definition final_beta (beta_smooth : image entry) (beta_raw : image Q) : image entry :=
  map2 (map2 (fun e x => (x, hides e || Qle_bool x 0))) beta_smooth beta_raw.
(** cl61d.py 53-55: [x_pol / p_pol] of numpy.ma.  Where the divisor is 0 (or so small
    that the quotient overflows, not modelled) the quotient is masked and its data are
    those of the dividend.  Inputs are not masked. *)
Definition depolarisation (x_pol p_pol : image Q) : image entry :=
  map2 (map2 (fun x p => if Qeq_bool p 0 then (x, true) else ((x / p)%Q, false))) x_pol p_pol.
(** ceilo.py 130-131: the mask is replaced by that of beta. *)
Definition set_mask (mask : image entry) (m : image entry) : image entry :=
  map2 (map2 (fun b e => (raw e, hides b))) mask m.
(** ceilometer.py 117-121, [screen_depol]. *)
Definition screen_depol (m : image entry) : image entry :=
  map (map (fun e => (raw e, hides e || Qle_bool (raw e) 0 || qgt (raw e) 1))) m.

(** ceilo.py 102-129: backscatter and smoothed backscatter of a ceilometer other than
    CT25k. *)
Definition ceilo_beta (smooth : image Q -> image Q) (old : bool) (model : string) (range_corrected : bool)
  (noise_min noise_smooth_min : Q) (range : list Q) (beta_raw : image Q) : result (image entry * image entry) :=
  let c := ceilo_settings old model range_corrected noise_min noise_smooth_min in
  bind (screen_data (c false) range beta_raw beta_raw) (fun beta =>
  bind (calc_beta_smooth (c true) smooth range beta_raw beta) (fun beta_smooth =>
  Ok (if masked_by_smooth model range_corrected then final_beta beta_smooth beta_raw else beta, beta_smooth))).
(** ceilo.py 102-132 for the depolarisation of a CL61, range corrected. *)
Definition cl61_depolarisation (beta : image entry) (x_pol p_pol : image Q) : image entry :=
  screen_depol (set_mask beta (depolarisation x_pol p_pol)).

(** ** Sunbeam *)

(** An entry of the data: the time vector, an image, or anything else. *)
Inductive cvar := CVec (l : list Q) | CImage (m : image entry) | COther (x : Q).
Definition cdict := list (string * cvar).

(** ceilometer.py 146-153: [is_data] of one profile at the gates above 10 km, in 20 bins
    of [n_heights // 20] gates, the rest dropped; fewer than 15 bins with data. *)
Definition valid_profile (range : list Q) (row : list entry) : bool :=
  let high_alt_mask := map (fun r => qgt r 10000) range in
  let is_data := map (fun e => negb (hides e)) (select high_alt_mask row) in
  let bin_size := length is_data / 20 in
  length (filter (fun b => existsb (fun x => x) (firstn bin_size (skipn (b * bin_size) is_data))) (seq 0 20)) <? 15.
(** ceilometer.py 141-157, [screen_sunbeam].  The range is a vector and beta an image,
    other cases raise errors of numpy that are not distinguished. *)
Definition screen_sunbeam (data : cdict) : result cdict :=
  match lookup "range" data with
  | Some (CVec range) =>
      if existsb (fun r => qgt r 10000) range then
        match lookup "beta" data with
        | Some (CImage beta) =>
            let valid_profiles := map (valid_profile range) beta in
            Ok (map (fun kv => let (key, value) := (kv : string * cvar) in
                 (key, match value with
                       | CVec l => if String.eqb key "time" then CVec (select valid_profiles l) else value
                       | CImage m => CImage (select valid_profiles m)
                       | COther _ => value
                       end)) data)
        | Some _ => Raise AttributeError
        | None => Raise KeyError
        end
      else Ok data
  | Some _ => Raise AttributeError
  | None => Raise KeyError
  end.
