(** Liquid water content and radar attenuation: categorize/atmos_utils.py,
    categorize/attenuation.py and attenuations/, products/lwc.py.

    Arithmetic is exact.  [utils.transpose] raises ValueError for fewer than two
    profiles (utils.py 798-803); that check is not modelled. *)
From Verif Require Import Base BitsModel StatusModel ArrayModel FillModel GridModel ImageModel.
Open Scope nat_scope.

(* ------------------------------------------------------------------ *)
(** ** atmos_utils.py: adiabatic liquid water content *)

(** atmos_utils.py 85-108, [get_lwc_change_rate_at_bases]: [gradient] holds
    [atmoslib.adiabatic_lwc_gradient] of every pixel, of which only the bases are
    used.  Any (unmasked) numbers. *)
Definition get_lwc_change_rate_at_bases (gradient : image Q) (is_liquid : image bool) : image Q :=
  map2 (map2 (fun (base : bool) g => assign base g 0%Q)) (find_cloud_bases is_liquid) gradient.

(** [array[mask]]: the selected elements in row-major order. *)
Definition select2 {A} (mask : image bool) (m : image A) : list A := concat (map2 select mask m).

(** [zeros[mask] = values], row by row; what is left of [values] goes on to the
    next row. *)
Fixpoint scatter_row (mask : list bool) (values : list Q) : list Q * list Q :=
  match mask with
  | [] => ([], values)
  | false :: r => let p := scatter_row r values in (0%Q :: fst p, snd p)
  | true :: r =>
      match values with
      | [] => (map (fun _ => 0%Q) mask, [])
      | v :: vs => let p := scatter_row r vs in (v :: fst p, snd p)
      end
  end.
Fixpoint scatter (mask : image bool) (values : list Q) : image Q :=
  match mask with
  | [] => []
  | row :: rest => let p := scatter_row row values in fst p :: scatter rest (snd p)
  end.

(** atmos_utils.py 64-82, [fill_clouds_with_lwc_dz].  The fill runs over the
    selected pixels of all profiles as one vector. *)
Definition fill_clouds_with_lwc_dz (gradient : image Q) (is_liquid : image bool) : result (image Q) :=
  let lwc_dz := get_lwc_change_rate_at_bases gradient is_liquid in
  bind (ffill Qeq_bool 0%Q (select2 is_liquid lwc_dz)) (fun values =>
  Ok (scatter is_liquid values)).

(** atmos_utils.py 111-127, [calc_adiabatic_lwc], one profile. *)
Definition calc_adiabatic_lwc (lwc_dz height_agl : list Q) : list Q :=
  let is_cloud := map (fun x => negb (Qeq_bool x 0)) lwc_dz in
  let cloud_indices := cumsumr (map (fun b : bool => if b then 1%Q else 0%Q) is_cloud) in
  let dz := path_lengths_from_ground height_agl in
  let dz := map2 (fun c p => assign (qlt c 1) 0%Q p) cloud_indices dz in
  map2 Qmult (cumsumr dz) lwc_dz.

(** Sum of a profile ([ma.sum] of unmasked values). *)
Definition total (l : list Q) : Q := fold_right Qplus 0%Q l.

(** atmos_utils.py 148-151, [normalize_lwc_by_lwp], one profile.  The quotient of
    masked arrays is masked where the divisor is zero. *)
Definition normalize_lwc_by_lwp (lwc_adiabatic : list Q) (lwp : masked Q) (height_agl : list Q)
  : list (masked Q) :=
  let path_lengths := path_lengths_from_ground height_agl in
  let theoretical_lwp := total (map2 Qmult lwc_adiabatic path_lengths) in
  let scaling_factor :=
    match lwp with
    | Some x => if Qeq_bool theoretical_lwp 0 then None else Some (x / theoretical_lwp)%Q
    | None => None
    end in
  map (fun x => option_map (fun s => (x * s)%Q) scaling_factor) lwc_adiabatic.

(** [lwp[lwp < 0] = 0] (lwc.py 102, liquid_attenuation.py 59). *)
Definition clip_lwp (lwp : masked Q) : masked Q :=
  match lwp with Some x => Some (if qlt x 0 then 0%Q else x) | None => None end.

(* ------------------------------------------------------------------ *)
(** ** products/lwc.py: class Lwc *)

(** lwc.py 143-176, the variable [lwc] of one profile, from the filled gradients. *)
Definition lwc_profile (lwc_dz height_agl : list Q) (lwp : masked Q) (is_rain : bool) : list (masked Q) :=
  let lwc_adiabatic := calc_adiabatic_lwc lwc_dz height_agl in
  let lwc := normalize_lwc_by_lwp lwc_adiabatic (clip_lwp lwp) height_agl in
  map (fun x => assign is_rain None x) lwc.
Definition lwc_field (gradient : image Q) (is_liquid : image bool) (height_agl : list Q)
  (lwp : list (masked Q)) (is_rain : list bool) : result (image (masked Q)) :=
  bind (fill_clouds_with_lwc_dz gradient is_liquid) (fun lwc_dz =>
  Ok (mapi_from (fun i row => lwc_profile row height_agl (nth i lwp None) (nth i is_rain false)) 0 lwc_dz)).

(* ------------------------------------------------------------------ *)
(** ** products/lwc.py: class CloudAdjustor, one profile *)

(** lwc.py 257-263, [_find_topmost_clouds].  [np.argmax] of an array without True
    is 0, so without an edge everything below the last gate is cleared.  (A profile
    with fewer than two gates makes argmax raise ValueError.) *)
Definition find_topmost_clouds (is_liquid : list bool) : result (list bool) :=
  let n := length is_liquid in
  let cloud_edges := rev (map2 (fun a b => negb a && b) (removelast is_liquid) (skipn 1 is_liquid)) in
  bind (argmax_bool cloud_edges) (fun k =>
  let base := n - 1 - k in
  Ok (mapi_from (fun j b => assign (j <? base) false b) 0 is_liquid)).

(** lwc.py 265-269: 1 lidar, 2 radar, 3 both, in liquid. *)
Definition find_echo_combinations (is_liquid radar_echo lidar_echo : list bool) : list Z :=
  map2 (fun (b : bool) (e : bool * bool) => (Z.b2z (b && snd e) + Z.b2z (b && fst e) * 2)%Z)
       is_liquid (combine radar_echo lidar_echo).

(** lwc.py 271-284: the number of detected pixels divided by the sum of the types is
    one; 0/0 is not. *)
Definition find_lidar_only (detection : list Z) : bool :=
  let sum_of_cloud_pixels := Z.of_nat (length (filter (fun d => (0 <? d)%Z) detection)) in
  let sum_of_detection_type := fold_right Z.add 0%Z detection in
  (sum_of_cloud_pixels =? sum_of_detection_type)%Z && negb (sum_of_detection_type =? 0)%Z.

(** lwc.py 293-300 and 286-291: theoretical minus measured is negative and there is
    no rain; a masked lwp never is. *)
Definition is_dubious (lwc_adiabatic path_lengths : list Q) (lwp : masked Q) (is_rain : bool) : bool :=
  match lwp with
  | None => false
  | Some x => qlt (total (map2 Qmult lwc_adiabatic path_lengths) - x) 0 && negb is_rain
  end.

(** lwc.py 249-255, [_find_adjustable_clouds]. *)
Definition find_adjustable_clouds (is_liquid radar_echo lidar_echo : list bool)
  (lwc_adiabatic path_lengths : list Q) (lwp : masked Q) (is_rain : bool) : result (list bool) :=
  bind (find_topmost_clouds is_liquid) (fun top_clouds =>
  let detection := find_echo_combinations is_liquid radar_echo lidar_echo in
  let detection := map2 (fun (t : bool) d => assign (negb t) 0%Z d) top_clouds detection in
  let top_clouds := map (fun b => assign (negb (find_lidar_only detection)) false b) top_clouds in
  Ok (map (fun b => assign (negb (is_dubious lwc_adiabatic path_lengths lwp is_rain)) false b) top_clouds)).

(** [array[j] = v], IndexError outside. *)
Definition set_at {A} (l : list A) (j : nat) (v : A) : result (list A) :=
  if j <? length l then Ok (mapi_from (fun k x => assign (k =? j) v x) 0 l) else Raise IndexError.

(** lwc.py 242-244. *)
Definition has_converged (lwc_adiabatic path_lengths : list Q) (lwp : Q) : bool :=
  qlt lwp (total (map2 Qmult lwc_adiabatic path_lengths)).

(** lwc.py 229-240, [_adjust_lwc]: the loop, with the distance from the base.  The
    fuel is the number of passes allowed; [None] means that the loop would go on. *)
Fixpoint adjust_lwc (fuel : nat) (path_lengths : list Q) (lwp : Q) (lwc_base : Q) (base_ind distance : nat)
  (lwc_adiabatic : list Q) (status : list Z) : option (result (list Q * list Z)) :=
  match fuel with
  | 0 => None
  | S f =>
      let top_ind := base_ind + distance in
      let lwc_top := (lwc_base * inject_Z (Z.of_nat (distance + 1)))%Q in
      match set_at lwc_adiabatic top_ind lwc_top with
      | Raise e => Some (Raise e)
      | Ok lwc' =>
          match nth_error status top_ind with
          | None => Some (Raise IndexError)
          | Some s =>
              let status' := mapi_from (fun k x => assign ((k =? top_ind) && (s =? 0)%Z) 3%Z x) 0 status in
              if has_converged lwc' path_lengths lwp || (length lwc' - 1 <=? top_ind)
              then Some (Ok (lwc', status'))
              else adjust_lwc f path_lengths lwp lwc_base base_ind (S distance) lwc' status'
          end
      end
  end.

(** lwc.py 196-240: the status of one profile.  The loop gets as many passes as the
    profile has gates (LwcProofs shows that this is enough). *)
Definition lwc_status_profile (lwc_dz height_agl : list Q) (is_liquid radar_echo lidar_echo : list bool)
  (lwp : masked Q) (is_rain : bool) : option (result (list Z)) :=
  let lwp := clip_lwp lwp in
  let path_lengths := path_lengths_from_ground height_agl in
  let lwc_adiabatic := calc_adiabatic_lwc lwc_dz height_agl in
  let status := map (fun b => assign b 1%Z 0%Z) is_liquid in
  let final := fun status =>
    let status := map (fun s => assign is_rain 4%Z s) status in
    map (fun s => assign (is_masked lwp) 4%Z s) status in
  match find_adjustable_clouds is_liquid radar_echo lidar_echo lwc_adiabatic path_lengths lwp is_rain with
  | Raise e => Some (Raise e)
  | Ok adjustable =>
      match where1 adjustable, lwp with
      | base_ind :: _, Some x =>
          let status := map2 (fun (b : bool) s => assign b 2%Z s) is_liquid status in
          match nth_error lwc_adiabatic base_ind with
          | None => Some (Raise IndexError)
          | Some lwc_base =>
              option_map (fun r => bind r (fun p => Ok (final (snd p))))
                (adjust_lwc (length is_liquid) path_lengths x lwc_base base_ind 1 lwc_adiabatic status)
          end
      | _, _ => Some (Ok (final status))
      end
  end.

(* ------------------------------------------------------------------ *)
(** ** attenuations/ *)

(** A masked array element with the number under the mask. *)
Notation cell := (Q * bool)%type (only parsing).
Definition to_masked (c : cell) : masked Q := if snd c then None else Some (fst c).

(** [ma.cumsum]: masked elements count as 0 and stay masked; the data under the mask
    is the running sum. *)
Fixpoint ma_cumsum_from (s : Q) (l : list cell) : list cell :=
  match l with
  | [] => []
  | (x, m) :: r => let s' := (if m then s + 0 else s + x)%Q in (s', m) :: ma_cumsum_from s' r
  end.
(** Product of a masked array and an unmasked number: masked elements keep their
    data. *)
Definition ma_scale (f : Q) (c : cell) : cell := if snd c then c else ((fst c * f)%Q, false).

(** attenuations/__init__.py 28-37, [calc_two_way_attenuation], one profile
    (constants.py 27 and 39: M_TO_KM, TWO_WAY). *)
Definition calc_two_way_attenuation (height_agl : list Q) (specific_attenuation : list cell) : list cell :=
  let path_lengths := map (fun p => (p * (1 # 1000))%Q) (path_lengths_from_ground height_agl) in
  let one_way_attenuation := map2 (fun c p => ma_scale p c) specific_attenuation path_lengths in
  let accumulated_attenuation := ma_cumsum_from 0 one_way_attenuation in
  map (ma_scale 2) accumulated_attenuation.

(** attenuations/__init__.py 12-17, one profile; the error is a multiple of the
    amount and left out. *)
Record Attenuation := {
  amount : list (masked Q); attenuated : list bool; uncorrected : list bool }.

(** attenuations/gas_attenuation.py 10-30. *)
Definition calc_gas_attenuation (height_agl : list Q) (specific saturated : list cell) (droplet_row : list bool)
  : Attenuation :=
  let specific := map2 (fun (b : bool) (p : cell * cell) => assign b (snd p) (fst p))
                       droplet_row (combine specific saturated) in
  let two_way := map to_masked (calc_two_way_attenuation height_agl specific) in
  {| amount := two_way; attenuated := map (fun _ => true) two_way; uncorrected := map (fun _ => false) two_way |}.

(** attenuations/rain_attenuation.py 15-63.  [rate] is the disdrometer's rainfall
    rate: [None] without a disdrometer, [Some None] for a masked value.  [specific]
    is [atmoslib.rain_specific_attenuation] of one rate; a masked rate gives a masked
    value with [junk] under the mask. *)
Definition calc_rain_attenuation (specific : Q -> Q) (junk : Q) (height_agl : list Q)
  (rate : option (masked Q)) (is_rain : Z) (freezing_row : list bool) : Attenuation :=
  let rainy := negb (is_rain =? 0)%Z in
  let affected_region := map (fun _ => true && rainy) freezing_row in
  let inducing_region := map (fun f => negb f && rainy) freezing_row in
  match rate with
  | None => {| amount := map (fun _ => None) freezing_row;
               attenuated := affected_region; uncorrected := affected_region |}
  | Some r =>
      let r := assign (is_rain =? 0)%Z None r in
      let specific_attenuation := match r with Some x => (specific x, false) | None => (junk, true) end in
      let two_way := calc_two_way_attenuation height_agl (map (fun _ => specific_attenuation) freezing_row) in
      let two_way := map2 (fun (b : bool) c => assign (negb b) (0%Q, false) c) inducing_region two_way in
      let filled := ffill_list Qeq_bool 0%Q (map fst two_way) in
      {| amount := map (fun x => if Qeq_bool x 0 then None else Some x) filled;
         attenuated := affected_region; uncorrected := map (fun _ => false) affected_region |}
  end.

(** utils.py 778-795, [get_wl_band], as one of the three bands (see InstrumentModel
    for the limits). *)
Inductive band := X_band | Ka_band | W_band.

(** attenuations/melting_attenuation.py 12-78.  [formula b r] is
    [a * (r * M_S_TO_MM_H) ** b] with the coefficients of the band; ValueError for any
    band but Ka and W (75-77). *)
Definition calc_melting_attenuation (formula : band -> Q -> Q) (b : band)
  (rate : option (masked Q)) (is_rain : Z) (freezing_row melting_row : list bool) : result Attenuation :=
  let no_rain := (is_rain =? 0)%Z in
  match rate with
  | None =>
      let above_melting := ffill_bool melting_row in
      let affected_region := map2 (fun a f => assign (negb a) false f) above_melting freezing_row in
      let affected_region := map (fun f => assign no_rain false f) affected_region in
      Ok {| amount := map (fun _ => None) freezing_row;
            attenuated := affected_region; uncorrected := affected_region |}
  | Some r =>
      match b with
      | X_band => Raise ValueError
      | _ =>
          let r := if no_rain then Some 0%Q else r in
          let attenuation := option_map (formula b) r in
          let am := map (fun f : bool => option_map (fun a => ((if f then 1 else 0) * a)%Q) attenuation) freezing_row in
          let is_zero := map (fun x : masked Q => match x with Some y => Qeq_bool y 0 | None => false end) am in
          let affected_region := map2 (fun (z f : bool) => assign z false f) is_zero freezing_row in
          let am := map2 (fun (z : bool) x => assign z None x) is_zero am in
          Ok {| amount := am; attenuated := affected_region;
                uncorrected := map2 (fun (f : bool) x => f && is_masked x) affected_region am |}
      end
  end.

(** attenuations/liquid_attenuation.py 19-52 and 54-84.  [lwc_dz] comes from
    [fill_clouds_with_lwc_dz]; [rate] is the model's specific attenuation.  Without a
    radiometer the lwp is masked (29-31).  KG_TO_G = 1000. *)
Definition calc_liquid_attenuation (rate : list cell) (height_agl lwc_dz : list Q) (lwp : masked Q)
  (droplet_row : list bool) : Attenuation :=
  let lwc_adiabatic := calc_adiabatic_lwc lwc_dz height_agl in
  let lwc_scaled := normalize_lwc_by_lwp lwc_adiabatic (clip_lwp lwp) height_agl in
  let specific := map2 (fun (c : cell) (l : masked Q) =>
      match l with
      | Some x => if snd c then c else ((fst c * x * 1000)%Q, false)
      | None => (fst c, true)
      end) rate lwc_scaled in
  let two_way := map to_masked (calc_two_way_attenuation height_agl specific) in
  let att := ffill_bool droplet_row in
  let two_way := map2 (fun (a : bool) x => assign (negb a) None x) att two_way in
  {| amount := two_way; attenuated := att; uncorrected := map2 (fun (a : bool) x => a && is_masked x) att two_way |}.

(** attenuation.py 13-31, [get_attenuations]: no liquid correction in rain. *)
Definition screen_liquid (rain liquid : Attenuation) : Attenuation :=
  {| amount := map2 (fun (r : bool) x => assign r None x) (attenuated rain) (amount liquid);
     attenuated := map2 (fun (r : bool) x => assign r false x) (attenuated rain) (attenuated liquid);
     uncorrected := map2 (fun (r : bool) x => assign r false x) (attenuated rain) (uncorrected liquid) |}.

(** classify.py 108-126, [fetch_quality]: the corrected flag of one kind. *)
Definition corrected (a : Attenuation) : list bool :=
  map2 (fun at_ un => at_ && negb un) (attenuated a) (uncorrected a).

(** radar.py 210-228, [correct_atten].  [z_corrected[ind] += amount[ind]] where the
    amount is unmasked and not zero. *)
Definition add_amount (z : list (masked Q)) (am : list (masked Q)) : list (masked Q) :=
  map2 (fun (x a : masked Q) =>
    match a with
    | Some y => if Qeq_bool y 0 then x else option_map (fun v => (v + y)%Q) x
    | None => x
    end) z am.
Definition correct_atten (z : list (masked Q)) (gas liquid rain melt : Attenuation) : list (masked Q) :=
  let z_corrected := map2 (fun (x a : masked Q) =>
    match x, a with Some v, Some y => Some (v + y)%Q | _, _ => None end) z (amount gas) in
  add_amount (add_amount (add_amount z_corrected (amount liquid)) (amount rain)) (amount melt).
