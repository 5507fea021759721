(** Model of the insect probabilities of insects.py and of
    [utils.array_to_probability]. *)
From Verif Require Import Base ArrayModel FillModel GridModel TelegramModel MeltModel.
From Coq Require Import String.
Open Scope string_scope.
Open Scope Q_scope.

Section Insects.
  (** The distribution function of the standard normal distribution
      ([scipy.stats.norm.cdf]); the theorems assume only that it is increasing,
      lies between 0 and 1, and is one half at 0. *)
  Variable cdf : Q -> Q.

  (** utils.py 824-853, [array_to_probability], one element: masked values have
      probability 0. *)
  Definition array_to_probability (x : masked Q) (loc scale : Q) (invert : bool) : Q :=
    match x with
    | None => 0
    | Some a => if invert then cdf ((a * -1 - loc * -1) / scale) else cdf ((a - loc) / scale)
    end.

  (** One pixel of the observations: [None] stands for a masked value; the variables
      [width], [ldr] and [sldr] may be absent from the radar file.  [px_v] is the
      smoothed velocity, masked where the velocity is masked (insects.py 96-101);
      [px_lwp] the interpolated liquid water path of the profile. *)
  Record insect_pixel := {
    px_z : masked Q; px_v : masked Q; px_width : option (masked Q); px_v_sigma : masked Q;
    px_ldr : option (masked Q); px_sldr : option (masked Q); px_tw : masked Q; px_lwp : Q }.

  (** insects.py 65-93, [_get_probabilities], the entries by name. *)
  Definition p_width (p : insect_pixel) : Q :=
    match px_width p with Some w => array_to_probability w 1 (3 # 10) true | None => 1 end.
  Definition p_z_weak (p : insect_pixel) : Q := array_to_probability (px_z p) (-20) 8 true.
  Definition p_ldr (l : masked Q) : Q := array_to_probability l (-25) 5 false.
  Definition p_temp_loose (p : insect_pixel) : Q := array_to_probability (px_tw p) 268 2 false.
  Definition p_temp_strict (p : insect_pixel) : Q := array_to_probability (px_tw p) 274 1 false.
  Definition p_v (p : insect_pixel) : Q := array_to_probability (px_v p) (- (7 # 2)) 2 false.
  Definition p_lwp (p : insect_pixel) : Q := array_to_probability (Some (px_lwp p)) (15 # 100) (5 # 100) true.
  Definition p_width_narrow (p : insect_pixel) : Q :=
    match px_width p with Some w => array_to_probability w (3 # 10) (1 # 10) true | None => 1 end.
  Definition p_z_insect (p : insect_pixel) : Q := array_to_probability (px_z p) (-30) 5 true.
  Definition p_temp_sldr (p : insect_pixel) : Q := array_to_probability (px_tw p) 265 3 false.
  Definition p_v_sigma_sldr (p : insect_pixel) : Q := array_to_probability (px_v_sigma p) (2 # 10) (15 # 100) false.

  (** insects.py 104-128, [_calc_prob_from_ldr]. *)
  Definition calc_prob_from_ldr (p : insect_pixel) : Q :=
    match px_ldr p with
    | Some l => p_ldr l * p_temp_loose p
    | None =>
        match px_sldr p with
        | Some s =>
            let p_sldr := p_ldr s in
            let p_echo := if is_masked (px_v_sigma p) then p_z_insect p else 0 in
            let p_proxy := qmax p_sldr (qmax (p_v_sigma_sldr p) p_echo) in
            let p_total := p_proxy * p_width_narrow p * p_temp_sldr p in
            let p_high_sldr := p_sldr * p_temp_loose p in
            assign (qgt p_high_sldr (9 # 10)) p_high_sldr p_total
        | None => 0
        end
    end.

  (** insects.py 131-136, [_calc_prob_from_all], and 139-147, [_adjust_for_radar]. *)
  Definition calc_prob_from_all (p : insect_pixel) : Q :=
    p_z_weak p * p_temp_strict p * p_width p * p_v p.
  Definition adjust_for_radar (radar_type : string) (p : insect_pixel) (prob_from_others : Q) : Q :=
    if contains "mira" (lower radar_type) then prob_from_others * p_lwp p else prob_from_others.

  (** insects.py 56-62, [_insect_probability]: the combined probability and the one
      without depolarisation. *)
  Definition insect_probability (radar_type : string) (p : insect_pixel) : Q * Q :=
    let prob_from_ldr := calc_prob_from_ldr p in
    let prob_from_others := adjust_for_radar radar_type p (calc_prob_from_all p) in
    (qmax prob_from_ldr prob_from_others, prob_from_others).

  (** insects.py 13-53, [find_insects], one profile: the flag and the probability,
      masked where it is 0. *)
  Definition find_insects (prob_lim : Q) (radar_type : string) (pixels : list insect_pixel)
    (melting_layer liquid_layers : list bool) (is_rain : bool) : list (bool * masked Q) :=
    let prob := map (insect_probability radar_type) pixels in
    let insect_prob := screen_insects_row (map fst prob) (map snd prob) melting_layer liquid_layers is_rain in
    map (fun x => (qgt x prob_lim, if Qeq_bool x 0 then None else Some x)) insect_prob.
End Insects.
