(** Model of the dissipation rate of turbulent kinetic energy from cloud radars
    (products/epsilon_radar.py) and of the inputs of the one from Doppler lidars
    (products/epsilon_lidar.py).  Floating point numbers are exact rationals, NaN is
    [None].  The Fourier transform, the cubic spline, the logarithm and the power are
    parameters. *)
From Verif Require Import Base ArrayModel TimeModel GridModel DropletModel.
From Coq Require Import Qround.

(** ** The slope of the spectrum *)

(** products/epsilon_radar.py 325-372: the bands in rad per metre. *)
Definition bands : list (Q * Q) :=
  [(5 # 1000, 15 # 1000); (5 # 1000, 30 # 1000); (5 # 1000, 50 # 1000);
   (8 # 1000, 20 # 1000); (8 # 1000, 40 # 1000); (8 # 1000, 60 # 1000);
   (20 # 1000, 70 # 1000); (20 # 1000, 100 # 1000); (20 # 1000, 150 # 1000);
   (30 # 1000, 100 # 1000); (30 # 1000, 200 # 1000); (30 # 1000, 300 # 1000);
   (50 # 1000, 150 # 1000); (50 # 1000, 300 # 1000); (50 # 1000, 500 # 1000);
   (80 # 1000, 200 # 1000); (80 # 1000, 400 # 1000); (80 # 1000, 600 # 1000);
   (200 # 1000, 700 # 1000); (200 # 1000, 1); (200 # 1000, 1500 # 1000);
   (300 # 1000, 1); (300 # 1000, 2); (300 # 1000, 3);
   (500 # 1000, 1500 # 1000); (500 # 1000, 3); (500 # 1000, 5);
   (800 # 1000, 2); (800 # 1000, 4); (800 # 1000, 6);
   (2, 7); (2, 10); (2, 15); (3, 10); (3, 20); (3, 30);
   (5, 15); (5, 30); (5, 50); (8, 20); (8, 40); (8, 60)]%Q.
(** [np.concatenate(([0.0], np.cumsum(l)))]. *)
Fixpoint cumulative (s : Q) (l : list Q) : list Q := s :: match l with [] => [] | x :: r => cumulative (s + x)%Q r end.
(** [c[hi] - c[lo]]. *)
Definition between (c : list Q) (lo hi : nat) : Q := (nth hi c 0 - nth lo c 0)%Q.
(** products/epsilon_radar.py 233-249 for one band: slope and intercept; [None] if the
    slope is not finite.  With fewer than two points the slope is 0/0. *)
Definition fit (log_f log_p freq : list Q) (band : Q * Q) : nat * masked (Q * Q) :=
  let lo := searchsorted_right freq (fst band) in
  let hi := searchsorted_left freq (snd band) in
  let n := (hi - lo)%nat in
  let nq := inject_Z (Z.of_nat n) in
  let sx := between (cumulative 0 log_f) lo hi in
  let sy := between (cumulative 0 log_p) lo hi in
  let sxx := between (cumulative 0 (map2 Qmult log_f log_f)) lo hi in
  let sxy := between (cumulative 0 (map2 Qmult log_f log_p)) lo hi in
  let d := (nq * sxx - sx * sx)%Q in
  (n, if Qeq_bool d 0 then None
      else let slope := ((nq * sxy - sx * sy) / d)%Q in Some (slope, (sy - slope * sx) / nq)%Q).
(** 251-256: a slope of -5/3 within 20 per cent. *)
Definition accepted (r : nat * masked (Q * Q)) : masked Q :=
  match snd r with
  | Some (slope, intercept) =>
      if (2 <=? fst r)%nat && qlt (-2) slope && qlt slope (-(133 # 100)) then Some intercept else None
  | None => None
  end.
Definition flatten {A} (l : list (masked A)) : list A := flat_map (fun o => match o with Some x => [x] | None => [] end) l.
(** Sample variance, [np.std(x, ddof=1) ** 2]. *)
Definition variance (l : list Q) : Q :=
  let m := mean l in
  (fold_right Qplus 0 (map (fun x => (x - m) * (x - m)) l) / inject_Z (Z.of_nat (length l) - 1))%Q.

(** Line 268, [PRODUCT_TIME_STEP_SEC]. *)
Definition product_step : Z := 30.

Section Radar.
  (** Parameters: [np.log10]; [(10 ** x / KOLMOGOROV_CONSTANT) ** 1.5]; [np.sqrt];
      [np.pi]; [np.abs(np.fft.rfft(vel)[1:]) ** 2]; [CubicSpline(x, y)], which wants
      ascending times. *)
  Variables (log10 rate root : Q -> Q) (pi : Q) (spectrum : list Q -> list Q) (spline : list (Q * Q) -> Q -> Q).

  (** products/epsilon_radar.py 218-263, [_epsilon_from_spectrum]: mean and standard
      deviation; [None] for NaN. *)
  Definition epsilon_from_spectrum (freq power : list Q) : masked (Q * masked Q) :=
    let log_f := map log10 freq in
    let log_p := map log10 power in
    match flatten (map (fun b => accepted (fit log_f log_p freq b)) bands) with
    | [] => None
    | l => let eps := map rate l in Some (mean eps, if (2 <=? length eps)%nat then Some (root (variance eps)) else None)
    end.
  (** 205-215, [_periodogram]: wavenumbers and power.  [np.fft.rfftfreq] divides by
      the number of samples and their distance. *)
  Definition periodogram (vel : list Q) (dt wind : Q) : result (list (Q * Q)) :=
    let n := inject_Z (Z.of_nat (length vel)) in
    let dx := (dt * wind)%Q in
    let power := map (fun m => (dx / n) * m / pi)%Q (spectrum vel) in
    if Qeq_bool (n * dx) 0 then Raise ZeroDivisionError
    else let freq := map (fun k => (inject_Z (Z.of_nat k) / (n * dx)) * 2 * pi)%Q (seq 1 (length vel / 2)) in
         Ok (filter (fun p => qlt 0 (snd p)) (combine freq power)).
  (** ** One pixel *)
  Definition missing (v : masked Q) : bool := match v with None => true | Some _ => false end.
  (** [vel] without gaps: 156-158. *)
  Definition filled (times : list Q) (vel : list (masked Q)) : list Q :=
    if existsb missing vel
    then map (spline (flatten (map2 (fun t v => option_map (pair t) v) times vel))) times
    else flatten vel.
  (** [max(2, int(MIN_VALID_FRACTION * time_window.size))]. *)
  Definition min_valid (n : nat) : nat := Nat.max 2 (Z.to_nat (Qfloor ((9 # 10) * inject_Z (Z.of_nat n)))).
  (** 149-174: the loop over heights; [wind] is [None] if not finite. *)
  Definition epsilon_pixel (dt : Q) (times : list Q) (vel : list (masked Q)) (wind : masked Q) : result (masked (Q * masked Q)) :=
    if forallb missing (firstn 2 vel) || forallb missing (skipn (length vel - 2) vel) then Ok None
    else if (length vel - length (filter missing vel) <? min_valid (length times))%nat then Ok None
    else match wind with
         | None => Ok None
         | Some w =>
             if Qle_bool w 0 then Ok None
             else bind (periodogram (filled times vel) dt w) (fun points =>
                  if (length points <? 2)%nat then Ok None
                  else Ok (epsilon_from_spectrum (map fst points) (map snd points)))
         end.
  (** ** The product *)
  (** products/epsilon_radar.py 120: the resolution in full seconds; NaN with fewer than
      two profiles (then no pixel has two values, and the resolution is not used). *)
  Definition resolution (radar_time : list Q) : Q :=
    match median (diffs radar_time) with Some m => inject_Z (round_half_even (m * 3600)) | None => 0%Q end.
  (** 127-138: grid times with profiles in the five minutes after them. *)
  Definition windows (grid radar_time : list Q) : list (Q * (nat * nat)) :=
    filter (fun w => fst (snd w) <? snd (snd w))%nat
      (map (fun t => (t, (searchsorted_right radar_time t, searchsorted_right radar_time (t + (5 # 60))))) grid).
  (** 113-183, [append_epsilon]; [vel] has one row per profile. *)
  Definition append_epsilon (grid radar_time height : list Q) (vel : image (masked Q)) (wind : Q -> Q -> masked Q)
    : result (list Q * image (masked (Q * masked Q))) :=
    let w := windows grid radar_time in
    bind (sequence (map (fun tw =>
            let '(t, (a, b)) := tw in
            sequence (map (fun jh => epsilon_pixel (resolution radar_time) (section a b radar_time)
                                       (map (fun row => nth (fst jh) row None) (section a b vel)) (wind t (snd jh)))
                          (enumerate height))) w)) (fun rows =>
    Ok (map fst w, rows)).
  (** With the grid of line 127. *)
  Definition epsilon_product (step : Z) (radar_time height : list Q) (vel : image (masked Q)) (wind : Q -> Q -> masked Q)
    : result (list Q * image (masked (Q * masked Q))) :=
    bind (time_grid step) (fun grid => append_epsilon grid radar_time height vel wind).
End Radar.

(** ** Doppler lidar *)

(** products/epsilon_lidar.py 172-184, [_infer_pulse_repetition_frequency]; the speed
    of light in metres per second.  [max] and [min] of nothing raise ValueError. *)
Definition pulse_frequency (range : list Q) : result Q :=
  match range with
  | [] => Raise ValueError
  | r0 :: r =>
      let round_trip := (2 * (list_max r0 r - list_min r0 r) / 299792458)%Q in
      if qlt (round_trip / (1 # 15000)) 1 then Ok 15000%Q
      else if qlt (round_trip / (1 # 10000)) 1 then Ok 10000%Q
      else Raise ValueError
  end.
(** 159-169, [_get_options]: the accumulation time of a ray. *)
Definition accumulation_time (ray_time pulses : option Q) (range : list Q) : result Q :=
  match ray_time with
  | Some t => Ok t
  | None => match pulses with
            | Some p => bind (pulse_frequency range) (fun f => Ok (p / f)%Q)
            | None => Raise ValueError
            end
  end.
(** A wind component of the file: data and mask; the mask is one value for everything
    if nothing is missing. *)
Record wind_field := { f_data : image Q; f_mask : option (image bool) }.
(** [umask | vmask]. *)
Definition either_mask (u v : wind_field) : option (image bool) :=
  match f_mask u, f_mask v with
  | None, None => None
  | Some a, None => Some a
  | None, Some b => Some b
  | Some a, Some b => Some (map2 (map2 orb) a b)
  end.
(** 124-156, [_horizontal_wind_from_doppler_lidar_file].  [speed] is the norm,
    [linear] and [nearest] are scipy's interpolators; linear interpolation is NaN
    outside the hull of the points. *)
Definition horizontal_wind (speed : Q -> Q -> Q) (linear : list (Q * Q * Q) -> Q -> Q -> masked Q)
  (nearest : list (Q * Q * Q) -> Q -> Q -> Q) (time height : list Q) (u v : wind_field) : result (image Q) :=
  match either_mask u v with
  | None => Raise ValueError
  | Some mask =>
      let V := map2 (map2 speed) (f_data u) (f_data v) in
      if forallb (forallb (fun b => b)) mask then Raise ValidTimeStampError
      else
      let points := concat (map2 (fun t rows => flatten (map2 (fun h bx => if fst bx : bool then None else Some (t, h, snd bx)) height rows))
                                 time (map2 (@combine bool Q) mask V)) in
      if (length (unique (map (fun p => fst (fst p)) points)) <? 3)%nat || (length (unique (map (fun p => snd (fst p)) points)) <? 3)%nat
      then Raise ValidTimeStampError
      else Ok (map (fun t => map (fun h => match linear points t h with Some x => x | None => nearest points t h end) height) time)
  end.
