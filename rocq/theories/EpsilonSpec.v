(** Specification of the dissipation rate. *)
From Verif Require Import Base TimeModel GridModel GridSpec DropletSpec EpsilonModel.

(** ** The fit *)

(** The pattern of bands of a decade, in thousandths: from 5 to 15, 30 or 50 and so on;
    it is repeated over four decades, without the last two rows of the last one. *)
Definition pattern : list (Z * list Z) := [(5, [15; 30; 50]); (8, [20; 40; 60]); (20, [70; 100; 150]); (30, [100; 200; 300])]%Z.
Definition band_table : list (Q * Q) :=
  firstn 42 (flat_map (fun decade => flat_map (fun row => map (fun hi => (inject_Z (fst row * decade) / 1000, inject_Z (hi * decade) / 1000)%Q) (snd row)) pattern)
    [1; 10; 100; 1000]%Z).
(** Points strictly inside the band, on logarithmic axes. *)
Definition inside (log : Q -> Q) (freq power : list Q) (band : Q * Q) (pts : list (Q * Q)) : Prop :=
  pts = map (fun p => (log (fst p), log (snd p)))
    (filter (fun p => qlt (fst band) (fst p) && qlt (fst p) (snd band)) (combine freq power)).
(** The sum of squares of deviations from a line, and the line that minimises it. *)
Definition deviation (pts : list (Q * Q)) (s c : Q) : Q :=
  fold_right Qplus 0%Q (map (fun p => (snd p - s * fst p - c) * (snd p - s * fst p - c))%Q pts).
Definition least_squares (pts : list (Q * Q)) (s c : Q) : Prop := forall s' c', (deviation pts s c <= deviation pts s' c')%Q.
(** Slopes from -2 to -1.33. *)
Definition inertial (s : Q) : Prop := (-2 < s /\ s < - (133 # 100))%Q.
(** The intercept of a band whose line has such a slope. *)
Definition outcome (log : Q -> Q) (freq power : list Q) (band : Q * Q) (o : masked Q) : Prop :=
  forall pts, inside log freq power band pts ->
  match o with
  | Some c => 2 <= length pts /\ exists s, least_squares pts s c /\ inertial s
  | None => length pts < 2 \/ forall s c, least_squares pts s c -> ~ inertial s
  end.
(** Mean and standard deviation over the bands with an intercept. *)
Definition summary (rate root : Q -> Q) (outs : list (masked Q)) (r : masked (Q * masked Q)) : Prop :=
  let eps := map rate (flat_map (fun o => match o with Some c => [c] | None => [] end) outs) in
  let n := inject_Z (Z.of_nat (length eps)) in
  match r with
  | None => forall o, In o outs -> o = None
  | Some (e, err) => eps <> [] /\ (e * n == fold_right Qplus 0 eps)%Q /\
      match err with
      | None => length eps = 1
      | Some d => 2 <= length eps /\ exists v, d = root v /\ (v * (n - 1) == fold_right Qplus 0 (map (fun x => (x - e) * (x - e)) eps))%Q
      end
  end.
Definition spectrum_estimate (log rate root : Q -> Q) (freq power : list Q) (r : masked (Q * masked Q)) : Prop :=
  exists outs, Forall2 (outcome log freq power) band_table outs /\ summary rate root outs r.

(** ** Pixels *)
Definition valid_count (vel : list (masked Q)) : nat := length (flat_map (fun o => match o with Some c => [c] | None => [] end) vel).
(** Velocities near both ends, and at most about a tenth missing. *)
Definition usable (vel : list (masked Q)) : Prop :=
  (exists i x, i < 2 /\ nth_error vel i = Some (Some x)) /\
  (exists i x, length vel <= i + 2 /\ nth_error vel i = Some (Some x)) /\
  2 <= valid_count vel /\ 9 * length vel < 10 * (valid_count vel + 1).
(** Velocities without gaps. *)
Definition gapless (spline : list (Q * Q) -> Q -> Q) (times : list Q) (vel : list (masked Q)) (out : list Q) : Prop :=
  (vel = map Some out) \/
  (In None vel /\ exists known, known = flat_map (fun p => match snd p with Some v => [(fst p, v)] | None => [] end) (combine times vel) /\ out = map (spline known) times).
(** Wavenumbers and power of the spectrum with [dx] metres between the samples. *)
Definition wave_points (pi : Q) (spectrum : list Q -> list Q) (vel : list Q) (dx : Q) (points : list (Q * Q)) : Prop :=
  exists all, (forall k m, nth_error (spectrum vel) k = Some m -> S k <= length vel / 2 ->
      exists f p, nth_error all k = Some (f, p) /\ (f * (inject_Z (Z.of_nat (length vel)) * dx) == 2 * pi * inject_Z (Z.of_nat (S k)))%Q /\
                  (p * (inject_Z (Z.of_nat (length vel)) * pi) == dx * m)%Q) /\
    length all = Nat.min (length vel / 2) (length (spectrum vel)) /\
    points = filter (fun p => qlt 0 (snd p)) all.
(** The value of a pixel, or the error. *)
Definition pixel_value (log rate root : Q -> Q) (pi : Q) (spectrum : list Q -> list Q) (spline : list (Q * Q) -> Q -> Q)
  (dt : Q) (times : list Q) (vel : list (masked Q)) (wind : masked Q) (r : masked (Q * masked Q)) : Prop :=
  (exists w out points, usable vel /\ wind = Some w /\ (0 < w)%Q /\ ~ (dt == 0)%Q /\ gapless spline times vel out /\
     wave_points pi spectrum out (dt * w) points /\
     ((2 <= length points /\ spectrum_estimate log rate root (map fst points) (map snd points) r) \/
      (length points < 2 /\ r = None))) \/
  (r = None /\ (~ usable vel \/ wind = None \/ exists w, wind = Some w /\ (w <= 0)%Q)).

(** ** Windows *)
(** Product times are the grid times with a profile in the next five minutes. *)
Definition followed (radar_time : list Q) (t : Q) : Prop := exists x, In x radar_time /\ (t < x /\ x <= t + (1 # 12))%Q.
(** The profiles from [a] to [b] are exactly those of the five minutes after [t]. *)
Definition five_minutes (radar_time : list Q) (t : Q) (a b : nat) : Prop :=
  a < b /\ b <= length radar_time /\ forall i x, nth_error radar_time i = Some x -> (a <= i < b <-> (t < x /\ x <= t + (1 # 12))%Q).
(** Seconds between profiles, rounded. *)
Definition seconds_between (radar_time : list Q) (dt : Q) : Prop :=
  exists steps m, steps_of radar_time steps /\ is_median steps m /\ dt = inject_Z (round_half_even (m * 3600)).

(** ** Doppler lidar *)
Definition three_distinct (l : list Q) : Prop := exists a b c, In a l /\ In b l /\ In c l /\ (a < b /\ b < c)%Q.
(** [b] is the distance between the lowest and the highest gate. *)
Definition extent (range : list Q) (d : Q) : Prop :=
  exists lo hi, In lo range /\ In hi range /\ (forall x, In x range -> lo <= x /\ x <= hi)%Q /\ d = (hi - lo)%Q.
(** The part of a column of an image between two rows. *)
Definition column_part (vel : image (masked Q)) (a b j : nat) (v : list (masked Q)) : Prop :=
  length v = b - a /\ forall k, k < b - a -> nth_error v k = pixel vel (a + k) j.
(** The part of a list. *)
Definition part (l : list Q) (a b : nat) (v : list Q) : Prop :=
  length v = b - a /\ forall k, k < b - a -> nth_error v k = nth_error l (a + k).
(** The times of a grid followed by a profile, in the order of the grid. *)
Definition followed_times (grid radar_time out : list Q) : Prop :=
  exists keep, out = filter keep grid /\ forall t, In t grid -> (keep t = true <-> followed radar_time t).
(** A pixel of a wind component, [true] if it is masked. *)
Definition masked_at (f : wind_field) (i j : nat) : Prop := exists m, f_mask f = Some m /\ pixel m i j = Some true.
Definition wind_shape (n m : nat) (f : wind_field) : Prop :=
  (length (f_data f) = n /\ Forall (fun r => length r = m) (f_data f)) /\
  forall mask, f_mask f = Some mask -> length mask = n /\ Forall (fun r => length r = m) mask.
(** A point where both components are known. *)
Definition wind_point (speed : Q -> Q -> Q) (time height : list Q) (u v : wind_field) (p : Q * Q * Q) : Prop :=
  exists i j t h x y, nth_error time i = Some t /\ nth_error height j = Some h /\ pixel (f_data u) i j = Some x /\ pixel (f_data v) i j = Some y /\
    ~ masked_at u i j /\ ~ masked_at v i j /\ p = (t, h, speed x y).
(** Points at three times and three heights at least. *)
Definition enough_points (speed : Q -> Q -> Q) (time height : list Q) (u v : wind_field) : Prop :=
  (exists a b c, wind_point speed time height u v a /\ wind_point speed time height u v b /\ wind_point speed time height u v c /\
     fst (fst a) < fst (fst b) /\ fst (fst b) < fst (fst c))%Q /\
  (exists a b c, wind_point speed time height u v a /\ wind_point speed time height u v b /\ wind_point speed time height u v c /\
     snd (fst a) < snd (fst b) /\ snd (fst b) < snd (fst c))%Q.
