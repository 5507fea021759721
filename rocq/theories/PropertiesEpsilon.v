(** Properties C116 to C118: the dissipation rate of turbulent kinetic energy. *)
From Verif Require Import Base ArrayModel TimeModel TimeSpec TimeProofs GridModel GridSpec GridProofs DropletModel DropletSpec
  EpsilonModel EpsilonSpec EpsilonProofs.
From Coq Require Import Lqa.

Lemma product_grid log rate root pi spectrum spline step radar_time height vel wind grid r : time_grid step = Ok grid ->
  append_epsilon log rate root pi spectrum spline grid radar_time height vel wind = r ->
  epsilon_product log rate root pi spectrum spline step radar_time height vel wind = r.
Proof. intros E <-. unfold epsilon_product. rewrite E. reflexivity. Qed.
Lemma product_steps log rate root pi spectrum spline : (0 < pi)%Q -> (forall x y, (0 < x)%Q -> (x < y)%Q -> (log x < log y)%Q) ->
  forall step, (1 <= step)%Z -> forall radar_time height vel wind ts rows,
  ascending radar_time -> length vel = length radar_time -> Forall (fun r => length r = length height) vel ->
  epsilon_product log rate root pi spectrum spline step radar_time height vel wind = Ok (ts, rows) ->
  forall n, (Z.of_nat n * step = 86400)%Z ->
  exists grid, length grid = n /\ (forall i, i < n -> exists x, nth_error grid i = Some x /\ (x == (nat_q i + 1 / 2) * inject_Z step / 3600)%Q) /\
    followed_times grid radar_time ts /\ length rows = length ts /\
    exists dt, (2 <= length radar_time -> seconds_between radar_time dt) /\
    forall i t, nth_error ts i = Some t -> exists a b times r, five_minutes radar_time t a b /\ part radar_time a b times /\ nth_error rows i = Some r /\ length r = length height /\
      forall j h, nth_error height j = Some h -> exists v p, column_part vel a b j v /\ nth_error r j = Some p /\
        pixel_value log rate root pi spectrum spline dt times v (wind t h) p.
Proof.
  intros Pp Ml step Ps rt height vel wind ts rows S L R H n Hn. unfold epsilon_product in H. destruct (time_grid_day_full step n Ps Hn) as (grid & Eg & Lg & _ & _ & Ng).
  apply MpProofs.bind_ok in H. destruct H as (grid' & Eg' & H). assert (grid' = grid) by congruence. subst grid'.
  destruct (product_ok log rate root pi spectrum spline Pp Ml grid rt height vel wind S L R ts rows H) as (F & Lr & P). exists grid. split; [exact Lg|]. split; [exact Ng|]. split; [exact F|]. split; [exact Lr|].
  exists (resolution rt). split; [apply resolution_spec|exact P].
Qed.

(** ** C116: the fit over the bands *)

(** The estimate is the mean over the 42 documented bands of the rates of those bands
    whose least squares line through the points strictly inside has a slope between
    -2 and -1.33; the error is the sample standard deviation. *)
Theorem C116_estimate : forall log rate root freq power, length power = length freq -> strictly_increasing freq ->
  (forall x y, In x freq -> In y freq -> (x < y)%Q -> (log x < log y)%Q) ->
  spectrum_estimate log rate root freq power (epsilon_from_spectrum log rate root freq power).
Proof. intros log rate root freq power. apply estimate. Qed.
Print Assumptions C116_estimate.

(** The line is unique, so the estimate does not depend on how it is found. *)
Theorem C116_line_unique : forall p q rest s c s' c', ~ (fst p == fst q)%Q ->
  least_squares (p :: q :: rest) s c -> least_squares (p :: q :: rest) s' c' -> (s == s' /\ c == c')%Q.
Proof.
  intros p q rest s c s' c' N. set (pts := p :: q :: rest). pose proof (spread_pos p q rest N) as P. fold pts in P. clearbody pts. pose proof (count_pos pts P) as Pn.
  set (s0 := ((Nq pts * Sxy pts - Sx pts * Sy pts) / spread pts)%Q). set (c0 := ((Sy pts - s0 * Sx pts) / Nq pts)%Q).
  assert (S0 : (s0 * spread pts == Nq pts * Sxy pts - Sx pts * Sy pts)%Q) by (unfold s0; field; lra).
  assert (C0 : (c0 * Nq pts == Sy pts - s0 * Sx pts)%Q) by (unfold c0; field; lra).
  assert (U : forall a b, least_squares pts a b -> (a == s0 /\ b == c0)%Q).
  { intros a b L. pose proof (line_unique pts s0 c0 P S0 C0 a b L) as E. split; [exact E|]. pose proof (excess pts s0 c0 P S0 C0 a b) as X. pose proof (line_least pts s0 c0 P S0 C0 a b) as L'. specialize (L s0 c0).
    assert (Z : (deviation pts a b - deviation pts s0 c0 == 0)%Q) by lra. rewrite Z in X. rewrite E in X. destruct (Qeq_dec b c0) as [Y|Y]; [exact Y|exfalso].
    assert (G : (0 < (Nq pts * (b - c0)) * (Nq pts * (b - c0)))%Q) by (apply square_pos; intros W; apply Qmult_integral in W; destruct W; [lra|apply Y; lra]).
    setoid_replace (spread pts * ((s0 - s0) * (s0 - s0)) + (Nq pts * (b - c0) + Sx pts * (s0 - s0)) * (Nq pts * (b - c0) + Sx pts * (s0 - s0)))%Q with (Nq pts * (b - c0) * (Nq pts * (b - c0)))%Q in X by ring. lra. }
  intros L L'. destruct (U s c L) as (U1 & U2), (U s' c' L') as (V1 & V2). split; lra.
Qed.
Print Assumptions C116_line_unique.

(** The comment of the product says that slopes outside -5/3 plus or minus 20 per cent are
    rejected.  A spectrum on a line with the slope -1.332 is accepted, although -1.332 is
    more than 20 per cent (one third) above -5/3. *)
Theorem C116_tolerance_refuted : exists freq power s c,
  strictly_increasing freq /\ length power = length freq /\ Forall2 (fun f p => p == s * f + c)%Q freq power /\ ((1 # 5) * (5 # 3) < s - - (5 # 3))%Q /\
  epsilon_from_spectrum (fun x => x) (fun x => x) (fun x => x) freq power <> None.
Proof.
  exists [6; 7]%Q, [2008 # 1000; 676 # 1000]%Q, (- (1332 # 1000))%Q, 10%Q. split; [|split; [reflexivity|split; [|split; [reflexivity|vm_compute; discriminate]]]].
  - constructor; [constructor; constructor|]. constructor; [reflexivity|constructor].
  - constructor; [reflexivity|]. constructor; [reflexivity|constructor].
Qed.
Print Assumptions C116_tolerance_refuted.

(** Three points on a line of slope -5/3: both bands with these points give the intercept 100. *)
Example C116_nonvacuous : let freq := [42; 45; 48]%Q in let power := map (fun f => (100 - (5 # 3) * f)%Q) freq in
  strictly_increasing freq /\ match epsilon_from_spectrum (fun x => x) (fun x => x) (fun x => x) freq power with Some (e, Some v) => (e == 100 /\ v == 0)%Q | _ => False end.
Proof. split; [repeat constructor|vm_compute; split; reflexivity]. Qed.

(** ** C117: pixels of the product *)

(** Product times are the times of the 30 second grid with a profile in the next five
    minutes.  Every pixel uses exactly the profiles of these five minutes.  It has the
    estimate of the spectrum of the velocities (gaps filled by the spline) if they are
    usable and the wind is positive, and no value otherwise. *)
Theorem C117_pixels : forall log rate root pi spectrum spline, (0 < pi)%Q -> (forall x y, (0 < x)%Q -> (x < y)%Q -> (log x < log y)%Q) ->
  forall radar_time height vel wind ts rows,
  ascending radar_time -> length vel = length radar_time -> Forall (fun r => length r = length height) vel ->
  epsilon_product log rate root pi spectrum spline product_step radar_time height vel wind = Ok (ts, rows) ->
  forall n, (Z.of_nat n * 30 = 86400)%Z ->
  exists grid, length grid = n /\ (forall i, i < n -> exists x, nth_error grid i = Some x /\ (x == (nat_q i + 1 / 2) * 30 / 3600)%Q) /\
    followed_times grid radar_time ts /\ length rows = length ts /\
    exists dt, (2 <= length radar_time -> seconds_between radar_time dt) /\
    forall i t, nth_error ts i = Some t -> exists a b times r, five_minutes radar_time t a b /\ part radar_time a b times /\ nth_error rows i = Some r /\ length r = length height /\
      forall j h, nth_error height j = Some h -> exists v p, column_part vel a b j v /\ nth_error r j = Some p /\
        pixel_value log rate root pi spectrum spline dt times v (wind t h) p.
Proof.
  intros log rate root pi spectrum spline Pp Ml rt height vel wind ts rows S L R H n Hn.
  destruct (product_steps log rate root pi spectrum spline Pp Ml product_step ltac:(unfold product_step; lia) rt height vel wind ts rows S L R H n Hn) as (grid & Lg & Ng & X). exists grid. split; [exact Lg|]. split; [exact Ng|exact X].
Qed.
Print Assumptions C117_pixels.

(** The only failure: the interval between the profiles rounds to zero seconds, and some
    pixel has usable velocities and a positive wind. *)
Theorem C117_errors : forall log rate root pi spectrum spline, (0 < pi)%Q -> (forall x y, (0 < x)%Q -> (x < y)%Q -> (log x < log y)%Q) ->
  forall grid radar_time height vel wind,
  ascending radar_time -> 2 <= length radar_time -> length vel = length radar_time -> Forall (fun r => length r = length height) vel ->
  exists dt, seconds_between radar_time dt /\ forall e,
  append_epsilon log rate root pi spectrum spline grid radar_time height vel wind = Raise e <->
  e = ZeroDivisionError /\ (dt == 0)%Q /\
  exists t j a b v h w, In t grid /\ five_minutes radar_time t a b /\ nth_error height j = Some h /\ column_part vel a b j v /\ usable v /\ wind t h = Some w /\ (0 < w)%Q.
Proof.
  intros log rate root pi spectrum spline Pp Ml grid rt height vel wind S L2 L R. exists (resolution rt). split; [apply resolution_spec, L2|]. intros e.
  apply (product_error log rate root pi spectrum spline Pp Ml grid rt height vel wind S L R e).
Qed.
Print Assumptions C117_errors.

(** Cloud radars with less than half a second between the profiles exist; the product
    cannot be made of them. *)
Theorem C117_fast_radar_refuted : exists radar_time height vel wind, strictly_increasing radar_time /\
  (forall i x y, nth_error radar_time i = Some x -> nth_error radar_time (S i) = Some y -> ((y - x) * 3600 == (4 # 10))%Q) /\
  forall log rate root pi spectrum spline, (0 < pi)%Q -> (forall x y, (0 < x)%Q -> (x < y)%Q -> (log x < log y)%Q) ->
  epsilon_product log rate root pi spectrum spline product_step radar_time height vel wind = Raise ZeroDivisionError.
Proof.
  exists [200 # 36000; 204 # 36000]%Q, [1000%Q], [[Some 1%Q]; [Some 2%Q]], (fun _ _ => Some 10%Q). split; [|split].
  - constructor; [constructor; constructor|]. constructor; [reflexivity|constructor].
  - intros [|[|i]] x y X Y; cbn in X, Y; try discriminate; try (destruct i; discriminate). injection X as <-. injection Y as <-. reflexivity.
  - intros log rate root pi spectrum spline Pp Ml. destruct (time_grid_day_full product_step (Z.to_nat 2880) ltac:(unfold product_step; lia) ltac:(unfold product_step; lia)) as (grid & Eg & Lg & _ & _ & Ng).
    apply (product_grid log rate root pi spectrum spline product_step _ _ _ _ grid _ Eg).
    apply (product_error log rate root pi spectrum spline Pp Ml).
    + constructor; [constructor; constructor|]. constructor; [discriminate|constructor].
    + reflexivity.
    + repeat constructor.
    + split; [reflexivity|]. split; [reflexivity|]. destruct (Ng 0 ltac:(lia)) as (t & Et & Q). exists t, 0, 0, 2, [Some 1%Q; Some 2%Q], 1000%Q, 10%Q.
      assert (Q' : (t == 1 # 240)%Q) by (rewrite Q; reflexivity). split; [apply (nth_error_In _ _ Et)|]. split.
      { split; [lia|]. split; [cbn; lia|]. intros [|[|i]] x X; cbn in X; [injection X as <-|injection X as <-|destruct i; discriminate]; (split; [intros _; split; lra|intros _; lia]). }
      split; [reflexivity|]. split; [split; [reflexivity|]; intros [|[|k]] K; [reflexivity|reflexivity|lia]|]. split; [|split; [reflexivity|reflexivity]].
      split; [exists 0, 1%Q; split; [lia|reflexivity]|]. split; [exists 1, 2%Q; split; [cbn; lia|reflexivity]|]. cbn. lia.
Qed.
Print Assumptions C117_fast_radar_refuted.

(** The comment of the variable promises less than 10 per cent of missing velocities: with
    one of nine missing there is a value.  It also promises five minutes of continuous
    velocities: nine profiles in the first nine seconds give a value. *)
Definition nine_power : list Q := map (fun k => (10 - (15 # 10) * ((6 # 10) * inject_Z k)) * (243 # 10))%Q [1; 2; 3; 4]%Z.
Definition nine_times : list Q := map (fun k => (inject_Z (15 + k) / 3600)%Q) [1; 2; 3; 4; 5; 6; 7; 8; 9]%Z.
Theorem C117_missing_refuted : exists vel r, (length vel = 9 /\ valid_count vel = 8) /\ 10 * (length vel - valid_count vel) >= length vel /\
  epsilon_pixel (fun x => x) Qred (fun x => x) 3 (fun _ => nine_power) (fun _ _ => 0%Q) 1 nine_times vel (Some (10 # 9)) = Ok (Some r).
Proof.
  exists [Some 1%Q; Some 1%Q; None; Some 1%Q; Some 1%Q; Some 1%Q; Some 1%Q; Some 1%Q; Some 1%Q]. eexists. split; [split; reflexivity|]. split; [cbn; lia|]. vm_compute. reflexivity.
Qed.
Print Assumptions C117_missing_refuted.
Theorem C117_continuous_refuted : exists t vel r, (forall x, In x nine_times -> t < x /\ x <= t + (9 # 3600))%Q /\
  append_epsilon (fun x => x) Qred (fun x => x) 3 (fun _ => nine_power) (fun _ _ => 0%Q) [t] nine_times [1000%Q] vel (fun _ _ => Some (10 # 9)%Q) = Ok ([t], [[Some r]]).
Proof.
  exists (15 # 3600)%Q, (repeat [Some 1%Q] 9). eexists. split; [|vm_compute; reflexivity].
  intros x X. cbn in X. repeat (destruct X as [<-|X]; [split; [reflexivity|discriminate]|]). destruct X.
Qed.
Print Assumptions C117_continuous_refuted.

(** The nine profiles give a product with one time, one height and a value. *)
Example C117_nonvacuous : ascending nine_times /\ usable (repeat (Some 1%Q) 9) /\
  exists r, append_epsilon (fun x => x) Qred (fun x => x) 3 (fun _ => nine_power) (fun _ _ => 0%Q) [15 # 3600; 2]%Q nine_times [1000; 2000]%Q (repeat [Some 1%Q; None] 9) (fun _ _ => Some (10 # 9)%Q)
    = Ok ([15 # 3600]%Q, [[Some r; None]]).
Proof.
  split; [|split].
  - unfold nine_times. cbn [map]. repeat (constructor; [|repeat (constructor; [discriminate|]); constructor]). constructor.
  - split; [exists 0, 1%Q; split; [lia|reflexivity]|]. split; [exists 8, 1%Q; split; [cbn; lia|reflexivity]|]. cbn. lia.
  - eexists. vm_compute. reflexivity.
Qed.

(** ** C118: the inputs of the lidar product *)

(** The pulse repetition frequency follows from the distance between the first and the
    last gate: light must travel there and back between the pulses. *)
Theorem C118_pulse_frequency : forall range d, extent range d ->
  ((d < 299792458 / 30000)%Q -> pulse_frequency range = Ok 15000%Q) /\
  ((299792458 / 30000 <= d)%Q -> (d < 299792458 / 20000)%Q -> pulse_frequency range = Ok 10000%Q) /\
  ((299792458 / 20000 <= d)%Q -> pulse_frequency range = Raise ValueError).
Proof. exact pulse_spec. Qed.
Print Assumptions C118_pulse_frequency.
(** A ray ends before its next pulse: the time for the gates is below the pulse interval. *)
Theorem C118_round_trip : forall range d f, extent range d -> pulse_frequency range = Ok f -> (2 * d / 299792458 * f < 1)%Q.
Proof.
  intros range d f E H. destruct (pulse_spec range d E) as (A & B & C).
  assert (C1 : (299792458 / 30000 == 299792458 # 30000)%Q) by reflexivity. assert (C2 : (299792458 / 20000 == 299792458 # 20000)%Q) by reflexivity. rewrite C1 in A, B. rewrite C2 in B, C.
  assert (X : (2 * d / 299792458 * f == d * f * (2 # 299792458))%Q) by field. rewrite X.
  destruct (Qlt_le_dec d (299792458 # 30000)) as [G|G]; [rewrite (A G) in H; assert (f = 15000%Q) by congruence; subst f; lra|].
  destruct (Qlt_le_dec d (299792458 # 20000)) as [K|K]; [rewrite (B G K) in H; assert (f = 10000%Q) by congruence; subst f; lra|]. rewrite (C K) in H. discriminate.
Qed.
Print Assumptions C118_round_trip.
(** The accumulation time of a ray is the one of the file, otherwise the pulses over
    their frequency. *)
Theorem C118_accumulation_time : forall ray_time pulses range x,
  accumulation_time ray_time pulses range = Ok x <->
  ray_time = Some x \/ (ray_time = None /\ exists p f, pulses = Some p /\ pulse_frequency range = Ok f /\ x = (p / f)%Q).
Proof.
  intros ray pulses range x. unfold accumulation_time. destruct ray as [t|].
  - split; [intros H; left; congruence|]. intros [H|(H & _)]; [congruence|discriminate].
  - destruct pulses as [p|].
    + destruct (pulse_frequency range) as [f|e] eqn:E; cbn [bind]; split.
      * intros H. right. split; [reflexivity|]. exists p, f. repeat (split; [reflexivity|]). congruence.
      * intros [H|(_ & p' & f' & P & F & ->)]; [discriminate|]. congruence.
      * discriminate.
      * intros [H|(_ & p' & f' & P & F & ->)]; discriminate.
    + split; [discriminate|]. intros [H|(_ & p' & f' & P & _)]; discriminate.
Qed.
Print Assumptions C118_accumulation_time.

(** The horizontal wind: every pixel has the linear interpolation of the points where both
    components are known, or the nearest of them outside their hull.  It fails exactly if
    there are no points at three times and three heights, or if there is no mask. *)
Theorem C118_wind : forall speed linear nearest time height u v,
  wind_shape (length time) (length height) u -> wind_shape (length time) (length height) v ->
  match horizontal_wind speed linear nearest time height u v with
  | Ok out => enough_points speed time height u v /\ exists points, (forall p, In p points <-> wind_point speed time height u v p) /\
      length out = length time /\ Forall (fun r => length r = length height) out /\
      forall i j t h, nth_error time i = Some t -> nth_error height j = Some h ->
        pixel out i j = Some (match linear points t h with Some x => x | None => nearest points t h end)
  | Raise e => (e = ValueError /\ f_mask u = None /\ f_mask v = None) \/
               (e = ValidTimeStampError /\ (f_mask u <> None \/ f_mask v <> None) /\ ~ enough_points speed time height u v)
  end.
Proof. exact wind_spec. Qed.
Print Assumptions C118_wind.
Theorem C118_wind_succeeds : forall speed linear nearest time height u v,
  wind_shape (length time) (length height) u -> wind_shape (length time) (length height) v ->
  f_mask u <> None \/ f_mask v <> None -> enough_points speed time height u v ->
  exists out, horizontal_wind speed linear nearest time height u v = Ok out.
Proof.
  intros speed linear nearest time height u v Su Sv N E. pose proof (wind_spec speed linear nearest time height u v Su Sv) as W. destruct (horizontal_wind speed linear nearest time height u v) as [out|e]; [exists out; reflexivity|].
  exfalso. destruct W as [(_ & A & B)|(_ & _ & C)]; [destruct N; contradiction|contradiction].
Qed.
Print Assumptions C118_wind_succeeds.

(** A wind file with three times, three heights and nothing missing cannot be used. *)
Definition full_wind (x : Q) : wind_field := {| f_data := repeat (repeat x 3) 3; f_mask := None |}.
Theorem C118_complete_wind_refuted : exists time height u v, wind_shape (length time) (length height) u /\ wind_shape (length time) (length height) v /\
  forall speed, enough_points speed time height u v /\ forall linear nearest, horizontal_wind speed linear nearest time height u v = Raise ValueError.
Proof.
  exists [0; 1; 2]%Q, [100; 200; 300]%Q, (full_wind 1), (full_wind 2). assert (Sh : forall x, wind_shape 3 3 (full_wind x)) by (intros x; split; [split; [reflexivity|repeat constructor]|discriminate]).
  split; [apply Sh|]. split; [apply Sh|]. intros speed. split; [|reflexivity].
  assert (P : forall i t h, nth_error [0; 1; 2]%Q i = Some t -> nth_error [100; 200; 300]%Q i = Some h -> wind_point speed [0; 1; 2]%Q [100; 200; 300]%Q (full_wind 1) (full_wind 2) (t, h, speed 1 2)%Q).
  { intros i t h T H. exists i, i, t, h, 1%Q, 2%Q. split; [exact T|]. split; [exact H|]. assert (I : i < 3) by (change 3 with (length [0; 1; 2]%Q); apply nth_error_Some; congruence).
    split; [destruct i as [|[|[|i]]]; [reflexivity|reflexivity|reflexivity|lia]|]. split; [destruct i as [|[|[|i]]]; [reflexivity|reflexivity|reflexivity|lia]|].
    split; [intros (m & M & _); discriminate|]. split; [intros (m & M & _); discriminate|reflexivity]. }
  split; exists (0, 100, speed 1 2)%Q, (1, 200, speed 1 2)%Q, (2, 300, speed 1 2)%Q; (split; [apply (P 0); reflexivity|]; split; [apply (P 1); reflexivity|]; split; [apply (P 2); reflexivity|]; split; reflexivity).
Qed.
Print Assumptions C118_complete_wind_refuted.

(** One masked pixel: the others are used. *)
Example C118_nonvacuous :
  extent [0; 9000]%Q 9000 /\ pulse_frequency [0; 9000]%Q = Ok 15000%Q /\ pulse_frequency [0; 12000]%Q = Ok 10000%Q /\ pulse_frequency [0; 16000]%Q = Raise ValueError /\
  exists out, horizontal_wind Qplus (fun _ _ _ => None) (fun pts _ _ => inject_Z (Z.of_nat (length pts))) [0; 1; 2]%Q [100; 200; 300]%Q
    {| f_data := repeat (repeat 1%Q 3) 3; f_mask := Some [[true; false; false]; [false; false; false]; [false; false; false]] |} (full_wind 2) = Ok out /\ pixel out 0 0 = Some 8%Q.
Proof.
  split; [exists 0%Q, 9000%Q; split; [left; reflexivity|split; [right; left; reflexivity|split; [|reflexivity]]]; intros x [<-|[<-|[]]]; split; discriminate|].
  split; [reflexivity|]. split; [reflexivity|]. split; [reflexivity|]. eexists. split; [reflexivity|reflexivity].
Qed.
