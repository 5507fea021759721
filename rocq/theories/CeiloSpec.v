(** Specifications for the noise screening of ceilometer profiles.  The settings are
    those of the code; nothing else of the model is used except the reading of
    [str.lower]. *)
From Verif Require Import Base TimeSpec RadarSpec MeltModel CeiloModel.
From Coq Require Import Qabs String.
Open Scope string_scope.
Open Scope nat_scope.
Open Scope list_scope.
Local Notation length := List.length (only parsing).

(** ** Signal *)
(** At gates of range [r] the range correction is taken off: everywhere, but for data
    without range correction not at all for CT25k and up to 2400 m for CL31 and CL51. *)
Definition corrected_gate (c : noisy) (r : Q) : Prop :=
  (r < 1000000000000)%Q /\
  (y_range_corrected c = false -> forall m, y_model c = Some m ->
     (lower m = "ct25k" -> r < 0)%Q /\ (lower m = "cl31" \/ lower m = "cl51" -> r < 2400)%Q).
(** The signal at a gate is the value divided by the square of the range in km. *)
Definition signal_at (c : noisy) (r x u : Q) : Prop :=
  (corrected_gate c r -> u * (r * r) == x * 1000000)%Q /\ (~ corrected_gate c r -> u == x)%Q.
Definition signals (c : noisy) (range xs us : list Q) : Prop :=
  length us = length xs /\
  forall i r x, nth_error range i = Some r -> nth_error xs i = Some x ->
    exists u, nth_error us i = Some u /\ signal_at c r x u.

(** ** Noise *)
(** Variance: the mean square of the deviations from the mean. *)
Definition variance (l : list Q) (v : Q) : Prop :=
  exists m, (m * inject_Z (Z.of_nat (length l)) == qsum l)%Q /\
    (v * inject_Z (Z.of_nat (length l)) == qsum (map (fun x => (x - m) * (x - m))%Q l))%Q.
(** [t] is the tenth of [n], rounded to the nearest integer, from half to even. *)
Definition tenth (n t : nat) : Prop :=
  (10 * t < n + 5 /\ n < 10 * t + 5) \/ ((10 * t = n + 5 \/ n = 10 * t + 5) /\ Nat.even t = true).
(** The highest tenth of the gates; all gates if that is none. *)
Definition top_gates (l top : list Q) : Prop :=
  exists low t, l = low ++ top /\ tenth (length l) t /\ (t = 0 -> low = []) /\ (t <> 0 -> length top = t).
Definition top_variance (l : list Q) (v : Q) : Prop := exists top, top_gates l top /\ variance top v.

(** More than [y_negatives] negative signals in a row, ending in gate [k], within the
    gates 5 to 99. *)
Definition negatives_end (c : noisy) (us : list Q) (k : nat) : Prop :=
  y_filter_negatives c = true /\ 5 + y_negatives c <= k /\ k < 100 /\
  forall j, k - y_negatives c <= j -> j <= k -> exists u, nth_error us j = Some u /\ (u < 0)%Q.
(** Hidden because it is weak and such a gate is below or here. *)
Definition hidden_by_negatives (c : noisy) (us : list Q) (i : nat) : Prop :=
  (exists k, k <= i /\ negatives_end c us k) /\ exists u, nth_error us i = Some u /\ (u < 8 # 1000000)%Q.
(** Saturated, usually fog: strong backscatter in the lowest 20 gates or almost no
    variance in the top gates. *)
Definition foggy (c : noisy) (beta_raw : list Q) : Prop :=
  y_fog c = true /\
  (1 # 1000 < qsum (map Qabs (firstn 20 beta_raw)) \/
   exists v, top_variance beta_raw v /\ v < 1 # 1000000000000000)%Q.
(** The strongest signal that is not yet hidden, the lowest one of them. *)
Definition peak (c : noisy) (us : list Q) (p : nat) : Prop :=
  exists u, nth_error us p = Some u /\ ~ hidden_by_negatives c us p /\
    forall k w, nth_error us k = Some w -> ~ hidden_by_negatives c us k ->
      (w <= u)%Q /\ (k < p -> (w < u)%Q).
Definition hidden_by_fog (c : noisy) (beta_raw us : list Q) (i : nat) : Prop :=
  foggy c beta_raw /\ (exists p, peak c us p /\ p <= i) /\
  exists u, nth_error us i = Some u /\ (u < 2 # 1000000)%Q.
(** The square of the noise: 1e-24 if negatives or fog were found, otherwise the
    variance of the signal in the top gates, at least the square of the minimum. *)
Definition noise_square (c : noisy) (beta_raw us : list Q) (q : Q) : Prop :=
  let low := if y_smoothed c then y_noise_smooth_min c else y_noise_min c in
  (((exists k, negatives_end c us k) \/ foggy c beta_raw) -> q == (1 # 1000000000000) * (1 # 1000000000000))%Q /\
  (~ ((exists k, negatives_end c us k) \/ foggy c beta_raw) ->
     exists v, top_variance us v /\ ((low * low <= v /\ q == v) \/ (v < low * low /\ q == low * low)))%Q.
(** [y] is less than [limit] times the noise, the square of which is [q]. *)
Definition weak (limit q y : Q) : Prop :=
  ((0 <= limit /\ (y < 0 \/ y * y < limit * limit * q)) \/
   (limit < 0 /\ y < 0 /\ limit * limit * q < y * y))%Q.
(** The ratio is scaled by 6 where data come without range correction. *)
Definition scaled (c : noisy) (r u y : Q) : Prop :=
  (y_range_corrected c = false /\ corrected_gate c r /\ y == 6 * u)%Q \/
  (~ (y_range_corrected c = false /\ corrected_gate c r) /\ y == u)%Q.
Definition hidden_by_noise (c : noisy) (q r u : Q) : Prop :=
  y_snr c = true /\ exists y, scaled c r u y /\
  ((y_keep_negative c = false /\ weak (y_limit c) q y) \/
   (y_keep_negative c = true /\ (0 <= y_limit c /\ y * y < y_limit c * y_limit c * q)%Q)).

(** The value of gate [i] survives. *)
Definition survives (c : noisy) (range beta_raw us : list Q) (q : Q) (i : nat) : Prop :=
  ~ hidden_by_negatives c us i /\ ~ hidden_by_fog c beta_raw us i /\
  forall r u, nth_error range i = Some r -> nth_error us i = Some u -> ~ hidden_by_noise c q r u.

(** A profile [xs] is screened to [out]: survivors keep their value; the data left under
    the mask are the signal. *)
Definition screened (c : noisy) (range beta_raw xs : list Q) (out : list (Q * bool)) : Prop :=
  length out = length xs /\
  exists us q, signals c range xs us /\ noise_square c beta_raw us q /\
    forall i x u, nth_error xs i = Some x -> nth_error us i = Some u ->
      exists v b, nth_error out i = Some (v, b) /\
        (b = false <-> survives c range beta_raw us q i) /\ (b = false -> v == x)%Q /\ (b = true -> v == u)%Q.

(** ** Final products *)
(** Two images of the same size, related pixel by pixel. *)
Definition pixels {A B} (R : A -> B -> Prop) (m : image A) (m' : image B) : Prop :=
  forall i j x y, pixel m i j = Some x -> pixel m' i j = Some y -> R x y.
(** Models whose backscatter takes the mask of the smoothed backscatter. *)
Definition well_known (model : string) : Prop :=
  exists a b m, lower model = (a ++ m ++ b)%string /\ In m ["cl61"; "chm15k"; "cl51"; "cl31"; "da10"]%list.
(** The settings for a ceilometer: limit 5; 20 negatives for the old instruments, 5 for
    the others. *)
Definition usual (old : bool) (model : string) (corrected smoothed : bool) (m1 m2 : Q) (c : noisy) : Prop :=
  (y_limit c == 5)%Q /\
  (old = true \/ lower model = "ct25k" \/ lower model = "cl31" -> y_negatives c = 20) /\
  (old = false -> lower model <> "ct25k" -> lower model <> "cl31" -> y_negatives c = 5) /\
  y_smoothed c = smoothed /\ y_keep_negative c = false /\ y_fog c = true /\ y_filter_negatives c = true /\
  y_snr c = true /\ y_range_corrected c = corrected /\ y_model c = Some model /\
  y_noise_min c = m1 /\ y_noise_smooth_min c = m2.

(** ** Sunbeam *)
(** The gates above 10 km, from the lowest up. *)
Definition high_gates (range : list Q) (gates : list nat) : Prop :=
  StronglySorted lt gates /\
  forall g, In g gates <-> exists r, nth_error range g = Some r /\ (10000 < r)%Q.
(** Bin [b] of 20 bins of equal numbers of high gates has a visible value. *)
Definition bin_has_data (gates : list nat) (row : list (Q * bool)) (b : nat) : Prop :=
  exists k g x, b * (length gates / 20) <= k /\ k < (b + 1) * (length gates / 20) /\
    nth_error gates k = Some g /\ nth_error row g = Some (x, false).
(** At least 15 of the 20 bins have data. *)
Definition sunbeam (gates : list nat) (row : list (Q * bool)) : Prop :=
  exists bins, NoDup bins /\ length bins = 15 /\ forall b, In b bins -> b < 20 /\ bin_has_data gates row b.
(** What happens to an entry of the data when only the profiles [keep] remain. *)
Definition cut_to (keep : list nat) (nt : nat) (kv kv' : string * cvar) : Prop :=
  fst kv' = fst kv /\
  (forall l, snd kv = CVec l -> fst kv = "time" -> length l = nt -> exists l', snd kv' = CVec l' /\ rows_of keep l l') /\
  (forall l, snd kv = CVec l -> fst kv <> "time" -> snd kv' = CVec l) /\
  (forall m, snd kv = CImage m -> length m = nt -> exists m', snd kv' = CImage m' /\ rows_of keep m m') /\
  (forall x, snd kv = COther x -> snd kv' = COther x).
