(** Specifications for the averages on the model grid and for the bundling of files. *)
From Verif Require Import Base GridSpec TimeSpec SiteModel DownModel.
Open Scope string_scope.
Open Scope nat_scope.
Open Scope list_scope.
Local Notation length := List.length (only parsing).

(** ** Which observations belong to a cell *)

(** Observation time [k] in the time window of model time [i]: the span of the model
    times, half a step longer at both ends, in equal parts. *)
Definition in_time (obs_time model_time : list Q) (i k : nat) : Prop :=
  exists lo hi t, outer_edges model_time lo hi /\ nth_error obs_time k = Some t /\
    in_bin lo hi (length model_time) i t.
(** Limits of level [j]: half way to the neighbours, a whole step beyond the lowest
    and the highest level. *)
Definition bottom (levels : list Q) (j : nat) (e : Q) : Prop :=
  exists a b, (j = 0 /\ nth_error levels 0 = Some a /\ nth_error levels 1 = Some b /\ (e == 2 * a - b)%Q) \/
    (0 < j /\ nth_error levels (j - 1) = Some a /\ nth_error levels j = Some b /\ (2 * e == a + b)%Q).
Definition top (levels : list Q) (j : nat) (e : Q) : Prop :=
  exists a b, (S j = length levels /\ nth_error levels (j - 1) = Some a /\ nth_error levels j = Some b /\ (e == 2 * b - a)%Q) \/
    (S j < length levels /\ nth_error levels j = Some a /\ nth_error levels (S j) = Some b /\ (2 * e == a + b)%Q).
Definition in_level (obs_height levels : list Q) (j l : nat) : Prop :=
  exists lo hi z, bottom levels j lo /\ top levels j hi /\ nth_error obs_height l = Some z /\ (lo <= z /\ z < hi)%Q.
(** Observation time [k] is at most half an hour from the model time, and the wind
    (m/s) carries the air at most half the model resolution (km) in between. *)
Definition carried (resolution : Q) (wind : masked Q) (model_t : Q) (obs_time : list Q) (k : nat) : Prop :=
  exists w t, wind = Some w /\ (0 < w)%Q /\ nth_error obs_time k = Some t /\
    (- (1 # 2) <= t - model_t /\ t - model_t < 1 # 2)%Q /\
    (- (resolution / 2) <= w * (36 # 10) * (t - model_t) /\ w * (36 # 10) * (t - model_t) < resolution / 2)%Q.

(** ** Values of a cell *)

(** The mean of the valid observations; masked if there is none. *)
Definition mean_of (x_in y_in : nat -> Prop) (obs : image (masked Q)) (v : masked Q) : Prop :=
  exists l, window_observations x_in y_in obs l /\
    (l = [] -> v = None) /\
    (l <> [] -> exists m, v = Some m /\ (m * nat_q (length l) == total l)%Q).
(** The fraction of the profiles with a cloudy pixel among those with a valid one. *)
Definition profile_with (P : Q -> Prop) (x_in y_in : nat -> Prop) (obs : image (masked Q)) (k : nat) : Prop :=
  x_in k /\ exists l v, y_in l /\ pixel obs k l = Some (Some v) /\ P v.
Definition area_of (x_in y_in : nat -> Prop) (obs : image (masked Q)) (v : masked Q) : Prop :=
  exists seen cloudy, NoDup seen /\ NoDup cloudy /\
    (forall k, In k seen <-> profile_with (fun _ => True) x_in y_in obs k) /\
    (forall k, In k cloudy <-> profile_with (fun c => (0 < c)%Q) x_in y_in obs k) /\
    (seen = [] -> v = None) /\
    (seen <> [] -> exists m, v = Some m /\ (m * nat_q (length seen) == nat_q (length cloudy))%Q).

(** One row per observation time, one value per observation height. *)
Definition shaped (obs : image (masked Q)) (obs_time obs_height : list Q) : Prop :=
  length obs = length obs_time /\ Forall (fun row => length row = length obs_height) obs.

(** ** Calendar *)

Definition leap_year (y : Z) : Prop :=
  (exists q, y = 400 * q)%Z \/ ((exists q, y = 4 * q)%Z /\ ~ (exists q, y = 100 * q)%Z).
(** Number of days of a month. *)
Definition month_length (y m n : Z) : Prop :=
  (In m [1; 3; 5; 7; 8; 10; 12]%Z /\ n = 31%Z) \/ (In m [4; 6; 9; 11]%Z /\ n = 30%Z) \/
  (m = 2%Z /\ leap_year y /\ n = 29%Z) \/ (m = 2%Z /\ ~ leap_year y /\ n = 28%Z).
(** The day after. *)
Inductive next_day : Z * Z * Z -> Z * Z * Z -> Prop :=
| SameMonth y m d n : month_length y m n -> (1 <= d < n)%Z -> next_day (y, m, d) (y, m, d + 1)%Z
| NewMonth y m n : month_length y m n -> (m < 12)%Z -> next_day (y, m, n) (y, m + 1, 1)%Z
| NewYear y : next_day (y, 12, 31)%Z (y + 1, 1, 1)%Z.

(** Two model times or more, a row of at least two levels for each, a wind for every
    level. *)
Definition covered (model_time : list Q) (model_height : image Q) (wind : image (masked Q)) : Prop :=
  2 <= length model_time /\ length model_time <= length model_height /\
  forall i levels, i < length model_time -> nth_error model_height i = Some levels ->
    2 <= length levels /\ forall j, j < length levels -> exists w, pixel wind i j = Some w.

(** ** Files of a day *)

(** The file can be read and has a time stamp on the date, as seconds since the date in
    its units ([SiteModel.get_epoch] reads that date, a property of its own). *)
Definition dated (current_year : Z) (date : Z * Z * Z) (f : bfile) : Prop :=
  bf_readable f = true /\ exists time units epoch t, bf_time f = Some time /\ bf_units f = Some units /\
    get_epoch current_year units = Ok epoch /\ In t time /\
    on_date (day_number epoch * 86400000000) (day_number date) t.
