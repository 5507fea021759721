(** Specifications for the input files of the categorize product. *)
From Verif Require Import Base.
From Coq Require Import Qabs String.
Open Scope string_scope.
Open Scope nat_scope.
Open Scope list_scope.
Local Notation length := List.length (only parsing).

(** ** Times and heights *)
(** One unit is [f] metres. *)
Definition metres (units : string) (f : Q) : Prop :=
  (units = "km" /\ f = 1000%Q) \/ ((units = "m" \/ units = "meters") /\ f = 1%Q).
(** [h] hours after the start of a day that starts [d] days after the epoch. *)
Definition hours_of_day (t h : Q) : Prop := exists d : Z, (t == inject_Z d * 86400 + h * 3600)%Q.
(** Seconds as hours of the day; a last midnight ends the day. *)
Definition clock (time hours : list Q) : Prop :=
  length time = length hours /\
  forall i t h, nth_error time i = Some t -> nth_error hours i = Some h -> hours_of_day t h /\
    (S i < length time -> (0 <= h /\ h < 24)%Q) /\ (S i = length time -> (0 < h /\ h <= 24)%Q).
Definition visible_values (l : list (masked Q)) : list Q :=
  flat_map (fun x => match x with Some v => [v] | None => [] end) l.
Fixpoint sum (l : list Q) : Q := match l with [] => 0 | x :: r => x + sum r end%Q.
(** [m] is the mean of the list. *)
Definition is_mean (m : Q) (l : list Q) : Prop :=
  l <> [] /\ (m * inject_Z (Z.of_nat (length l)) == sum l)%Q.

(** ** Points of a grid near a given one.  [P i t]: point number [i] is at [t]. *)
(** Point [i] is the nearest one to [x], the lower one of two. *)
Definition nearest_of (P : nat -> Q -> Prop) (x : Q) (i : nat) : Prop :=
  exists t, P i t /\ forall k u, P k u -> (Qabs (x - t) < Qabs (x - u) \/ (Qabs (x - t) == Qabs (x - u) /\ t <= u))%Q.
(** [x] is between the first and the last point. *)
Definition inside (P : nat -> Q -> Prop) (x : Q) : Prop :=
  (exists i a, P i a /\ (a <= x)%Q) /\ (exists i b, P i b /\ (x <= b)%Q).
Definition within (limit : Q) (P : nat -> Q -> Prop) (x : Q) : Prop :=
  exists i t, P i t /\ (Qabs (x - t) <= limit)%Q.
Definition point (l : list Q) (i : nat) (t : Q) : Prop := nth_error l i = Some t.
(** The lidar profiles with at least one visible value. *)
Definition usable (time : list Q) (beta : image (masked Q)) (i : nat) (t : Q) : Prop :=
  nth_error time i = Some t /\ exists j v, pixel beta i j = Some (Some v).

(** A pixel that gets a lidar value: inside the lidar data and near a profile and a gate. *)
Definition lidar_visible time h beta x y := inside (usable time beta) x /\ inside (point h) y /\
  within (1 # 60) (usable time beta) x /\ within 100 (point h) y.

(** ** Microwave radiometer *)
(** A sample that is visible and whose quality flag, if there are flags, is zero. *)
Definition good_lwp (time : list Q) (lwp : list (masked Q)) (flag : option (list (masked Z))) (i : nat) (t x : Q) : Prop :=
  nth_error time i = Some t /\ nth_error lwp i = Some (Some x) /\
  forall f, flag = Some f -> nth_error f i = Some (Some 0%Z).

(** ** Bins *)
(** The point [x] is in bin [k] of [n] equal bins from [lo] to [hi]; the last bin
    contains its upper edge. *)
Definition in_closed_bin (lo hi : Q) (n k : nat) (x : Q) : Prop :=
  let w := ((hi - lo) / inject_Z (Z.of_nat n))%Q in
  (lo + inject_Z (Z.of_nat k) * w <= x)%Q /\
  ((x < lo + (inject_Z (Z.of_nat k) + 1) * w)%Q \/ (S k = n /\ (x == hi)%Q)).

(** ** Interpolation in time.  [P i t v]: sample number [i] at time [t] has value [v]. *)
(** The first sample at its time. *)
Definition first_of (P : nat -> Q -> Q -> Prop) (t v : Q) : Prop :=
  exists i, P i t v /\ forall i' t' v', i' < i -> P i' t' v' -> ~ (t' == t)%Q.
(** Linear between neighbouring samples, constant before the first and after the last. *)
Definition linear_value (S : Q -> Q -> Prop) (t x : Q) : Prop :=
  (forall ta va, S ta va -> (t <= ta)%Q -> (forall tb vb, S tb vb -> (ta <= tb)%Q) -> (x == va)%Q) /\
  (forall tb vb, S tb vb -> (tb <= t)%Q -> (forall ta va, S ta va -> (ta <= tb)%Q) -> (x == vb)%Q) /\
  (forall ta va tb vb, S ta va -> S tb vb -> (ta < tb)%Q -> (forall u v, S u v -> ~ (ta < u /\ u < tb)%Q) ->
     (ta <= t /\ t <= tb)%Q -> (x == va + (vb - va) * ((t - ta) / (tb - ta)))%Q).
(** The value of the nearest sample, the earlier one of two. *)
Definition nearest_sample (S : Q -> Q -> Prop) (t x : Q) : Prop :=
  exists ts, S ts x /\ forall u v, S u v -> (Qabs (t - ts) < Qabs (t - u) \/ (Qabs (t - ts) == Qabs (t - u) /\ ts <= u))%Q.
(** A series on the new times: masked where no sample is within [limit] minutes. *)
Definition on_grid (value : (Q -> Q -> Prop) -> Q -> Q -> Prop) (P : nat -> Q -> Q -> Prop) (limit : Q)
  (time_new : list Q) (out : list (masked Q)) : Prop :=
  length out = length time_new /\
  forall j t, nth_error time_new j = Some t -> exists w, nth_error out j = Some w /\
    (w = None <-> forall i ts v, P i ts v -> (limit / 60 < Qabs (t - ts))%Q) /\
    (forall x, w = Some x -> value (first_of P) t x).
(** A visible sample of a series. *)
Definition visible_sample (time : list Q) (y : list (masked Q)) (i : nat) (t v : Q) : Prop :=
  nth_error time i = Some t /\ nth_error y i = Some (Some v).
(** The visible values at the points of [P], in order. *)
Inductive collected (P : Q -> Prop) : list Q -> list (masked Q) -> list Q -> Prop :=
| collected_nil : collected P [] [] []
| collected_masked x xs ys vs : collected P xs ys vs -> collected P (x :: xs) (None :: ys) vs
| collected_other x y xs ys vs : ~ P x -> collected P xs ys vs -> collected P (x :: xs) (Some y :: ys) vs
| collected_value x y xs ys vs : P x -> collected P xs ys vs -> collected P (x :: xs) (Some y :: ys) (y :: vs).
