(** Specifications for liquid water content and attenuation, on positions. *)
From Verif Require Import Base ArraySpec.
From Coq Require Export Qminmax.
Open Scope nat_scope.

(** Strictly increasing heights above a positive first gate. *)
Definition heights_ok (h : list Q) : Prop :=
  (forall x, nth_error h 0 = Some x -> 0 < x)%Q /\
  forall i x y, nth_error h i = Some x -> nth_error h (S i) = Some y -> (x < y)%Q.

(** Height of gate [j]; the level below gate [j] (the ground below the first). *)
Definition level (h : list Q) (j : nat) : Q := nth j h 0%Q.
Definition below_gate (h : list Q) (j : nat) : Q := match j with 0 => 0%Q | S k => level h k end.

(** Integral over the profile of a quantity given per gate. *)
Fixpoint integrate (h : list Q) (f : nat -> Q) (n : nat) : Q :=
  match n with
  | 0 => 0%Q
  | S k => (integrate h f k + f k * (level h k - below_gate h k))%Q
  end.

(** Value of a masked quantity, zero where masked. *)
Definition value0 (l : list (masked Q)) (j : nat) : Q :=
  match nth_error l j with Some (Some x) => x | _ => 0%Q end.

(** The adiabatic LWC of a profile: in a liquid layer [b..t] the gradient at its base
    times the distance from the level below the base, zero elsewhere. *)
Definition is_adiabatic (row : list bool) (g h : list Q) (adiabatic : nat -> Q) : Prop :=
  (forall j, nth_error row j = Some false -> (adiabatic j == 0)%Q) /\
  forall b t j gb, max_run row b t -> b <= j -> j <= t -> nth_error g b = Some gb ->
    (adiabatic j == gb * (level h j - below_gate h b))%Q.

(** First gate of the cloud the retrieval regards as topmost: the last place where
    liquid starts above a gate without liquid or, in a profile that is liquid
    throughout, the last gate. *)
Definition starts (row : list bool) (b : nat) : Prop :=
  1 <= b /\ nth_error row (b - 1) = Some false /\ nth_error row b = Some true.
Definition topmost_base (row : list bool) (b : nat) : Prop :=
  (starts row b /\ forall k, b < k -> ~ starts row k) \/
  (S b = length row /\ 2 <= length row /\ forall k, k <= b -> nth_error row k = Some true).

(** Of the liquid pixels from [b] on, the lidar sees at least one and the radar none. *)
Definition lidar_only (row radar lidar : list bool) (b : nat) : Prop :=
  (forall k, b <= k -> nth_error row k = Some true -> nth_error radar k = Some false) /\
  exists k, b <= k /\ nth_error row k = Some true /\ nth_error lidar k = Some true.

(** The cloud from [b] on gets its top adjusted: no rain, the lwp is available and
    exceeds the adiabatic one. *)
Definition adjusted (row radar lidar : list bool) (h : list Q) (adiabatic : nat -> Q)
  (lwp : masked Q) (is_rain : bool) (b : nat) : Prop :=
  topmost_base row b /\ lidar_only row radar lidar b /\ is_rain = false /\
  exists l, lwp = Some l /\ (integrate h adiabatic (length row) < Qmax 0 l)%Q.

(** Adiabatic profile with the cloud based at [b] extended linearly up to [t]. *)
Definition extended (adiabatic : nat -> Q) (b t k : nat) : Q :=
  if (b <? k) && (k <=? t) then (adiabatic b * inject_Z (Z.of_nat (k - b + 1)))%Q else adiabatic k.
