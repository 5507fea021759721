(** Specifications for the errors and the sensitivity of the radar. *)
From Verif Require Import Base.
From Coq Require Import Reals.
Open Scope nat_scope.
Open Scope list_scope.
Local Notation length := List.length (only parsing).

(** ** Sensitivity *)

(** The valid values of gate [j] in the profiles with [P], in order; the first profile
    has the number [i]. *)
Inductive gate_values (j : nat) (P : nat -> Prop) : nat -> image (masked Q) -> list Q -> Prop :=
| GateNil i : gate_values j P i [] []
| GateTake i row m v l : P i -> nth_error row j = Some (Some v) ->
    gate_values j P (S i) m l -> gate_values j P i (row :: m) (v :: l)
| GateSkip i row m l : (forall v, P i -> nth_error row j <> Some (Some v)) ->
    gate_values j P (S i) m l -> gate_values j P i (row :: m) l.

(** A thousandth of the way through the ordered values, interpolated. *)
Definition thousandth (l : list Q) (p : Q) : Prop :=
  exists s k r a b, Permutation l s /\ StronglySorted Qle s /\ length l = 1000 * k + r + 1 /\ r < 1000 /\
    nth_error s k = Some a /\ ((r = 0 /\ (p == a)%Q) \/
      (nth_error s (S k) = Some b /\ (1000 * (p - a) == (b - a) * inject_Z (Z.of_nat r))%Q)).
(** The lowest received power: of all valid pixels, without the range correction. *)
Definition lowest_power (z : image (masked Q)) (log_range : list (masked Q)) (p : Q) : Prop :=
  exists ps : list ((nat * nat) * Q), NoDup (map fst ps) /\
    (forall i j v, In ((i, j), v) ps <->
       exists a b, pixel z i j = Some (Some a) /\ nth_error log_range j = Some (Some b) /\ v = (a - b)%Q) /\
    (ps = [] -> p = 0%Q) /\ (ps <> [] -> thousandth (map snd ps) p).
Fixpoint sum (l : list Q) : Q := match l with [] => 0 | x :: r => x + sum r end%Q.

(** ** Error *)

(** The width used: that of the radar, or 0.3 m/s for every echo without such a
    variable. *)
Definition width_used (z : masked R) (width : option (masked R)) (w : R) : Prop :=
  width = Some (Some w) \/ (width = None /\ z <> None /\ w = (3 / 10)%R).
(** The random error with [n] independent pulses and a signal [power - zmin] dB above
    the weakest one. *)
Definition random_error (n zmin power p : R) : Prop :=
  (0 < n)%R /\ (p * sqrt n = 10 / ln 10 * (1 + Rpower 10 ((zmin - power) / 10) / 3))%R.
(** Dwell time of [step] hours, frequency in GHz, light at 3e8 m/s. *)
Definition pulses (step frequency w n : R) : Prop := (n = 48000 * sqrt PI * step * frequency * w)%R.
