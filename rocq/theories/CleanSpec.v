(** Specifications for the cleaning of radar data.  A pixel of a masked array is
    [Some x] if it is visible and [None] if it is masked. *)
From Verif Require Import Base.
Open Scope nat_scope.
Open Scope list_scope.

(** The pixel of profile [i] and gate [j] is visible. *)
Definition shown (m : image (masked Q)) (i j : nat) : Prop := exists x, pixel m i j = Some (Some x).
(** Both images have the same profiles and gates. *)
Definition alike {A B} (m : image A) (m' : image B) : Prop :=
  length m = length m' /\
  forall i r r', nth_error m i = Some r -> nth_error m' i = Some r' -> length r = length r'.
(** [m'] is [m] with exactly the pixels of [p] masked. *)
Definition masked_where (p : nat -> nat -> Prop) (m m' : image (masked Q)) : Prop :=
  alike m m' /\
  forall i j x, pixel m i j = Some x ->
    (p i j /\ pixel m' i j = Some None) \/ (~ p i j /\ pixel m' i j = Some x).
(** [m'] is [m] with some pixels masked: no value is changed or added. *)
Definition thinned (m m' : image (masked Q)) : Prop :=
  alike m m' /\ forall i j x, pixel m' i j = Some (Some x) -> pixel m i j = Some (Some x).

(** ** Speckle *)
(** A visible pixel between two profiles in which the same gate is not visible. *)
Definition lone_in_time (m : image (masked Q)) (i j : nat) : Prop :=
  shown m i j /\ ~ shown m (S i) j /\ (i = 0 \/ ~ shown m (i - 1) j).
(** The lowest gate moves upwards faster than 4 m/s. *)
Definition fast_first_gate (v : image (masked Q)) (i j : nat) : Prop :=
  j = 0 /\ exists x, pixel v i 0 = Some (Some x) /\ (4 < x)%Q.

(** ** Stripes *)
(** The numbers of visible pixels of all profiles, and of all gates below [n]. *)
Definition seen_b (m : image (masked Q)) (i j : nat) : bool :=
  match pixel m i j with Some (Some _) => true | _ => false end.
Definition per_profile (n : nat) (m : image (masked Q)) : list nat :=
  map (fun i => length (filter (seen_b m i) (seq 0 n))) (seq 0 (length m)).
Definition per_gate (n : nat) (m : image (masked Q)) : list nat :=
  map (fun j => length (filter (fun i => seen_b m i j) (seq 0 (length m)))) (seq 0 n).
(** The five numbers before and the five numbers after position [i]. *)
Definition around (c : list nat) (i : nat) : list nat :=
  firstn 5 (skipn (i - 5) c) ++ firstn 5 (skipn (S i) c).
(** The lower and upper quartile of ten numbers, linear between neighbouring ranks. *)
Definition quartiles (l : list nat) (q1 q3 : Q) : Prop :=
  exists x0 x1 x2 x3 x4 x5 x6 x7 x8 x9 : nat,
    Permutation l [x0; x1; x2; x3; x4; x5; x6; x7; x8; x9] /\
    x0 <= x1 /\ x1 <= x2 /\ x2 <= x3 /\ x3 <= x4 /\ x4 <= x5 /\ x5 <= x6 /\ x6 <= x7 /\ x7 <= x8 /\ x8 <= x9 /\
    (4 * q1 == inject_Z (Z.of_nat (3 * x2 + x3)) /\ 4 * q3 == inject_Z (Z.of_nat (x6 + 3 * x7)))%Q.
(** Position [i] is a stripe: at least five positions on both sides, more than 20
    visible pixels, and more than three times the spread of the neighbours (at least
    3) above their upper quartile.  Neighbours without any spread are only accepted if
    they are empty. *)
Definition stripe (c : list nat) (i : nat) : Prop :=
  5 <= i /\ i + 5 < length c /\
  exists q1 q3, quartiles (around c i) q1 q3 /\ ~ (q1 == q3 /\ 0 < q3)%Q /\
    exists x, nth_error c i = Some x /\ 20 < x /\
      (q3 + 3 < inject_Z (Z.of_nat x) /\ q3 + 3 * (q3 - q1) < inject_Z (Z.of_nat x))%Q.
(** The nearest positions on either side that are not stripes. *)
Definition plain_before (c : list nat) (i b : nat) : Prop :=
  b < i /\ ~ stripe c b /\ forall k, b < k -> k < i -> stripe c k.
Definition plain_after (c : list nat) (i a : nat) : Prop :=
  i < a /\ a < length c /\ ~ stripe c a /\ forall k, i < k -> k < a -> stripe c k.
(** Position [k] of stripe [i] is visible, and is not visible in the nearest positions
    that are not stripes. *)
Definition cut_off (c : list nat) (visible : nat -> nat -> Prop) (i k : nat) : Prop :=
  stripe c i /\ visible i k /\
  exists b a, plain_before c i b /\ plain_after c i a /\ ~ visible b k /\ ~ visible a k.
(** Pixels cut off in striped profiles, and in striped gates, of the image [m]. *)
Definition in_striped_profile (c : list nat) (m : image (masked Q)) (i j : nat) : Prop :=
  cut_off c (shown m) i j.
Definition in_striped_gate (c : list nat) (m : image (masked Q)) (i j : nat) : Prop :=
  cut_off c (fun g p => shown m p g) j i.
