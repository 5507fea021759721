(** Specification of the melting layer and of the freezing region, independent of
    the model's helpers. *)
From Verif Require Import Base DropletSpec.
From Coq Require Import String Ascii.
Open Scope nat_scope.
Local Notation length := List.length (only parsing).

(** ** Temperature range *)
(** The gates with a temperature strictly between two limits (degrees Celsius). *)
Definition warm_between (cold warm : Q) (tw : list Q) (k : nat) : Prop :=
  exists t, nth_error tw k = Some t /\ (cold + (27316 # 100) < t /\ t < warm + (27316 # 100))%Q.
(** The first and the last of the gates that satisfy [P]. *)
Definition spans (P : nat -> Prop) (a b : nat) : Prop := P a /\ P b /\ forall k, P k -> a <= k <= b.

(** A text occurs in another one, whatever the case of the letters. *)
Definition same_letter (c d : ascii) : Prop :=
  c = d \/ exists n, 65 <= n <= 90 /\ c = ascii_of_nat (n + 32) /\ d = ascii_of_nat n.
Fixpoint same_text (s t : string) : Prop :=
  match s, t with
  | EmptyString, EmptyString => True
  | String c s', String d t' => same_letter c d /\ same_text s' t'
  | _, _ => False
  end.
Definition occurs_any_case (s text : string) : Prop :=
  exists before middle after, text = (before ++ middle ++ after)%string /\ same_text s middle.

(** ** Profiles cut to the gates [a..b] *)
Definition within (a b : nat) (d : profile) : profile :=
  fun k => if (a <=? k) && (k <=? b) then d k else None.
(** The lowest gate of [a..b] with the largest unmasked value. *)
Definition lowest_peak (a b : nat) (row : list (masked Q)) (p : nat) : Prop :=
  a <= p <= b /\ exists x, nth_error row p = Some (Some x) /\
    forall k y, a <= k <= b -> nth_error row k = Some (Some y) -> (y <= x)%Q /\ (k < p -> (y < x)%Q).
(** Number of unmasked values between two gates. *)
Definition values_between {A} (row : list (masked A)) (a b : nat) : nat :=
  length (filter (fun k => match nth_error row k with Some (Some _) => true | _ => false end) (seq a (S b - a))).

(** ** Melting layer from the depolarisation *)
(** Peak, base and top of the linear depolarisation ratio between two gates. *)
Definition ldr_signature (a b : nat) (ldr : list (masked Q)) (p base top : nat) : Prop :=
  lowest_peak a b ldr p /\ base_of (within a b (step_up ldr)) p 10 2 base /\
  top_of (within a b (step_up ldr)) p (S b) 10 2 top.
(** A distinct peak with falling, sufficiently large particles at its base. *)
Definition ldr_distinct (ldr z v : list (masked Q)) (p base : nat) : Prop :=
  exists lp lb zb vb, nth_error ldr p = Some (Some lp) /\ nth_error ldr base = Some (Some lb) /\
    nth_error z base = Some (Some zb) /\ nth_error v base = Some (Some vb) /\
    (4 < lp - lb /\ - (30) < lp /\ - (25) < zb /\ vb < - (3 # 2))%Q.

(** ** Melting layer from the velocity *)
(** The recorded velocity rises or falls from gate [k] to the next one. *)
Definition rises (v : profile) (k : nat) : Prop := exists x y, v k = Some x /\ v (S k) = Some y /\ (x < y)%Q.
Definition falls (v : profile) (k : nat) : Prop := exists x y, v k = Some x /\ v (S k) = Some y /\ (y < x)%Q.
(** No two neighbouring recorded velocities are equal. *)
Definition nonflat (v : profile) : Prop := forall k x y, v k = Some x -> v (S k) = Some y -> ~ (x == y)%Q.
(** The lowest of the longest runs of rising steps between [a] and [b], which must
    start after a falling step [base]; [top] is its last step. *)
Definition longest_rise (v : profile) (a b base top : nat) : Prop :=
  a <= base /\ base < top /\ top < b /\ falls v base /\
  (forall k, base < k -> k <= top -> rises v k) /\
  forall s t, a <= s -> s <= t -> t < b -> (forall k, s <= k -> k <= t -> rises v k) ->
    S t - s <= top - base /\ (t < top -> S t - s < top - base).
(** The rise is strong enough, with a fall speed above 2 m/s at its base. *)
Definition strong_rise (width : option (list (masked Q))) (v : list (masked Q)) (height : list Q) (base top : nat) : Prop :=
  exists vb vt hb ht, nth_error v base = Some (Some vb) /\ nth_error v top = Some (Some vt) /\
    nth_error height base = Some hb /\ nth_error height top = Some ht /\
    (50 < ht - hb /\ ht - hb < 1000 /\ vb < - (2))%Q /\
    match width with
    | None => (2 < vt - vb)%Q
    | Some w => (1 # 2 < vt - vb)%Q /\
        exists wb wt, nth_error w base = Some (Some wb) /\ nth_error w top = Some (Some wt) /\ (1 # 5 < wb - wt)%Q
    end.

(** ** Freezing level *)
(** Altitude where the temperature first falls below 0 C, on the straight line
    between the two gates. *)
Definition freezing_level (height tw : list Q) (alt : Q) : Prop :=
  exists k t h, nth_error tw k = Some t /\ nth_error height k = Some h /\ (t < 27316 # 100)%Q /\
    (forall j s, j < k -> nth_error tw j = Some s -> (27316 # 100 <= s)%Q) /\
    match k with
    | 0 => (alt == h)%Q
    | S j => exists s g, nth_error tw j = Some s /\ nth_error height j = Some g /\
               (alt == g + (h - g) * ((s - (27316 # 100)) / (s - t)))%Q
    end.

(** ** One profile *)
(** The gates of the melting layer of one profile, before smoothing.  [recorded] are
    the velocities with the values under the mask, [v] those with their mask. *)
Definition melting_gate (cold warm : Q) (height tw : list Q) (z v : list (masked Q)) (recorded : profile)
  (ldr width : option (list (masked Q))) (j : nat) : Prop :=
  exists a b, spans (warm_between cold warm tw) a b /\ a < b /\
    (3 < values_between v a b \/ exists l, ldr = Some l /\ 3 < values_between l a b) /\
    ((exists l p base top, ldr = Some l /\ ldr_signature a b l p base top /\ ldr_distinct l z v p base /\
        (base + p) / 2 <= j /\ j < top) \/
     ((forall l p base top, ldr = Some l -> ~ ldr_signature a b l p base top) /\
      exists base top m, longest_rise recorded a b base top /\ strong_rise width v height base top /\
        nearest_integer (inject_Z (Z.of_nat (top - a)) - inject_Z (Z.of_nat top - Z.of_nat base) / 2) (Z.of_nat m) /\
        a + m <= j /\ j < top)).

(** Profile [i] of an optional image. *)
Definition row_at {A} (m : option (image A)) (i : nat) (r : option (list A)) : Prop :=
  match m, r with None, None => True | Some m, Some l => nth_error m i = Some l | _, _ => False end.
(** An image of [n] profiles with [g] gates. *)
Definition shaped {A} (n g : nat) (m : image A) : Prop :=
  length m = n /\ forall i row, nth_error m i = Some row -> length row = g.

(** ** Freezing region *)
(** The heights of the flagged gates of a profile. *)
Fixpoint picked (row : list bool) (height : list Q) : list Q :=
  match row, height with
  | b :: r, h :: hs => if b then h :: picked r hs else picked r hs
  | _, _ => []
  end.
Section Freezing.
  Variables (tw : image Q) (height : list Q) (melting : image bool) (win : nat).
  (** Profile [i] has a melting layer with median altitude [m]. *)
  Definition melting_at (i : nat) (m : Q) : Prop :=
    exists row, nth_error melting i = Some row /\ is_median (picked row height) m.
  Definition no_melting (i : nat) : Prop := exists row, nth_error melting i = Some row /\ picked row height = [].
  (** The freezing level of profile [i] by the model. *)
  Definition level_at (i : nat) (a : Q) : Prop := exists row, nth_error tw i = Some row /\ freezing_level height row a.
  (** [i] is the middle of a window of [win] profiles without melting layer. *)
  Definition quiet (i : nat) : Prop :=
    exists k, i = k + win / 2 /\ k + win < length melting /\ forall q, k <= q -> q < k + win -> no_melting q.
  (** The profiles whose altitude is given: by the melting layer, or by the model at
      the ends and in the middle of quiet windows. *)
  Definition anchor (i : nat) (a : Q) : Prop :=
    melting_at i a \/
    (no_melting i /\ (i = 0 \/ S i = length melting \/ quiet i) /\ level_at i a).
End Freezing.
(** The number of profiles in four hours: times in hours, the median time step. *)
Definition four_hours (time : list Q) (win : nat) : Prop :=
  exists steps d, steps_of time steps /\ is_median steps d /\ (0 < d)%Q /\ nearest_integer (240 / d / 60) (Z.of_nat win).
