(** Vocabulary for the instrument properties, independent of the model's helpers. *)
From Verif Require Import Base.
Open Scope nat_scope.

(** [x] at [i] and [y] at [j] are valid values with nothing but gaps in between. *)
Definition next_valid (l : list (masked Q)) (i j : nat) (x y : Q) : Prop :=
  i < j /\ nth_error l i = Some (Some x) /\ nth_error l j = Some (Some y) /\
  forall k, i < k < j -> nth_error l k = Some None.
(** The counter was reset between [j] and the valid value before it. *)
Definition reset_at (l : list (masked Q)) (j : nat) : Prop :=
  exists i x y, next_valid l i j x y /\ (y < x)%Q.

(** The manual's first encoding: sign(El) (|El| + 1000 Az); from 100 degrees
    elevation on, El - 100 is encoded and 1000000 added. *)
Definition encoded_v1 (ele azi x : Q) : Prop :=
  ((0 <= ele /\ ele < 100 /\ x == ele + 1000 * azi) \/
   (- (100) < ele /\ ele < 0 /\ x == - (- ele + 1000 * azi)) \/
   (100 <= ele /\ ele < 200 /\ x == ele - 100 + 1000 * azi + 1000000))%Q.
(** An azimuth in tenths of degrees. *)
Definition tenths (azi : Q) : Prop :=
  exists k : Z, (0 <= k < 3600)%Z /\ (azi == inject_Z k / 10)%Q.
(** The second encoding: five digits of elevation, five digits of azimuth, both in
    hundredths of degrees, with the sign of the elevation. *)
Definition encoded_v2 (ele azi x : Q) : Prop :=
  exists e a : Z, (0 <= a < 36000)%Z /\ (ele == inject_Z e / 100)%Q /\
    (azi == inject_Z a / 100)%Q /\
    ((0 <= e /\ x == inject_Z (e * 100000 + a))%Z \/
     (e < 0 /\ x == inject_Z (e * 100000 - a)))%Z%Q.

(** Chirp [c] is the last one whose start index is not above gate [g]. *)
Definition chirp_of (starts : list Z) (g c : nat) : Prop :=
  (exists s, nth_error starts c = Some s /\ (s <= Z.of_nat g)%Z) /\
  forall c' s', c < c' -> nth_error starts c' = Some s' -> (Z.of_nat g < s')%Z.
(** Start indices: from the first gate on, not decreasing, inside the profile. *)
Definition good_starts (starts : list Z) (first : Z) (n : nat) : Prop :=
  (exists rest, starts = first :: rest) /\ StronglySorted Z.le starts /\
  Forall (fun s => (s - first <= Z.of_nat n)%Z) starts.
(** One value per gate: gate [g] has the value of its chirp. *)
Definition expanded {A} (starts : list Z) (v : list A) (n : nat) (row : list A) : Prop :=
  length row = n /\
  forall g, g < n -> exists c x, chirp_of starts g c /\
    nth_error v c = Some x /\ nth_error row g = Some x.

(** Arrays that may be given once or once per profile: [x] has [k] values per
    profile, and either [n] profiles or one for all. *)
From Verif Require Import InstrumentModel.
Definition shaped {A} (x : nd A) (n k : nat) : Prop :=
  match x with
  | Nd0 _ => False
  | Nd1 l => List.length l = k
  | Nd2 rows c => c = k /\ Forall (fun r => List.length r = k) rows /\
      (List.length rows = n \/ exists row, rows = [row])
  end.
(** The values of profile [t]. *)
Definition profile_of {A} (x : nd A) (n t : nat) (row : list A) : Prop :=
  match x with
  | Nd0 _ => False
  | Nd1 l => row = l
  | Nd2 rows _ => (List.length rows = n /\ nth_error rows t = Some row) \/ rows = [row]
  end.
(** The values are given per chirp: not one number, not one profile, not gates. *)
Definition by_chirp {A} (x : nd A) (n_height : nat) : Prop :=
  match x with
  | Nd0 _ => False
  | Nd1 l => List.length l <> 1
  | Nd2 rows c => List.length rows <> 1 /\ c <> n_height
  end.

(** The spread of every bin: [n] times the spread of its class. *)
Fixpoint bin_widths (spreads : list Q) (n_values : list nat) : list Q :=
  match spreads, n_values with
  | sp :: spreads', n :: n_values' => (List.repeat sp n ++ bin_widths spreads' n_values')%list
  | _, _ => []
  end.
