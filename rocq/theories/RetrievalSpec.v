(** Specification of the retrievals: the empirical formulas of Hogan et al. 2006 with
    decibels, the lognormal drop size distribution of Frisch et al. 2002, differences along
    the axes of an image. *)
From Verif Require Import Base BitsModel ArraySpec.
From Verif Require StatusSpec.
From Coq Require Import Reals String.
Open Scope string_scope.
Open Scope list_scope.
Open Scope R_scope.

(** Powers of ten, and a ratio in decibels. *)
Definition ten (x : R) : R := Rpower 10 x.
Definition decibels (x : R) : R := 10 * (ln x / ln 10).

(** ** Ice *)

(** The dielectric factor of liquid water of a radar band, and the logarithm of the
    retrieved quantity (g m-3, or kg m-2 times the density) as a function of reflectivity
    in dBZ and temperature in degrees Celsius. *)
Inductive ice_law : string -> string -> R -> (R -> R -> R) -> Prop :=
| water_ka : ice_law "iwc" "Ka" (878 / 1000)
    (fun z t => 242 / 1000000 * z * t - 186 / 10000 * t + 699 / 10000 * z - 163 / 100)
| water_w : ice_law "iwc" "W" (669 / 1000)
    (fun z t => 58 / 100000 * z * t - 706 / 100000 * t + 923 / 10000 * z - 992 / 1000)
| radius_ka : ice_law "ier" "Ka" (878 / 1000)
    (fun z t => - 205 / 1000000 * z * t - 15 / 10000 * t + 16 / 10000 * z - 152 / 100)
| radius_w : ice_law "ier" "W" (669 / 1000)
    (fun z t => - 296 / 1000000 * z * t - 193 / 100000 * t - 1502 / 1000).
(** Ice water content in kg m-3 and effective radius in metres for the reflectivity [z] of
    a radar calibrated with liquid water. *)
Definition water_content (band : string) (z t v : R) : Prop :=
  exists k f, ice_law "iwc" band k f /\ v = ten (f (z + decibels (k / (93 / 100))) t) / 1000.
Definition ice_radius (band : string) (z t v : R) : Prop :=
  exists k f, ice_law "ier" band k f /\ v = ten (f (z + decibels (k / (93 / 100))) t) * (3 / (2 * 917)).
(** Ice whose reflectivity is attenuated by nothing, or corrected for all of it. *)
Definition usable_ice (c : CategoryBits) (q : QualityBits) : Prop :=
  StatusSpec.Ice c /\ ~ StatusSpec.some_uncorrected q.
(** The mean of a column. *)
Definition mean_of (temperature : list (list R)) (gate : nat) (m : R) : Prop :=
  m * INR (List.length temperature) = fold_right (fun row s => nth gate row 0 + s) 0 temperature.

(** ** Droplets *)

(** Reflectivity in mm6 m-3 of [n] droplets per cubic metre with effective radius [r] in
    metres, and their water content in kg m-3, given the reflectivity; the logarithm of the
    sizes is normal with the deviation [sigma]. *)
Definition reflectivity (n sigma r : R) : R := n * (2 * (1000 * r)) ^ 6 * exp (3 * (sigma * sigma)).
Definition liquid (n sigma z : R) : R :=
  PI / 6 * 1000 * (sqrt (n * z) / 1000000000) * exp (- (9 / 2) * (sigma * sigma)).
(** Depth of a gate: distance to the gate below, or to the ground. *)
Definition depth (heights : list R) (g : nat) (d : R) : Prop :=
  match g with
  | O => exists h, nth_error heights 0 = Some h /\ d = h
  | S k => exists a b, nth_error heights k = Some a /\ nth_error heights (S k) = Some b /\ d = b - a
  end.
(** The gates of a layer with a reflectivity. *)
Definition gates_of (z : image (masked R)) (t b e : nat) (gates : list nat) : Prop :=
  NoDup gates /\
  forall g, In g gates <-> (b <= g <= e)%nat /\ exists x, pixel z t g = Some (Some x).
(** The sum of a quantity over gates. *)
Definition sum_over (f : nat -> R) (gates : list nat) : R := fold_right (fun g s => f g + s) 0 gates.

(** ** Differences *)

(** The slope of a function on [0 .. n - 1]: half the difference of the neighbours, at the
    ends the difference to the only neighbour. *)
Definition slope (f : nat -> R) (n i : nat) (s : R) : Prop :=
  (i < n)%nat /\ (2 <= n)%nat /\
  ((i = 0%nat /\ s = f 1%nat - f 0%nat) \/
   (S i = n /\ s = f i - f (i - 1)%nat) \/
   ((0 < i)%nat /\ (S i < n)%nat /\ 2 * s = f (S i) - f (i - 1)%nat)).
(** The value of an image that is zero where it is masked. *)
Definition value_at (m : image (masked R)) (i j : nat) : R :=
  match pixel m i j with Some (Some v) => v | _ => 0 end.
