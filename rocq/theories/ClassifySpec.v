(** Specifications of the classification steps, on pixels. *)
From Verif Require Import Base BitsModel ArraySpec ImageSpec.
Open Scope nat_scope.

(** A measured (unmasked) value at a pixel. *)
Definition measured (m : image (masked Q)) (i j : nat) : Prop := exists x, pixel m i j = Some (Some x).

(** The aerosol flag stands alone. *)
Definition aerosol_alone (c : CategoryBits) : Prop :=
  aerosol c = true -> droplet c = false /\ falling c = false.

(** A liquid layer [b..t] of profile [i] whose radar echo gets stronger from its
    lowest to its highest measured gate and is missing right above the layer. *)
Definition liquid_dominated (z : image (masked Q)) (liquid : image bool) (i b t : nat) : Prop :=
  (exists row, nth_error liquid i = Some row /\ max_run row b t) /\
  pixel z i (S t) = Some None /\
  exists p q x y, b <= p /\ p < q /\ q <= t /\
    pixel z i p = Some (Some x) /\ pixel z i q = Some (Some y) /\ (x < y)%Q /\
    (forall k, b <= k -> k < p -> pixel z i k = Some None) /\
    (forall k, q < k -> k <= t -> pixel z i k = Some None).

(** A cold lidar echo without liquid, high above the ground: ice.  Between 2 and
    4 km at most two of the six gates up to this one may have a lidar echo. *)
Definition cold_lidar_ice (beta : image (masked Q)) (tw : image Q) (height : list Q) (altitude : Q)
  (liquid : image bool) (i j : nat) : Prop :=
  pixel liquid i j = Some false /\ measured beta i j /\
  (exists t, pixel tw i j = Some t /\ (t < (27316 # 100) - 15)%Q) /\
  (2000 <= nth j height 0%Q - altitude)%Q /\
  ((4000 <= nth j height 0%Q - altitude)%Q \/
   ~ exists k1 k2 k3, k1 < k2 /\ k2 < k3 /\ k3 <= j /\ j <= k1 + 5 /\
       measured beta i k1 /\ measured beta i k2 /\ measured beta i k3).

(** A set pixel at or below gate [j] of profile [i]. *)
Definition at_or_above (m : image CategoryBits) (f : CategoryBits -> bool) (i j : nat) : Prop :=
  exists k c, k <= j /\ pixel m i k = Some c /\ f c = true.

(** The pixel turned from insect to falling: nothing else changed. *)
Definition became_falling (c c' : CategoryBits) : Prop :=
  falling c' = true /\ insect c' = false /\
  droplet c' = droplet c /\ freezing c' = freezing c /\ melting c' = melting c /\ aerosol c' = aerosol c.

(** The window looked at above the top [t]: up to [margin] gates above the first
    freezing gate at or above the top, within the profile. *)
Definition liquid_window (freezing_row : list bool) (margin t e : nat) : Prop :=
  exists f, t <= f /\ nth_error freezing_row f = Some true /\
    (forall k, t <= k -> k < f -> nth_error freezing_row k <> Some true) /\
    e = Nat.min (length freezing_row - 1) (f + margin).

(** Gate [j] of profile [i] is added to the liquid layer with top [t]. *)
Definition extends_top (z : image (masked Q)) (freezing_region : image bool) (margin i t j : nat) : Prop :=
  t <= j /\ (forall k, t <= k -> k <= j -> measured z i k) /\
  exists row e k, nth_error freezing_region i = Some row /\ liquid_window row margin t e /\
    j < k /\ k <= e /\ pixel z i k = Some None.

(** [t] is the top gate of a layer of set pixels of profile [i]. *)
Definition top_of (m : image bool) (i t : nat) : Prop :=
  exists row b, nth_error m i = Some row /\ max_run row b t.
