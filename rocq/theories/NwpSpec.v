(** Specifications for the weather model data. *)
From Verif Require Import Base.
From Coq Require Import String Ascii.
Open Scope string_scope.
Open Scope nat_scope.
Open Scope list_scope.
Local Notation length := List.length (only parsing).

(** The name of a file without its directory. *)
Definition file_of (path name : string) : Prop :=
  exists dir, path = (dir ++ name)%string /\ (forall a b, name <> (a ++ "/" ++ b)%string) /\
    (dir = "" \/ exists d, dir = (d ++ "/")%string).
Definition known_models : list string := ["gdas1"; "icon"; "ecmwf"; "harmonie"; "era5"; "arpege"].

(** ** Lines through the points of [L] *)
Definition point_set := Q -> Q -> Prop.
(** The line through the two points next to [x]; beyond the ends the last two. *)
Definition extended_line (L : point_set) (x v : Q) : Prop :=
  exists a ya b yb, L a ya /\ L b yb /\ (a < b)%Q /\ (forall c yc, L c yc -> (c <= a \/ b <= c)%Q) /\
    ((a <= x)%Q \/ forall c yc, L c yc -> (a <= c)%Q) /\ ((x <= b)%Q \/ forall c yc, L c yc -> (c <= b)%Q) /\
    (v == ya + (yb - ya) * ((x - a) / (b - a)))%Q.
(** The levels of a profile. *)
Definition level (alt values : list Q) : point_set :=
  fun a y => exists k, nth_error alt k = Some a /\ nth_error values k = Some y.
(** Different heights. *)
Definition all_different (l : list Q) : Prop :=
  forall i j a b, i < j -> nth_error l i = Some a -> nth_error l j = Some b -> ~ (a == b)%Q.

(** ** The share of masked data around a point *)
(** [t] is [x], moved to the end of the grid if it is outside. *)
Definition moved_inside (grid : list Q) (x t : Q) : Prop :=
  exists a b, nth_error grid 0 = Some a /\ nth_error grid (length grid - 1) = Some b /\
    (((x < a)%Q /\ (t == a)%Q) \/ ((b < x)%Q /\ (t == b)%Q) \/ ((a <= x /\ x <= b)%Q /\ (t == x)%Q)).
(** [x] is in the interval [i] of the grid, at the share [u] of its length. *)
Definition in_interval (grid : list Q) (x : Q) (i : nat) (u : Q) : Prop :=
  exists a b t, nth_error grid i = Some a /\ nth_error grid (S i) = Some b /\ moved_inside grid x t /\
    (a <= t /\ t <= b)%Q /\ (u * (b - a) == t - a)%Q.
Definition is_hidden (z : image (masked Q)) (i j : nat) (h : Q) : Prop :=
  (pixel z i j = Some None /\ h = 1%Q) \/ ((exists v, pixel z i j = Some (Some v)) /\ h = 0%Q).
(** The masked share of the four corners around a point, weighted by distance. *)
Definition masked_share (x y : list Q) (z : image (masked Q)) (xn yn w : Q) : Prop :=
  exists i u j v h00 h01 h10 h11, in_interval x xn i u /\ in_interval y yn j v /\
    is_hidden z i j h00 /\ is_hidden z i (S j) h01 /\ is_hidden z (S i) j h10 /\ is_hidden z (S i) (S j) h11 /\
    (w == (1 - u) * ((1 - v) * h00 + v * h01) + u * ((1 - v) * h10 + v * h11))%Q.
(** The visible points of a field over [x] and [y]. *)
Definition visible_points (x y : list Q) (z : image (masked Q)) (points : list (Q * Q * Q)) : Prop :=
  forall b a v, In (b, a, v) points <->
    exists i j, nth_error x i = Some a /\ nth_error y j = Some b /\ pixel z i j = Some (Some v).
(** A row of values [value] at the points [ys]: where there is none, the line through the
    others is continued if there are at least two. *)
Definition filled_row (ys : list Q) (value : Q -> option Q) (j : nat) (w : option Q) : Prop :=
  exists y, nth_error ys j = Some y /\
    match value y with
    | Some v => w = Some v
    | None =>
        let known := fun a v => In a ys /\ value a = Some v in
        ((exists a va b vb, known a va /\ known b vb /\ ~ (a == b)%Q) /\ exists v, w = Some v /\ extended_line known y v) \/
        ((forall a va b vb, known a va -> known b vb -> (a == b)%Q) /\ w = None)
    end.
(** The middle between a height and the one below. *)
Definition middles (site : Q) (heights half : list Q) : Prop :=
  length half = length heights /\
  forall j h m, nth_error heights j = Some h -> nth_error half j = Some m ->
    exists below, (m == (h + below) / 2)%Q /\
      ((j = 0 /\ below = site) \/ exists i, j = S i /\ nth_error heights i = Some below).
(** At least two profiles have data. *)
Definition two_profiles (z : image (masked Q)) : Prop :=
  exists i j k l v w, i < j /\ pixel z i k = Some (Some v) /\ pixel z j l = Some (Some w).
(** The fields that are needed at the heights of the grid, and those that are summed along
    the path of the radar beam. *)
Definition level_fields : list string := ["temperature"; "pressure"; "rh"; "q"].
Definition path_fields : list string := ["specific_gas_atten"; "specific_saturated_gas_atten"; "specific_liquid_atten"].
