(** Specification of the insect detection, independent of the model's helpers. *)
From Verif Require Import Base InsectModel MeltSpec.
From Coq Require Import String.
Open Scope Q_scope.

(** A distribution function with median 0. *)
Record distribution (cdf : Q -> Q) : Prop := {
  cdf_increasing : forall x y, x <= y -> cdf x <= cdf y;
  cdf_range : forall x, 0 <= cdf x /\ cdf x <= 1;
  cdf_median : cdf 0 == 1 # 2 }.

(** A value is present and above (below) a limit. *)
Definition above (limit : Q) (x : masked Q) : Prop := exists a, x = Some a /\ limit < a.
Definition below (limit : Q) (x : masked Q) : Prop := exists a, x = Some a /\ a < limit.
(** A value is present and at least (at most) a limit. *)
Definition at_least (limit : Q) (x : masked Q) : Prop := exists a, x = Some a /\ limit <= a.
Definition at_most (limit : Q) (x : masked Q) : Prop := exists a, x = Some a /\ a <= limit.
(** A variable that is absent, or satisfies [P]. *)
Definition if_measured (P : masked Q -> Prop) (x : option (masked Q)) : Prop := forall y, x = Some y -> P y.

(** What a probability above one half requires. *)
Definition by_others (radar : string) (p : insect_pixel) : Prop :=
  below (-20) (px_z p) /\ above 274 (px_tw p) /\ above (- (7 # 2)) (px_v p) /\ if_measured (below 1) (px_width p) /\
  (occurs_any_case "mira" radar -> px_lwp p < 15 # 100).
Definition by_ldr (p : insect_pixel) : Prop := exists l, px_ldr p = Some l /\ above (-25) l /\ above 268 (px_tw p).
Definition by_sldr (p : insect_pixel) : Prop :=
  px_ldr p = None /\ exists s, px_sldr p = Some s /\ above 265 (px_tw p) /\
    (above (-25) s \/
     (if_measured (below (3 # 10)) (px_width p) /\
      (above (2 # 10) (px_v_sigma p) \/ (px_v_sigma p = None /\ below (-30) (px_z p))))).
(** The same pixel at a higher temperature. *)
Definition warmer (p q : insect_pixel) : Prop :=
  exists a b, px_tw p = Some a /\ px_tw q = Some b /\ a <= b /\ px_z p = px_z q /\ px_v p = px_v q /\ px_width p = px_width q /\
    px_v_sigma p = px_v_sigma q /\ px_ldr p = px_ldr q /\ px_sldr p = px_sldr q /\ px_lwp p = px_lwp q.
