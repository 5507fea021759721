(** Specification of the drizzle product: turbulence, the gamma distribution of drop sizes,
    table entries, propagation of errors. *)
From Coq Require Import Reals.
From Verif Require Import Base DrizzleSpec RetrievalSpec.
Open Scope list_scope.
Open Scope R_scope.

(** The gamma function on positive numbers, as far as it matters. *)
Definition gamma_law (g : R -> R) : Prop := forall x, 0 < x -> 0 < g x /\ g (x + 1) = x * g x.
(** The part of the width that turbulence makes up, for horizontal wind [w] and a beam of
    the width [b]: variances grow with the power 2/3 of the length of the sample, which is
    [w + b] for the width and [30 w + b] for the variation of the velocity in 30 seconds. *)
Definition turbulence (w b f : R) : Prop :=
  0 < f /\ f ^ 3 * (30 * w + b) ^ 2 = (1 + f) ^ 3 * (w + b) ^ 2.
(** The beam of half a degree, and the wind. *)
Definition beam_width (h b : R) : Prop := b * 360 = h * PI.
Definition wind (u v w : R) : Prop := 0 <= w /\ w * w = u * u + v * v.
(** The entry of an ascending axis for a value: the first not below it, or the last. *)
Definition entry (axis : list R) (x : R) (i : nat) : Prop :=
  (i < List.length axis)%nat /\
  (forall k y, (k < i)%nat -> nth_error axis k = Some y -> y < x) /\
  (S i = List.length axis \/ exists y, nth_error axis i = Some y /\ x <= y).
Definition ascending (axis : list R) : Prop :=
  forall i j x y, (i < j)%nat -> nth_error axis i = Some x -> nth_error axis j = Some y -> x < y.

(** ** Errors *)

(** A relative error from one in decibels, limited to 100 dB, and back. *)
Definition relative (db : R) : R := ten (Rmin 100 db / 10) - 1.
Definition reported (e : R) : R := decibels (1 + e).
Inductive size := Large | Small | Tiny.
Definition size_of (dia : R) (s : size) : Prop :=
  match s with
  | Large => 1 / 10000 < dia
  | Small => 1 / 100000 < dia <= 1 / 10000
  | Tiny => 0 < dia <= 1 / 100000
  end.
Inductive quantity := Diameter | Content | Flux | Extinction.
(** Scale, weights of the errors of reflectivity and backscatter, error of the shape. *)
Inductive error_law : quantity -> size -> R -> R -> R -> R -> Prop :=
| dia_large : error_law Diameter Large (2 / 7) 1 1 (7 / 100)
| dia_small : error_law Diameter Small (1 / 4) 1 1 (1 / 4)
| dia_tiny : error_law Diameter Tiny (2 / 7) 1 1 (7 / 100)
| content_large : error_law Content Large (1 / 7) 1 6 0
| content_small : error_law Content Small (1 / 4) 1 3 0
| content_tiny : error_law Content Tiny (1 / 7) 1 6 0
| flux_large : error_law Flux Large (1 / 7) 3 4 (7 / 100)
| flux_small : error_law Flux Small (1 / 2) 1 1 (1 / 4)
| flux_tiny : error_law Flux Tiny (1 / 4) 3 1 (1 / 4)
| extinction : forall s, error_law Extinction s (1 / 2) 1 1 0.
(** Independent errors [a], [b] and [c]. *)
Definition combined (a b c e : R) : Prop := 0 <= e /\ e * e = a * a + b * b + c * c.
(** The error of a quantity of a pixel, for errors [z] and [b] of reflectivity and
    backscatter in decibels. *)
Definition error_of (q : quantity) (s : size) (z b e : R) : Prop :=
  exists scale wz wb mu, error_law q s scale wz wb mu /\
    combined (scale * wz * relative z) (scale * wb * relative b) mu e.

(** ** Lookup tables *)

(** Axes [mu] and [dia], tables of flux, velocity and terminal velocity. *)
Definition tabulated (mu dia : list R) (lwf v : list (list R)) (termv : list R) : Prop :=
  ascending mu /\ ascending dia /\ mu <> [] /\ dia <> [] /\
  rectangular lwf (List.length mu) (List.length dia) /\ rectangular v (List.length mu) (List.length dia) /\
  List.length termv = List.length dia.
