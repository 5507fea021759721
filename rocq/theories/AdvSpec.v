(** Vocabulary for the model fields and the cirrus filter of the model evaluation. *)
From Coq Require Import QArith Sorted.
From Verif Require Import Base OutputModel AdvModel.
Local Open Scope string_scope.
Local Open Scope nat_scope.
Local Open Scope list_scope.
Local Notation length := List.length (only parsing).

Definition at2 {A} (x : image A) (i j : nat) (a : A) : Prop := exists row, nth_error x i = Some row /\ nth_error row j = Some a.
(** All profiles have [n] values; the heights do not fall with the level. *)
Definition rectangular {A} (n : nat) (x : image A) : Prop := forall row, In row x -> length row = n.
Definition upwards (rows : image Q) : Prop := forall row, In row rows -> StronglySorted Qle row.
Definition unit_factor (units : string) (k : Q) : Prop := (units = "km" /\ k = 1000%Q) \/ ((units = "m" \/ units = "meters") /\ k = 1%Q).
(** A level is used if it is below 22 km in some profile. *)
Definition low_level (rows : image Q) (k : Q) (j : nat) : Prop := exists i x, at2 rows i j x /\ (x * k < 22000)%Q.
(** A variable of the file. *)
Definition variable (f : model_file) (name : string) (x : image Q) : Prop :=
  exists l r, mf_fields f = l ++ (name, x) :: r /\ ~ In name (map fst l).
Definition lacks (f : model_file) (name : string) : Prop := ~ In name (map fst (mf_fields f)).
(** The value of a variable that a file need not have. *)
Definition extra (f : model_file) (name : string) (i j : nat) (y : Q) : Prop :=
  (lacks f name /\ (y == 0)%Q) \/ (exists x, variable f name x /\ at2 x i j y).
(** Missing below the limit. *)
Definition above (limit x : Q) (y : masked Q) : Prop := ((x < limit)%Q /\ y = None) \/ ((limit <= x)%Q /\ exists z, y = Some z /\ (z == x)%Q).
Definition total_ratio (f : model_file) (product : string) (i j : nat) (q : Q) : Prop :=
  (product = "lwc" /\ exists x, variable f "ql" x /\ at2 x i j q) \/
  (product = "iwc" /\ exists x a b c, variable f "qi" x /\ at2 x i j a /\ extra f "qs" i j b /\ extra f "qg" i j c /\ (q == a + b + c)%Q).
(** The density of water from its mixing ratio, pressure and temperature. *)
Definition density (f : model_file) (product : string) (i j : nat) (x : Q) : Prop :=
  exists q p t pv tv, total_ratio f product i j q /\ variable f "pressure" p /\ at2 p i j pv /\ variable f "temperature" t /\ at2 t i j tv /\
    (~ (tv == 0)%Q -> (x * ((287058 # 1000) * tv) == q * pv)%Q).

(** The variables that a product is made of. *)
Definition needs (product : string) : list string :=
  if String.eqb product "cf" then ["cloud_fraction"] else if String.eqb product "iwc" then ["pressure"; "temperature"; "qi"] else ["pressure"; "temperature"; "ql"].

(** ** Cirrus filter *)
Section Cirrus.
Context (sq : Q -> Q) (pdf : Q -> Q -> Q -> option Q).
Definition icy (cf iwc lwc : Q) : Prop := (0 < cf)%Q /\ (0 < iwc)%Q /\ (lwc * 10 < iwc)%Q.
(** Points for the ice water content of a cloud with mean [c] and variance [v]. *)
Definition abscissae (c v : Q) (d : list Q) : Prop :=
  length d = 249 /\ exists f, (((c * 249 < 2 * (c + 5 * sq v * c))%Q /\ (f == 10 * c)%Q) \/ ((2 * (c + 5 * sq v * c) <= c * 249)%Q /\ (f == c + 5 * sq v * c)%Q)) /\
    forall k x, nth_error d k = Some x -> (x * 249 == inject_Z (Z.of_nat k) * f)%Q.
Inductive sums : list Q -> Q -> Prop :=
| SumNil s : (s == 0)%Q -> sums [] s
| SumCons x l s t : sums l s -> (t == x + s)%Q -> sums (x :: l) t.
(** The sum of the second components of the pairs with a first one above [m]. *)
Inductive mass_above (m : Q) : list (Q * Q) -> Q -> Prop :=
| MassNil s : (s == 0)%Q -> mass_above m [] s
| MassSeen x p l s t : (m < x)%Q -> mass_above m l s -> (t == p + s)%Q -> mass_above m ((x, p) :: l) t
| MassNot x p l s : (x <= m)%Q -> mass_above m l s -> mass_above m ((x, p) :: l) s.
Definition densities (c v : Q) (d p : list Q) : Prop := Forall2 (fun x y => pdf x (1 / v)%Q (c / (1 / v))%Q = Some y) d p.
(** What remains of the cloud fraction of an ice cloud; [least] is detected. *)
Inductive ice_cloud (cf c v least : Q) (d : list Q) : masked Q -> Prop :=
| IceInfinite x : In x d -> pdf x (1 / v)%Q (c / (1 / v))%Q = None -> ice_cloud cf c v least d None
| IceBad p tot : densities c v d p -> sums p tot -> ((tot == 0)%Q \/ (tot < last p 0 * 100)%Q) -> ice_cloud cf c v least d None
| IceSeen p tot s z y : densities c v d p -> sums p tot -> ~ (tot == 0)%Q -> (last p 0 * 100 <= tot)%Q -> mass_above least (combine d p) s ->
    (z * tot == s * cf)%Q -> above (5 # 100) z y -> ice_cloud cf c v least d y.
Definition cirrus_value (x : pixel) (y : masked Q) : Prop :=
  ((px_cf x < 5 # 100)%Q /\ y = None) \/
  ((5 # 100 <= px_cf x)%Q /\ ~ icy (px_cf x) (px_iwc x) (px_lwc x) /\ y = Some (px_cf x)) \/
  ((5 # 100 <= px_cf x)%Q /\ icy (px_cf x) (px_iwc x) (px_lwc x) /\
   exists d, abscissae (px_iwc x / px_cf x * 1000)%Q (px_variance x) d /\ ice_cloud (px_cf x) (px_iwc x / px_cf x * 1000)%Q (px_variance x) (px_least x) d y).
(** A pixel that counts as cloud when the filter looks for ice. *)
Definition cloudy (x : pixel) : Prop := (5 # 100 <= px_cf x)%Q /\ (0 <= px_iwc x)%Q /\ (0 <= px_lwc x)%Q.
End Cirrus.
Definition pointed {A B} (R : A -> B -> Prop) (x : image A) (y : image B) : Prop := Forall2 (Forall2 R) x y.

(** Nothing is present, or larger, on the right that is not so on the left. *)
Definition dominates (a b : masked Q) : Prop := match b with None => True | Some y => exists x, a = Some x /\ (y <= x)%Q end.
(** The profiles that are compared for profile [i] of [n]. *)
Definition compared (n i a b : nat) : Prop :=
  (i = 0 /\ a = 0 /\ b = 1) \/ (i = n - 1 /\ 0 < i /\ a = n - 2 /\ b = n - 1) \/ (0 < i < n - 1 /\ a = i - 1 /\ b = i + 1).
(** The change of [w] per change of height from profile [a] to profile [b] at level [j]. *)
Definition slope (w h : image Q) (a b j : nat) (g : Q) : Prop :=
  exists x y p q, at2 w a j x /\ at2 w b j y /\ at2 h a j p /\ at2 h b j q /\ (~ (q == p)%Q -> (g * (q - p) == y - x)%Q).

(** The units of the file of a day. *)
Definition units_table (date : string) : list (string * string) :=
  [("time", "hours since " ++ date ++ " 00:00:00 +00:00"); ("level", "1"); ("latitude", "degree_north"); ("longitude", "degree_east");
   ("horizontal_resolution", "km"); ("model_forecast_time", "hours"); ("model_height", "m"); ("model_cf", "1"); ("model_cf_cirrus", "1");
   ("model_iwc", "kg m-3"); ("model_lwc", "kg m-3"); ("cf_V", "1"); ("cf_A", "1"); ("cf_V_adv", "1"); ("cf_A_adv", "1");
   ("iwc", "kg m-3"); ("iwc_adv", "kg m-3"); ("lwc", "kg m-3"); ("lwc_adv", "kg m-3")]%string.
Definition coordinates : list string := ["time"; "level"; "latitude"; "longitude"; "horizontal_resolution"].
