(** What the properties of lidars and ceilometers say, independently of the model. *)
From Verif Require Import Base TelegramSpec SiteSpec DropletSpec MeltSpec NwpSpec NcRadarSpec LidarModel.
From Coq Require Import String Ascii Sorting.Sorted.
Open Scope string_scope.
Open Scope nat_scope.
Open Scope list_scope.
Local Notation length := List.length (only parsing).

(** ** Text files *)

(** The time [t], in microseconds since 1970, is on the day [d]. *)
Definition on_day (t d : Z) : Prop := (d * 86400000000 <= t < (d + 1) * 86400000000)%Z.
(** The day of the file: the expected one, or that of the earliest profile. *)
Definition file_day (expected : option Z) (data : list (Z * shot)) (d : Z) : Prop :=
  match expected with
  | Some e => d = e
  | None => exists t, In t (map fst data) /\ on_day t d /\ forall t', In t' (map fst data) -> (t <= t')%Z
  end.
(** All profiles have [n] gates. *)
Definition gates (data : list (Z * shot)) (n : nat) : Prop :=
  forall t p, In (t, p) data -> length (p_beta p) = n.
(** There are [k] different times. *)
Definition different_times (data : list (Z * shot)) (k : nat) : Prop :=
  exists l, NoDup l /\ (forall t, In t l <-> In t (map fst data)) /\ length l = k.
(** Profile [i] of the file is on the day [d] and is the first one with its time. *)
Definition wanted (data : list (Z * shot)) (d : Z) (i : nat) : Prop :=
  exists t p, nth_error data i = Some (t, p) /\ on_day t d /\ forall j q, j < i -> nth_error data j <> Some (t, q).
(** [y] is [c] times [x], element by element. *)
Definition scaled_by (c : Q) (x y : list Q) : Prop := Forall2 (fun a b => (b == a * c)%Q) x y.
(** The profiles [kept] of the file, with hours [hours] and backscatter [beta]. *)
Definition holds_profiles (data : list (Z * shot)) (d : Z) (c : Q) (kept : list nat) (hours : list Q) (beta : image Q) : Prop :=
  length hours = length kept /\ length beta = length kept /\
  (forall i k, nth_error kept i = Some k -> exists t p h row,
     nth_error data k = Some (t, p) /\ nth_error hours i = Some h /\ nth_error beta i = Some row /\
     (h * 3600000000 == inject_Z (t - d * 86400000000))%Q /\ scaled_by c (p_beta p) row).
(** The applied factor: one unless another one, not zero, is given. *)
Definition applied_factor (factor : option Q) (c : Q) : Prop :=
  (c == 1)%Q /\ (factor = None \/ exists f, factor = Some f /\ (f == 0)%Q) \/ (factor = Some c /\ ~ (c == 0)%Q).
(** The centres of [n] gates of length [res]. *)
Definition gate_centres (n : nat) (res : Q) (range : list Q) : Prop :=
  length range = n /\ forall i x, nth_error range i = Some x -> (x == (inject_Z (Z.of_nat i) + (1 # 2)) * res)%Q.

(** ** The choice of the reader *)

(** Line [i] is among the first hundred and announces an instrument of [r]. *)
Definition announces (lines : list string) (i : nat) (r : reader) : Prop :=
  i < 100 /\ exists rest,
    nth_error lines i = Some (String "001" ("CL" ++ rest)) /\ r = ClReader \/
    nth_error lines i = Some (String "001" ("CT" ++ rest)) /\ r = CtReader.
(** The readers of the instruments that can be named by the site. *)
Definition named : list (string * reader) :=
  [("cl31", ClReader); ("cl51", ClReader); ("ct25k", CtReader); ("cl61d", Cl61Reader);
   ("chm15k", LufftReader); ("cs135", CsReader); ("da10", Da10Reader)].

(** ** netCDF files *)

(** [mid] is the middle of the gates with the lower limits [edges]. *)
Definition middle_of_lower (edges mid : list Q) : Prop :=
  length mid = length edges /\
  (forall i a b m, nth_error edges i = Some a -> nth_error edges (S i) = Some b -> nth_error mid i = Some m ->
     (2 * m == a + b)%Q) /\
  (forall i a b m, S (S i) = length edges -> nth_error edges i = Some a -> nth_error edges (S i) = Some b ->
     nth_error mid (S i) = Some m -> (2 * (m - b) == b - a)%Q).
(** The same for upper limits. *)
Definition middle_of_upper (edges mid : list Q) : Prop :=
  length mid = length edges /\
  (forall i a b m, nth_error edges i = Some a -> nth_error edges (S i) = Some b -> nth_error mid (S i) = Some m ->
     (2 * m == a + b)%Q) /\
  (forall a b m, nth_error edges 0 = Some a -> nth_error edges 1 = Some b -> nth_error mid 0 = Some m ->
     (2 * (a - m) == b - a)%Q).
Definition increasing (l : list Q) : Prop :=
  forall i a b, nth_error l i = Some a -> nth_error l (S i) = Some b -> (a < b)%Q.
(** The firmware is text such as 0.747: one digit, a point, three digits.  Its number
    in thousandths. *)
Definition firmware_number (s : string) (z : Z) : Prop :=
  exists a b x y, s = (a ++ "." ++ b)%string /\ decimal 1 a x /\ decimal 3 b y /\ z = (1000 * x + y)%Z.
(** The masked result of an operation on values that may be masked. *)
Definition is_value (x : masked Q) (P : Q -> Prop) : Prop := match x with Some q => P q | None => False end.
(** The unmasked values of a list. *)
Definition known (l : list (masked Q)) (v : list Q) : Prop := map Some v = filter (fun x : masked Q => match x with Some _ => true | None => false end) l.
(** The parameters of the gain of an old Lufft instrument with the median [m]: step,
    reference and scale, if any. *)
Definition gain_parameters (m : Q) (p : Q * Q * Q) : Prop :=
  (120 < m < 160)%Q /\ p = (124 # 100, 140, 5)%Q \/ (3200 < m < 4000)%Q /\ p = (1035 # 1000, 3685, 1)%Q.
(** The gain of a profile with the reading [x], among the readings [nn1]. *)
Definition gain (power : Q -> Q -> Q) (nn1 : list (masked Q)) (x : masked Q) (g : masked Q) : Prop :=
  (exists v m s r k, known nn1 v /\ is_median v m /\ gain_parameters m (s, r, k) /\
     match x with
     | None => g = None
     | Some q => exists e, (e * k == - (q - r))%Q /\ g = Some (power s e)
     end) \/
  ((forall v m p, known nn1 v -> is_median v m -> ~ gain_parameters m p) /\ g = Some 1%Q).
(** A pixel of the backscatter times [c]. *)
Definition pixel_times (x y : option (masked Q)) (c : Q) : Prop :=
  match x, y with
  | None, None => True
  | Some None, Some None => True
  | Some (Some a), Some (Some b) => (b == a * c)%Q
  | _, _ => False
  end.
(** The first of two variables that is there. *)
Definition variable_of {A} (vars : OutputModel.dict A) (a b : string) (v : A) : Prop :=
  OutputModel.lookup a vars = Some v \/ (OutputModel.lookup a vars = None /\ OutputModel.lookup b vars = Some v).
(** A pixel of an old file: backscatter [b], standard deviation [s] and gain [g] of the
    profile, range [r], factor [c]. *)
Definition old_pixel (b s g : masked Q) (r c : Q) (o : masked Q) : Prop :=
  match b, s, g with
  | Some b, Some s, Some g => (g == 0)%Q /\ o = None \/ ~ (g == 0)%Q /\ exists q, o = Some q /\ (q * g == b * s * (r * r) * c)%Q
  | _, _, _ => o = None
  end.
(** Images of the same shape. *)
Definition same_shape {A B} (m : image A) (m' : image B) : Prop := Forall2 (fun r r' => length r = length r') m m'.
(** Division of masked values. *)
Definition quotient (x p d : masked Q) : Prop :=
  match x, p with
  | Some a, Some b => (b == 0)%Q /\ d = None \/ ~ (b == 0)%Q /\ exists q, d = Some q /\ (q * b == a)%Q
  | _, _ => d = None
  end.
