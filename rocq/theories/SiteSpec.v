(** Vocabulary for the epoch and the site coordinates. *)
From Verif Require Import Base OutputModel OutputSpec SiteModel.
Local Open Scope string_scope.

(** ** Dates *)
(** A word: not empty, no white space. *)
Definition word (w : string) : Prop :=
  w <> "" /\ forall a c b, w = a ++ String c b -> is_space c = false.
(** [ws] are the words of the text [s]. *)
Inductive words_of : string -> list string -> Prop :=
| words_end : forall s, blank s -> words_of s []
| words_one : forall a w rest ws, blank a -> word w ->
    (rest = "" \/ exists c r, rest = String c r /\ is_space c = true) ->
    words_of rest ws -> words_of (a ++ w ++ rest) (w :: ws).
(** [c] does not occur in [s]. *)
Definition without (c : ascii) (s : string) : Prop := ~ exists a b, s = a ++ String c b.
(** [d] is the word [w] without commas and up to the first "T". *)
Inductive erased (c : ascii) : string -> string -> Prop :=
| erased_nil : erased c "" ""
| erased_skip : forall s t, erased c s t -> erased c (String c s) t
| erased_keep : forall x s t, x <> c -> erased c s t -> erased c (String x s) (String x t).
Definition up_to (c : ascii) (s d : string) : Prop :=
  without c d /\ (s = d \/ exists r, s = d ++ String c r).
Definition date_text (w d : string) : Prop := exists w', erased "," w w' /\ up_to "T" w' d.
(** [l] are the parts of [s] between the characters [c]. *)
Definition separated (c : ascii) (s : string) (l : list string) : Prop :=
  l <> [] /\ Forall (without c) l /\ s = String.concat (String c "") l.
(** Integers as Python reads them. *)
Inductive digits : string -> Z -> Prop :=
| digits_one : forall c d, digit_of c = Some d -> digits (String c "") d
| digits_more : forall s z c d, digits s z -> digit_of c = Some d ->
    digits (s ++ String c "") (10 * z + d)
| digits_under : forall s z c d, digits s z -> digit_of c = Some d ->
    digits (s ++ String "_" (String c "")) (10 * z + d).
Definition integer (s : string) (z : Z) : Prop :=
  digits s z \/ (exists t, s = String "+" t /\ digits t z) \/
  (exists t, s = String "-" t /\ digits t (- z)).
(** The text consists of integers separated by "-", or else by ".". *)
Definition fields_by (c : ascii) (d : string) (l : list Z) : Prop :=
  exists parts, separated c d parts /\ Forall2 integer parts l.
Definition date_fields (d : string) (l : list Z) : Prop :=
  fields_by "-" d l \/ (~ (exists l', fields_by "-" d l') /\ fields_by "." d l).
(** A day of the Gregorian calendar. *)
Definition leap_year (y : Z) : Prop :=
  ((4 | y) /\ (~ (100 | y) \/ (400 | y)))%Z.
Definition calendar_day (y m d : Z) : Prop :=
  (1 <= m <= 12 /\ 1 <= d <= 31 /\
   ((m = 4 \/ m = 6 \/ m = 9 \/ m = 11) -> d <= 30) /\
   (m = 2 -> d <= 29) /\ (m = 2 -> ~ leap_year y -> d <= 28))%Z.
(** Numbers that pass for a date, existing day or not. *)
Definition looks_like_date (now y m d : Z) : Prop :=
  (1900 < y <= now /\ 1 <= m <= 12 /\ 1 <= d <= 31)%Z.

(** ** Coordinates *)
(** Some value is present. *)
Definition has_value (l : list (masked Q)) : Prop := exists q, In (Some q) l.
(** Values of the GPS: from the source file, else the ones already in the data;
    zeros are no values. *)
Definition gps_reading (gps : bool) (file : option raw_file)
  (data : coord_key -> option (list (masked Q))) (k : coord_key) (l : list (masked Q)) : Prop :=
  gps = true /\ k <> Alt /\
  ((exists f, file = Some f /\ rf_var f k = Some l) \/
   ((forall f, file = Some f -> rf_var f k = None) /\ data k = Some l)) /\
  exists q, In (Some q) l /\ ~ (q == 0)%Q.
(** [m] has the values of [l] with zeros masked. *)
Definition zeros_masked (l m : list (masked Q)) : Prop :=
  Forall2 (fun x y => match x with
                      | Some q => ((q == 0)%Q /\ y = None) \/ (~ (q == 0)%Q /\ y = Some q)
                      | None => y = None
                      end) l m.
(** The value preferred for a coordinate and where it comes from.  [attr] is the
    reading of a global attribute. *)
Inductive preferred (attr : string -> Q -> Prop) (gps : bool) (site_meta : coord_key -> option Q)
  (file : option raw_file) (data : coord_key -> option (list (masked Q))) (k : coord_key)
  : list (masked Q) -> coord_source -> Prop :=
| pref_gps : forall l m, gps_reading gps file data k l -> zeros_masked l m ->
    preferred attr gps site_meta file data k m GPS
| pref_site : forall q, ~ (exists l, gps_reading gps file data k l) -> site_meta k = Some q ->
    preferred attr gps site_meta file data k [Some q] SiteMeta
| pref_var : forall f l, ~ (exists l, gps_reading gps file data k l) -> site_meta k = None ->
    file = Some f -> rf_var f k = Some l -> has_value l ->
    preferred attr gps site_meta file data k l RawFile
| pref_attr : forall f a q, ~ (exists l, gps_reading gps file data k l) -> site_meta k = None ->
    file = Some f -> (forall l, rf_var f k = Some l -> ~ has_value l) ->
    rf_attr f k = Some a -> attr a q ->
    preferred attr gps site_meta file data k [Some q] RawFile.
(** The arithmetic mean [m] of the values present. *)
Fixpoint total (l : list (masked Q)) : Q :=
  match l with [] => 0 | Some q :: r => q + total r | None :: r => total r end%Q.
Fixpoint count (l : list (masked Q)) : Z :=
  match l with [] => 0 | Some _ :: r => 1 + count r | None :: r => count r end%Z.
Definition mean_of (l : list (masked Q)) (m : Q) : Prop :=
  (0 < count l)%Z /\ (m * inject_Z (count l) == total l)%Q.
(** All values lie within a distance of [w]. *)
Definition within (l : list (masked Q)) (w : Q) : Prop :=
  forall p q, In (Some p) l -> In (Some q) l -> (p - q <= w)%Q.
(** Digits only, possibly none. *)
Inductive plain : string -> Z -> Prop :=
| plain_nil : plain "" 0
| plain_more : forall s z c d, plain s z -> digit_of c = Some d -> plain (s ++ String c "") (10 * z + d).
(** A decimal number without sign. *)
Definition decimal (t : string) (q : Q) : Prop :=
  (t <> "" /\ exists n, plain t n /\ q == inject_Z n)%Q \/
  (exists a b n m, t = a ++ String "." b /\ (a <> "" \/ b <> "") /\ plain a n /\ plain b m /\
     (q * inject_Z (10 ^ Z.of_nat (String.length b)) ==
      inject_Z (n * 10 ^ Z.of_nat (String.length b) + m))%Q).
(** [t] is the text [a] without all characters that are neither digits nor points. *)
Inductive only_numeral : string -> string -> Prop :=
| numeral_nil : only_numeral "" ""
| numeral_keep : forall c a t, (digit_of c <> None \/ c = "."%char) -> only_numeral a t ->
    only_numeral (String c a) (String c t)
| numeral_skip : forall c a t, digit_of c = None -> c <> "."%char -> only_numeral a t ->
    only_numeral (String c a) t.
(** How a global attribute is read. *)
Definition attribute_reading (a : string) (q : Q) : Prop :=
  a <> "Unknown" /\ exists t, only_numeral a t /\ decimal t q.
(** Smallest and largest value present. *)
Definition extremes (l : list (masked Q)) (lo hi : Q) : Prop :=
  In (Some lo) l /\ In (Some hi) l /\ forall q, In (Some q) l -> (lo <= q /\ q <= hi)%Q.
(** What is stored for the preferred values: the values or their mean. *)
Definition stores (c : coord) (l : list (masked Q)) : Prop :=
  c = CArray l \/ exists m, c = CFloat m /\ mean_of l m.
