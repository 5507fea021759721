(** Specification of the netCDF cloud radars.  A pixel of a masked array is a pair: the
    number under the mask, [None] if it is not finite, and whether it is masked. *)
From Verif Require Import Base OutputModel DropletSpec SiteSpec MeltSpec RadarSpec NcRadarModel.
From Coq Require Import Ascii String.
Open Scope string_scope.
Open Scope nat_scope.
Open Scope list_scope.
Local Notation length := List.length (only parsing).

(** ** Images *)
(** The pixel is masked. *)
Definition covered (m : image cell) (i j : nat) : Prop := exists x, pixel m i j = Some (x, true).
(** The number of the pixel satisfies [p]. *)
Definition number_at (p : Q -> Prop) (m : image cell) (i j : nat) : Prop :=
  exists q b, pixel m i j = Some (Some q, b) /\ p q.
(** All images have [nt] profiles of [n] gates. *)
Definition radar_data (nt n : nat) (d : ndict) : Prop := forall k m, lookup k d = Some (N2 m) -> sized nt n m.
(** The gates whose range satisfies [p], in their order. *)
Definition kept_gates (p : Q -> Prop) (range : list cell) (gates : list nat) : Prop :=
  StronglySorted lt gates /\ forall j, In j gates <-> exists q b, nth_error range j = Some (Some q, b) /\ p q.
(** [l'] is the part of [l] at the gates. *)
Definition at_gates {A} (gates : list nat) (l l' : list A) : Prop :=
  Forall2 (fun j x => nth_error l j = Some x) gates l'.
(** [m'] is the part of [m] at the gates; the numbers are changed by [f], and what is
    masked was masked before or is [bad] (profile, gate, position of the gate). *)
Definition cut_image (gates : list nat) (f : masked Q -> masked Q) (bad : nat -> nat -> nat -> Prop) (m m' : image cell) : Prop :=
  length m' = length m /\ (forall row, In row m' -> length row = length gates) /\
  forall i g j x b, nth_error gates g = Some j -> pixel m i j = Some (x, b) ->
    exists x' b', pixel m' i g = Some (x', b') /\ (b = false -> x' = f x) /\ (b' = true <-> b = true \/ bad i j g).
Definition same_number (x : masked Q) : masked Q := x.

(** ** Reading *)
(** Same values; what is not finite is masked. *)
Definition read_cell (x y : cell) : Prop := fst y = fst x /\ (snd y = true <-> snd x = true \/ fst x = None).
Definition read_as (v v' : nvar) : Prop :=
  match v, v' with
  | N0 x, N0 y => y = x
  | N1 l, N1 l' => Forall2 read_cell l l'
  | N2 m, N2 m' => Forall2 (Forall2 read_cell) m m'
  | _, _ => False
  end.
(** The variable that the key map gives the name: the last one that is in the file. *)
Definition last_present (file : ndict) (keymap : list (string * string)) (name : string) (v : nvar) : Prop :=
  exists pre key post, keymap = pre ++ (key, name) :: post /\ lookup key file = Some v /\
    forall key', In (key', name) post -> lookup key' file = None.

(** ** Galileo *)
Definition galileo_bad (limit : Q) (snr z v ldr : image cell) (i j g : nat) : Prop :=
  number_at (fun q => q < limit)%Q snr i j \/ covered z i j \/ covered v i j \/
  (g < 15 /\ number_at (fun q => -5 < q)%Q ldr i j).

(** ** Copernicus *)
(** [m] is the mean of the visible numbers in the highest 50 gates of a profile. *)
Fixpoint visible (l : list cell) : list Q :=
  match l with
  | [] => []
  | (Some q, false) :: r => q :: visible r
  | _ :: r => visible r
  end.
Definition top_mean (row : list cell) (m : Q) : Prop :=
  exists low top, row = low ++ top /\ (length top = 50 \/ (low = [] /\ length top < 50)) /\
    visible top <> [] /\ (m * inject_Z (Z.of_nat (length (visible top))) == qsum (visible top))%Q.
Definition nothing_on_top (row : list cell) : Prop :=
  exists low top, row = low ++ top /\ (length top = 50 \/ (low = [] /\ length top < 50)) /\ visible top = [].
(** Less than 2 above the noise on top; without values on top, less than 0. *)
Definition noisy (snr : image cell) (i j : nat) : Prop :=
  exists row q b, nth_error snr i = Some row /\ nth_error row j = Some (Some q, b) /\
    ((exists m, top_mean row m /\ q < m + 2)%Q \/ (nothing_on_top row /\ q < 0)%Q).
Definition copernicus_bad (snr width z v : image cell) (range : list cell) (i j : nat) : Prop :=
  noisy snr i j \/ covered z i j \/ covered v i j \/
  number_at (fun q => q < -3 \/ 3 < q)%Q width i j \/ number_at (fun q => q < -9 \/ 9 < q)%Q v i j \/
  (exists q b, nth_error range j = Some (Some q, b) /\ q < 150)%Q.
Definition given (default : Q) (o : option Q) : Q := match o with Some x => x | None => default end.
Definition moved (applied o : Q) (x : masked Q) : masked Q := option_map (fun q => q - applied + o)%Q x.

(** ** BASTA *)
(** The background mask marks the pixel as signal. *)
Definition signal (mask : image cell) (i j : nat) : Prop := exists q, pixel mask i j = Some (Some q, false) /\ (q == 1)%Q.
(** [s] has [n] digits and the value [z]. *)
Inductive decimal : nat -> string -> Z -> Prop :=
| decimal_none : decimal 0 "" 0
| decimal_more : forall n s z c d, decimal n s z -> (0 <= d <= 9)%Z -> Z.of_nat (nat_of_ascii c) = (48 + d)%Z ->
    decimal (S n) (s ++ String c "")%string (10 * z + d)%Z.
Definition iso_date (s : string) (y m d : Z) : Prop :=
  exists a b c, s = (a ++ "-" ++ b ++ "-" ++ c)%string /\ decimal 4 a y /\ decimal 2 b m /\ decimal 2 c d /\
    (1 <= y)%Z /\ calendar_day y m d.
(** The third word of a text. *)
Definition third_word (s w : string) : Prop := exists a b rest, words_of s (a :: b :: w :: rest).

(** ** BOW-TIE *)
(** Visible numbers are multiplied by [c]. *)
Definition times_cell (c : Q) (x y : cell) : Prop :=
  snd y = snd x /\ (snd x = false -> match fst x with Some q => exists r, fst y = Some r /\ (r == q * c)%Q | None => fst y = None end).
Definition times (c : Q) (v v' : nvar) : Prop :=
  match v, v' with
  | N0 x, N0 y => times_cell c x y
  | N1 l, N1 l' => Forall2 (times_cell c) l l'
  | N2 m, N2 m' => Forall2 (Forall2 (times_cell c)) m m'
  | _, _ => False
  end.
(** Units of the raw file in units of the product: g and kg, mm per hour and m per
    second, percent and 1. *)
Definition bowtie_factor (name : string) (c : Q) : Prop :=
  (name = "lwp" /\ (c * 1000 == 1)%Q) \/ (name = "rainfall_rate" /\ (c * (1000 * 3600) == 1)%Q) \/
  (name = "relative_humidity" /\ (c * 100 == 1)%Q).

(** ** MIRA *)
(** A letter, digit or underscore; a digit. *)
Definition word_letter (c : ascii) : Prop :=
  let n := nat_of_ascii c in 48 <= n <= 57 \/ 65 <= n <= 90 \/ 97 <= n <= 122 \/ n = 95.
Definition all_of (p : ascii -> Prop) (s : string) : Prop := s <> "" /\ forall a c b, s = (a ++ String c b)%string -> p c.
Definition file_word : string -> Prop := all_of word_letter.
Definition file_number : string -> Prop := all_of (fun c => 48 <= nat_of_ascii c <= 57).
(** [w] is the extension of a file name, a number at the end does not count. *)
Definition extension (name w : string) : Prop :=
  file_word w /\ ((exists a, name = (a ++ "." ++ w)%string /\ ~ (file_number w /\ exists a' v, a = (a' ++ "." ++ v)%string /\ file_word v)) \/
                  (exists a k, name = (a ++ "." ++ w ++ "." ++ k)%string /\ file_number k)).
(** [m] is the mean of the visible numbers of the image. *)
Definition image_mean (m : image cell) (q : Q) : Prop :=
  let l := List.flat_map visible m in l <> [] /\ (q * inject_Z (Z.of_nat (length l)) == qsum l)%Q.
(** Type of a file by its extension, in any case. *)
Definition file_type (t name : string) : Prop := exists w, extension name w /\ MeltSpec.same_text t w.
Definition no_type (name : string) : Prop := forall w, ~ extension name w.
(** Variables of the two types: the name, the preferred variable of the file, the one
    used otherwise. *)
Definition znc_choice : list (string * string * string) :=
  [("Zh", "Zh2l", "Zg"); ("v", "VELh2l", "VELg"); ("width", "RMSh2l", "RMSg"); ("ldr", "LDRh2l", "LDRg"); ("SNR", "SNRh2l", "SNRg")].
Definition choice (file d : ndict) (name first second : string) : Prop :=
  (forall v, lookup first file = Some v -> exists v', lookup name d = Some v' /\ read_as v v') /\
  (lookup first file = None -> forall v, lookup second file = Some v -> exists v', lookup name d = Some v' /\ read_as v v') /\
  (lookup first file = None -> lookup second file = None -> lookup name d = None).
(** The logarithm is not defined. *)
Definition undefined (db : Q -> option Q) (x : masked Q) : Prop := match x with Some q => db q = None | None => True end.
Definition mira_bad (limit : Q) (db : Q -> option Q) (snr z v : image cell) (i j : nat) : Prop :=
  (exists q y, pixel snr i j = Some (Some q, false) /\ db q = Some y /\ y < limit)%Q \/
  covered z i j \/ covered v i j \/ exists x b, pixel z i j = Some (x, b) /\ undefined db x.
(** Variables that MIRA files have in linear units. *)
Definition linear_unit (k : string) : Prop := k = "Zh" \/ k = "SNR".
Definition no_capital (t : string) : Prop := forall a c b, t = (a ++ String c b)%string -> ~ 65 <= nat_of_ascii c <= 90.
(** Two files of different types. *)
Definition mixed_types (files : list string) : Prop :=
  exists a b t, In a files /\ In b files /\ no_capital t /\ file_type t a /\ ~ file_type t b.
