(** Specification of the command line interface. *)
From Coq Require Import List Bool Arith ZArith String Ascii Sorted Permutation.
From Verif Require Import Base OutputModel OutputSpec SiteSpec MeltSpec CliModel.
Import ListNotations.
Open Scope string_scope. Open Scope nat_scope. Open Scope list_scope.
Local Notation length := List.length (only parsing).

(** ** Lists *)

(** [out] has the elements of [l] with the property, in the same order. *)
Inductive kept {A} (P : A -> Prop) : list A -> list A -> Prop :=
| KeptNil : kept P [] []
| KeptTake x l out : P x -> kept P l out -> kept P (x :: l) (x :: out)
| KeptSkip x l out : ~ P x -> kept P l out -> kept P (x :: l) out.

(** [x] is the first element of [l] with the property. *)
Definition first_with {A} (P : A -> Prop) (l : list A) (x : A) : Prop :=
  exists pre post, l = pre ++ x :: post /\ P x /\ Forall (fun y => ~ P y) pre.

(** ** Arguments *)

Definition pid (v : string) : Prop := exists r, v = ("https://hdl.handle.net/" ++ r)%string.
(** The instrument is the one meant by a preference. *)
Definition meant (i : instrument) (v : string) : Prop :=
  pid v /\ i_pid i = v \/ ~ pid v /\ i_id i = v.

(** [product\[model\]] *)
Definition bracketed (s name value : string) : Prop :=
  without "["%char name /\ s = (name ++ "[" ++ value ++ "]")%string.
(** The product an argument asks for. *)
Definition product_of (s name : string) : Prop :=
  (exists value, bracketed s name value) \/ (s = name /\ forall n v, ~ bracketed s n v).

(** The preferences stated by one argument. *)
Definition states (arg product : string) (values : list string) : Prop :=
  without ":"%char product /\
  exists value parts texts, arg = (product ++ ":" ++ value)%string /\ separated ","%char value parts /\
    Forall2 stripped parts texts /\ kept (fun v => v <> "") texts values.
Definition malformed_value (v : string) : Prop := ~ without ":"%char v /\ ~ pid v.

(** The preferences for [product] stated by all the arguments, in order. *)
Inductive stated (product : string) : list string -> list string -> Prop :=
| StNil : stated product [] []
| StSame arg values args out : states arg product values -> stated product args out ->
    stated product (arg :: args) (values ++ out)
| StOther arg p values args out : states arg p values -> p <> product -> stated product args out ->
    stated product (arg :: args) out.

(** ** Instruments *)

(** [unique] has the instruments of the files, each once, in any order. *)
Definition instruments_of (meta : list raw_file) (unique : list instrument) : Prop :=
  NoDup unique /\ forall i, In i unique <-> exists m, In m meta /\ r_instrument m = i.

Definition name_le (i j : instrument) : Prop := String.leb (i_name i) (i_name j) = true.

(** ** Files *)

(** The file name ends with [e], in any case. *)
Definition ends_in (e s : string) : Prop := exists a b, s = (a ++ b)%string /\ same_text e b.

(** The raw files that can be processed for a product. *)
Definition usable (product : string) (m : raw_file) : Prop :=
  (product = "radar" -> ~ ends_in ".lv0" (r_name m)) /\
  (product = "mwr" -> occurs_any_case ".lwp" (r_name m) \/ occurs_any_case ".iwv" (r_name m)) /\
  (product = "mwr-l1c" -> ~ ends_in ".nc" (r_name m)).

(** The products and instruments with a converter. *)
Definition part_of (p s : string) : Prop := exists a b, s = (a ++ p ++ b)%string.
Definition convertible (product id : string) : Prop :=
  (product = "radar" /\ (part_of "mira" id \/ part_of "rpg" id \/ part_of "basta" id \/ part_of "copernicus" id \/ part_of "galileo" id)) \/
  (product = "disdrometer" /\ (part_of "parsivel" id \/ part_of "thies" id)) \/
  In product ["lidar"; "mwr"; "mwr-l1c"; "mrr"; "weather-station"].

(** ** Input of categorize *)

(** The portal has a file of this product (and source), and this is the first one. *)
Definition portal_has (files : string -> list product_file) (product : string)
  (source : option string) (path : string) : Prop :=
  exists m, first_with (fun m => match source with
                                 | None => True
                                 | Some s => exists i, f_instrument m = Some i /\ meant i s
                                 end) (files product) m /\
    path = ((if f_geophysical m then "geophysical/" else "instrument/") ++ f_name m)%string.
Definition portal_lacks (files : string -> list product_file) (product : string) (source : option string) : Prop :=
  forall path, ~ portal_has files product source path.

(** The file taken for a product from the first preference that is available; Doppler
    lidars count as lidars. *)
Definition preferred_file (files : string -> list product_file) (product source path : string) : Prop :=
  portal_has files product (Some source) path \/
  product = "lidar" /\ portal_lacks files product (Some source) /\
  portal_has files "doppler-lidar" (Some source) path.
Definition chosen_file (files : string -> list product_file) (prefs : list string) (product path : string) : Prop :=
  (exists source, first_with (fun s => exists p, preferred_file files product s p) prefs source /\
     preferred_file files product source path) \/
  (Forall (fun s => forall p, ~ preferred_file files product s p) prefs /\ portal_has files product None path).

(** The first of the places that has a file. *)
Definition mwr_places : list (string * option string) :=
  [("mwr-single", None); ("mwr", None); ("radar", Some "rpg-fmcw-35"); ("radar", Some "rpg-fmcw-94")].
Definition mwr_file (files : string -> list product_file) (path : string) : Prop :=
  exists place, first_with (fun x => exists p, portal_has files (fst x) (snd x) p) mwr_places place /\
    portal_has files (fst place) (snd place) path.

(** [i] is the instrument number [n] (from zero) in the order of the names. *)
Definition ranked (unique : list instrument) (n : nat) (i : instrument) : Prop :=
  exists before after, Permutation unique (before ++ i :: after) /\ length before = n /\
    (forall j, In j before -> name_le j i) /\ (forall j, In j after -> name_le i j).

(** The instrument ids searched for a product argument: those named by the argument or
    by the preferences, as far as the product has them, or all. *)
Definition named_ids (prefs : string -> list string) (arg : string) (ids : list string) : Prop :=
  (exists product id, bracketed arg product id /\ ids = [id]) \/
  ((forall product id, ~ bracketed arg product id) /\ kept (fun v => ~ pid v) (prefs arg) ids).
Definition searched_ids (possible : string -> list string) (prefs : string -> list string)
  (arg product : string) (ids : list string) : Prop :=
  exists named known, named_ids prefs arg named /\ kept (fun v => In v (possible product)) named known /\
    (known <> [] /\ ids = known \/ known = [] /\ ids = possible product).

(** [out] is the text [s], or its first [n] characters if it is longer. *)
Definition first_chars (n : nat) (s out : string) : Prop :=
  exists rest, s = (out ++ rest)%string /\ (String.length out = n \/ rest = "" /\ String.length out <= n).
(** [out] is what follows the last [c] of [s], or [s] if there is none. *)
Definition after_last (c : ascii) (s out : string) : Prop :=
  without c out /\ (s = out \/ exists a, s = (a ++ String c out)%string).
(** [w] occurs in [s] only after [a]. *)
Definition occurs_once (w s a : string) : Prop :=
  forall a' b', s = (a' ++ w ++ b')%string -> a' = a.
