(** Bit fields: utils.isbit / utils.setbit, the packing of the category and
    quality flags into integers and their unpacking in the products. *)
From Verif Require Import Base.
Open Scope Z_scope.

(** utils.py 263-290, [isbit].  The array is modelled per element; integers are
    unbounded (numpy int64 would overflow for nth_bit >= 63, which no caller
    uses: bits 0..9 only). *)
Definition isbit (x nth_bit : Z) : result bool :=
  if nth_bit <? 0 then Raise ValueError
  else Ok (0 <? Z.land x (Z.shiftl 1 nth_bit)).

(** utils.py 293-321, [setbit] ([array |= mask], returned). *)
Definition setbit (x nth_bit : Z) : result Z :=
  if nth_bit <? 0 then Raise ValueError
  else Ok (Z.lor x (Z.shiftl 1 nth_bit)).

(** product_tools.py 66-73, dataclass [CategoryBits].  The dataclass of equally
    shaped arrays is represented as an array of records. *)
Record CategoryBits := {
  droplet : bool; falling : bool; freezing : bool;
  melting : bool; aerosol : bool; insect : bool }.

(** product_tools.py 76-87, dataclass [QualityBits]. *)
Record QualityBits := {
  radar : bool; lidar : bool; clutter : bool; molecular : bool;
  attenuated_liquid : bool; corrected_liquid : bool;
  attenuated_rain : bool; corrected_rain : bool;
  attenuated_melting : bool; corrected_melting : bool }.

(** [dataclasses.fields] in declaration order (product_tools.py 66-87). *)
Definition category_fields (c : CategoryBits) : list bool :=
  [droplet c; falling c; freezing c; melting c; aerosol c; insect c].
Definition quality_fields (q : QualityBits) : list bool :=
  [radar q; lidar q; clutter q; molecular q; attenuated_liquid q;
   corrected_liquid q; attenuated_rain q; corrected_rain q;
   attenuated_melting q; corrected_melting q].

(** categorize.py 265-270, [_classes_to_bits]:
    [for i, field in enumerate(fields): quality |= (1 << i) * field]. *)
Fixpoint pack_from (i : Z) (fields : list bool) (quality : Z) : Z :=
  match fields with
  | [] => quality
  | b :: rest => pack_from (i + 1) rest (Z.lor quality (Z.shiftl 1 i * Z.b2z b))
  end.
Definition classes_to_bits (fields : list bool) : Z := pack_from 0 fields 0.

(** One element of [utils.isbit(bits, n)] for a literal n >= 0. *)
Definition bit (x n : Z) : bool :=
  match isbit x n with Ok b => b | Raise _ => false end.

(** product_tools.py 96-106, [CategorizeBits._read_category_bits], per pixel. *)
Definition read_category_bits (bits : Z) : CategoryBits :=
  {| droplet := bit bits 0; falling := bit bits 1; freezing := bit bits 2;
     melting := bit bits 3; aerosol := bit bits 4; insect := bit bits 5 |}.

(** product_tools.py 108-122, [CategorizeBits._read_quality_bits], per pixel. *)
Definition read_quality_bits (bits : Z) : QualityBits :=
  {| radar := bit bits 0; lidar := bit bits 1; clutter := bit bits 2;
     molecular := bit bits 3; attenuated_liquid := bit bits 4;
     corrected_liquid := bit bits 5; attenuated_rain := bit bits 6;
     corrected_rain := bit bits 7; attenuated_melting := bit bits 8;
     corrected_melting := bit bits 9 |}.

(** categorize.py 139 and 143-145: the two variables written to the file. *)
Definition write_category (m : image CategoryBits) : image Z :=
  imap (fun c => classes_to_bits (category_fields c)) m.
Definition write_quality (m : image QualityBits) : image Z :=
  imap (fun q => classes_to_bits (quality_fields q)) m.
(** product_tools.py 90-122: what a product reads. *)
Definition read_category (m : image Z) : image CategoryBits := imap read_category_bits m.
Definition read_quality (m : image Z) : image QualityBits := imap read_quality_bits m.
