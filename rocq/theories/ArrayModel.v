(** NumPy primitives used by the code, as executable definitions (trusted
    reading of the NumPy documentation), and the 1-D helpers of utils.py built
    on them: ffill, cumsumr, path lengths. *)
From Verif Require Import Base.
Open Scope nat_scope.

(** ** NumPy primitives *)

(** [np.arange(n)] together with the array: pairs (index, value). *)
Fixpoint enumerate_from {A} (i : nat) (l : list A) : list (nat * A) :=
  match l with [] => [] | x :: r => (i, x) :: enumerate_from (S i) r end.
Definition enumerate {A} (l : list A) := enumerate_from 0 l.

(** Fancy indexing [array[idx]] with non-negative integer indices. *)
Fixpoint gather {A} (l : list A) (idx : list nat) : result (list A) :=
  match idx with
  | [] => Ok []
  | i :: r => match nth_error l i with
              | None => Raise IndexError
              | Some x => bind (gather l r) (fun xs => Ok (x :: xs))
              end
  end.

(** [np.maximum.accumulate] on indices. *)
Fixpoint max_acc_from (m : nat) (l : list nat) : list nat :=
  match l with [] => [] | x :: r => let m' := Nat.max m x in m' :: max_acc_from m' r end.
Definition max_accumulate (l : list nat) : list nat :=
  match l with [] => [] | x :: r => x :: max_acc_from x r end.

(** [np.where(mask)] of a 1-D mask: increasing list of true positions. *)
Fixpoint where_from (j : nat) (l : list bool) : list nat :=
  match l with [] => [] | b :: r => (if b then [j] else []) ++ where_from (S j) r end.
Definition where1 (l : list bool) : list nat := where_from 0 l.

(** [np.where(mask)] of a 2-D mask, row-major, as index pairs. *)
Fixpoint where2_from (i : nat) (m : image bool) : list (nat * nat) :=
  match m with [] => [] | r :: rest => map (fun j => (i, j)) (where1 r) ++ where2_from (S i) rest end.
Definition where2 (m : image bool) : list (nat * nat) := where2_from 0 m.

(** [array.cumsum()] over rationals (no rounding). *)
Fixpoint cumsum_from (s : Q) (l : list Q) : list Q :=
  match l with [] => [] | x :: r => let s' := (s + x)%Q in s' :: cumsum_from s' r end.
Definition cumsum (l : list Q) : list Q := cumsum_from 0%Q l.

Definition qmax (a b : Q) : Q := if Qle_bool a b then b else a.

(** [np.maximum.accumulate] on rationals. *)
Fixpoint qmax_acc_from (m : Q) (l : list Q) : list Q :=
  match l with [] => [] | x :: r => let m' := qmax m x in m' :: qmax_acc_from m' r end.
Definition qmax_accumulate (l : list Q) : list Q :=
  match l with [] => [] | x :: r => x :: qmax_acc_from x r end.

Fixpoint map2 {A B C} (f : A -> B -> C) (l1 : list A) (l2 : list B) : list C :=
  match l1, l2 with x :: r1, y :: r2 => f x y :: map2 f r1 r2 | _, _ => [] end.

(** [np.diff(array, prepend=0)] (also [np.diff(np.insert(a, 0, 0))]). *)
Fixpoint qdiff_from (prev : Q) (l : list Q) : list Q :=
  match l with [] => [] | x :: r => (x - prev)%Q :: qdiff_from x r end.

(** [.argmax()] of a boolean array: first true position, 0 if none, ValueError
    for an empty array. *)
Fixpoint first_true (l : list bool) : option nat :=
  match l with [] => None | b :: r => if b then Some 0 else option_map S (first_true r) end.
Definition argmax_bool (l : list bool) : result nat :=
  match l with
  | [] => Raise ValueError
  | _ => Ok (match first_true l with Some i => i | None => 0 end)
  end.

(** Results of a loop or comprehension: the first error wins. *)
Fixpoint sequence {A} (l : list (result A)) : result (list A) :=
  match l with
  | [] => Ok []
  | Raise e :: _ => Raise e
  | Ok x :: r => bind (sequence r) (fun xs => Ok (x :: xs))
  end.

(* ------------------------------------------------------------------ *)
(** ** utils.py *)

(** utils.py 630-655, [ffill], one row ([eqb] is the element comparison):
    [idx = where(array != value, arange, 0); idx = maximum.accumulate(idx);
    array[idx]]. *)
Definition ffill_idx {A} (eqb : A -> A -> bool) (value : A) (l : list A) : list nat :=
  max_accumulate (map (fun p => if eqb (snd p) value then 0 else fst p) (enumerate l)).
Definition ffill {A} (eqb : A -> A -> bool) (value : A) (l : list A) : result (list A) :=
  gather l (ffill_idx eqb value l).

(** The same as a plain list; the Raise branch never happens
    (ArrayProofs.ffill_total). *)
Definition ffill_list {A} (eqb : A -> A -> bool) (value : A) (l : list A) : list A :=
  match ffill eqb value l with Ok r => r | Raise _ => l end.

(** utils.py 644-655, 2-D branch: the index array is built per row and used with
    the row number, so each row is filled on its own. *)
Definition ffill2 {A} (eqb : A -> A -> bool) (value : A) (m : image A) : result (image A) :=
  sequence (map (ffill eqb value) m).

(** [ffill] of a boolean array with the default value 0. *)
Definition ffill_bool (l : list bool) : list bool := ffill_list Bool.eqb false l.

(** utils.py 610-627, [cumsumr], along one row:
    [cums - maximum.accumulate(cums * (array == 0))]. *)
Definition cumsumr (l : list Q) : list Q :=
  let cums := cumsum l in
  let reset := map2 (fun c x => (c * (if Qeq_bool x 0 then 1 else 0))%Q) cums l in
  map2 (fun c m => (c - m)%Q) cums (qmax_accumulate reset).

(** utils.py 1103-1104, [path_lengths_from_ground]: [np.diff(height_agl, prepend=0)]. *)
Definition path_lengths_from_ground (height_agl : list Q) : list Q := qdiff_from 0%Q height_agl.

(* ------------------------------------------------------------------ *)
(** ** categorize/atmos_utils.py, cloud geometry *)

(** atmos_utils.py 9-21, [find_cloud_bases], one profile: pad with 0 at the
    front, difference of integers equal to 1. *)
Fixpoint diff_is_one (prev : Z) (l : list bool) : list bool :=
  match l with
  | [] => []
  | b :: r => (Z.b2z b - prev =? 1)%Z :: diff_is_one (Z.b2z b) r
  end.
Definition find_cloud_bases_row (row : list bool) : list bool := diff_is_one 0%Z row.
Definition find_cloud_bases (m : image bool) : image bool := map find_cloud_bases_row m.

(** atmos_utils.py 24-36, [find_cloud_tops]: flip, bases, flip. *)
Definition find_cloud_tops_row (row : list bool) : list bool := rev (find_cloud_bases_row (rev row)).
Definition find_cloud_tops (m : image bool) : image bool := map find_cloud_tops_row m.

(** [zip(zip( *np.where(bases)), zip( *np.where(tops)), strict=True)] as used in
    der.py 158-162 and falling.py: ValueError for different lengths. *)
Definition zip_layers (m : image bool) : result (list ((nat * nat) * (nat * nat))) :=
  let b := where2 (find_cloud_bases m) in
  let t := where2 (find_cloud_tops m) in
  if Nat.eqb (length b) (length t) then Ok (combine b t) else Raise ValueError.

(** atmos_utils.py 58-61, [_find_lowest_heights], one profile. *)
Definition find_lowest_height_row (cloud_heights : list Q) : result (masked Q) :=
  bind (argmax_bool (map (fun h => negb (Qeq_bool h 0)) cloud_heights)) (fun ind =>
  match nth_error cloud_heights ind with
  | None => Raise IndexError
  | Some h => Ok (if Qeq_bool h 0 then None else Some h)
  end).

(** [cloud_mask * height] for one profile. *)
Definition cloud_heights_row (mask : list bool) (height : list Q) : list Q :=
  map2 (fun (b : bool) h => ((if b then 1 else 0) * h)%Q) mask height.

(** atmos_utils.py 39-45 and 48-55, one profile. *)
Definition find_lowest_cloud_base (mask : list bool) (height : list Q) : result (masked Q) :=
  find_lowest_height_row (cloud_heights_row mask height).
Definition find_highest_cloud_top (mask : list bool) (height : list Q) : result (masked Q) :=
  find_lowest_height_row (rev (cloud_heights_row mask height)).

(** classification.py 296-308, [_get_cloud_base_and_top_heights] with the mask
    already computed ([_find_cloud_mask]: see ImageModel.v). *)
Definition base_and_top (cloud_mask : image bool) (height : list Q)
  : result (list (masked Q) * list (masked Q)) :=
  if negb (existsb (existsb (fun b => b)) cloud_mask) then
    Ok (map (fun _ : list bool => @None Q) cloud_mask, map (fun _ : list bool => @None Q) cloud_mask)
  else
    bind (sequence (map (fun r => find_lowest_cloud_base r height) cloud_mask)) (fun bases =>
    bind (sequence (map (fun r => find_highest_cloud_top r height) cloud_mask)) (fun tops =>
    if forallb (fun bt => match fst bt, snd bt with
                          | Some b, Some t => Qle_bool 0 (t - b)
                          | _, _ => true end) (combine bases tops)
    then Ok (bases, tops)
    else Raise ValueError)).
