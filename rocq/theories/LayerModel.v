(** Loops over liquid layers: the effective radius retrieval. *)
From Verif Require Import Base BitsModel StatusModel ArrayModel.
Open Scope nat_scope.

(** [array[i, j] = v] for non-negative indices. *)
Fixpoint set_nth {A} (l : list A) (j : nat) (v : A) : result (list A) :=
  match l, j with
  | [], _ => Raise IndexError
  | _ :: r, 0 => Ok (v :: r)
  | x :: r, S j' => bind (set_nth r j' v) (fun r' => Ok (x :: r'))
  end.
Definition set_pixel {A} (m : image A) (i j : nat) (v : A) : result (image A) :=
  match nth_error m i with
  | None => Raise IndexError
  | Some row => bind (set_nth row j v) (fun row' => set_nth m i row')
  end.

(** Assignments in sequence. *)
Fixpoint fold_result {A S} (f : S -> A -> result S) (l : list A) (s : S) : result S :=
  match l with [] => Ok s | x :: r => bind (f s x) (fun s' => fold_result f r s') end.

Section Der.
  (** [0.5 * (Z / N)^(1/6) * exp(-0.5 var_x)] (der.py 173-175), any function of
      the linear reflectivity. *)
  Variable radius : Q -> Q.

  (** der.py 163-175: one layer.  [idx_layer] is base..top restricted to gates
      with unmasked Z; nothing happens if none is left (167-168, where
      [mask.all()] of an empty array is True). *)
  Definition der_layer (z : image (masked Q)) (der : image Q)
    (layer : (nat * nat) * (nat * nat)) : result (image Q) :=
    let ind_t := fst (fst layer) in
    let idx := seq (snd (fst layer)) (S (snd (snd layer)) - snd (fst layer)) in
    fold_result (fun d j =>
      match pixel z ind_t j with
      | None => Raise IndexError
      | Some None => Ok d
      | Some (Some zz) => set_pixel d ind_t j (radius zz)
      end) idx der.

  (** der.py 146-175 and 205: the radius variable; zeros (and anything not
      positive) are masked and the rest scaled from mm to m.  The scaled radius,
      N and the errors (170-202) are not modelled. *)
  Definition append_der (droplets : image bool) (z : image (masked Q)) : result (image (masked Q)) :=
    let der0 := imap (fun _ => 0%Q) z in
    bind (zip_layers droplets) (fun layers =>
    bind (fold_result (der_layer z) layers der0) (fun der =>
    Ok (imap (fun r => if Qle_bool r 0 then None else Some (r * (1 # 1000))%Q) der))).
End Der.
