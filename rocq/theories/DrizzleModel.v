(** Model of the drizzle solver (products/drizzle_tools.py, [DrizzleSolver]) and of
    the table indices of the derived products (products/drizzle.py).

    [D] is the type of floating point numbers.  No law is assumed of its
    operations, so not-a-number and infinities are covered.  Arrays over time and
    height are functions of the two indices together with the shape. *)
From Verif Require Import Base.
Open Scope nat_scope.

(** ** Binary search *)
(** [bisect_left(a, x, lo=0, hi=hi)]: [a[mid]] may fail.  A negative [hi] behaves
    like zero. *)
Fixpoint bisect {D} (lt : D -> D -> bool) (a : list D) (x : D) (fuel lo hi : nat) : result nat :=
  match fuel with
  | O => Ok lo
  | S fuel' =>
      if lo <? hi then
        let mid := (lo + hi) / 2 in
        match nth_error a mid with
        | None => Raise IndexError
        | Some y => if lt y x then bisect lt a x fuel' (S mid) hi
                    else bisect lt a x fuel' lo mid
        end
      else Ok lo
  end.
Definition bisect_left {D} (lt : D -> D -> bool) (a : list D) (x : D) (hi : nat) : result nat :=
  bisect lt a x hi 0 hi.
(** [np.searchsorted(a, x)] for one value: the same search over the whole array,
    with the order [lt] of numpy. *)
Definition searchsorted {D} (lt : D -> D -> bool) (a : list D) (x : D) : result nat :=
  bisect lt a x (length a) 0 (length a).
(** products/drizzle.py 94-101, [_find_indices] for one table axis and one pixel:
    indices past the end are set to the last one. *)
Definition lut_index {D} (lt : D -> D -> bool) (axis : list D) (x : D) : result nat :=
  bind (searchsorted lt axis x) (fun i =>
  Ok (if length axis <=? i then length axis - 1 else i)).

Section Solver.
Variable D : Type.
Variable lt : D -> D -> bool.               (* [<] *)
Variable opp : D -> D.                      (* unary minus *)
Variable mul : D -> D -> D.                 (* [*] *)
Variables zero one k_init : D.              (* 0, 1, 18.8 *)
(** products/drizzle_tools.py 293-316, [_calc_dia]: ratio, mu, ray, k. *)
Variable calc_dia : D -> D -> D -> D -> D.
(** products/drizzle_tools.py 318-325, [_is_converged]: new and old diameter. *)
Variable converged : D -> D -> bool.
(** [np.exp(2 * S * beta * path_lengths[gate])]: S, beta, gate. *)
Variable factor : D -> D -> nat -> D.
(** Lookup table: diameters, shape parameters, and tables over (width, diameter);
    [width_lut] is the negated width. *)
Record table := { lut_Do : list D; lut_mu : list D; width_lut : list (list D);
                  lut_ray : list (list D); lut_S : list (list D) }.
Variable lut : table.
(** Shape and fields: drizzle mask, beta to Z ratio, beta, corrected width. *)
Variables n_time n_height : nat.
Variable drizzle : nat -> nat -> bool.
Variables ratio beta width_ht : nat -> nat -> D.

Definition getitem {A} (l : list A) (i : nat) : result A :=
  match nth_error l i with Some x => Ok x | None => Raise IndexError end.
Fixpoint mapr {A B} (f : A -> result B) (l : list A) : result (list B) :=
  match l with
  | [] => Ok []
  | x :: r => bind (f x) (fun y => bind (mapr f r) (fun ys => Ok (y :: ys)))
  end.
(** [a[:, j]] *)
Definition column {A} (a : list (list A)) (j : nat) : result (list A) :=
  mapr (fun row => getitem row j) a.
(** [a[i, j]] *)
Definition getitem2 {A} (a : list (list A)) (i j : nat) : result A :=
  bind (getitem a i) (fun row => getitem row j).

(** products/drizzle_tools.py 248-257, [_find_lut_indices]. *)
Definition find_lut_indices (dia width : D) : result (nat * nat) :=
  bind (bisect_left lt (lut_Do lut) dia (length (lut_Do lut) - 1)) (fun ind_dia =>
  bind (column (width_lut lut) ind_dia) (fun col =>
  bind (bisect_left lt col (opp width) (length (width_lut lut) - 1)) (fun ind_width =>
  Ok (ind_width, ind_dia)))).

(** products/drizzle_tools.py 266-277, the loop over [max_ite] for one pixel.
    [dia] is [dia_init[ind]], [res] the entries of Do, mu and S at the pixel, [r]
    the ratio times the attenuation correction, [w] the width.  The result is
    [res] and [dia] after the loop. *)
Fixpoint pixel_loop (n : nat) (r w dia : D) (res : D * D * D) : result (D * D * D * D) :=
  match n with
  | O => Ok (res, dia)
  | S n' =>
      bind (find_lut_indices dia w) (fun ind =>
      bind (getitem (lut_mu lut) (fst ind)) (fun mu =>
      bind (getitem2 (lut_ray lut) (fst ind) (snd ind)) (fun ray =>
      bind (getitem2 (lut_S lut) (fst ind) (snd ind)) (fun s =>
      let new := calc_dia r mu ray s in
      if converged new dia then Ok ((new, mu, s), dia)
      else pixel_loop n' r w new (new, mu, s)))))
  end.

Record state := { p_Do : nat -> nat -> D; p_mu : nat -> nat -> D; p_S : nat -> nat -> D;
                  p_corr : nat -> nat -> D; p_dia : nat -> nat -> D }.
(** [a[t, g] = x] and [a[t, g + 1:] *= x]. *)
Definition put (a : nat -> nat -> D) (t g : nat) (x : D) : nat -> nat -> D :=
  fun t' g' => if (t' =? t) && (g' =? g) then x else a t' g'.
Definition scale_above (a : nat -> nat -> D) (t g : nat) (x : D) : nat -> nat -> D :=
  fun t' g' => if (t' =? t) && (g <? g') then mul (a t' g') x else a t' g'.

(** products/drizzle_tools.py 265-281, one pixel. *)
Definition solve_pixel (st : state) (t g : nat) : result state :=
  bind (pixel_loop 10 (mul (ratio t g) (p_corr st t g)) (width_ht t g) (p_dia st t g)
          (p_Do st t g, p_mu st t g, p_S st t g)) (fun out =>
  match out with
  | (d, mu, s, dia) =>
      Ok {| p_Do := put (p_Do st) t g d; p_mu := put (p_mu st) t g mu; p_S := put (p_S st) t g s;
            p_corr := scale_above (p_corr st) t g (factor s (beta t g) g);
            p_dia := put (p_dia st) t g dia |}
  end).
Fixpoint solve_loop (st : state) (pixels : list (nat * nat)) : result state :=
  match pixels with
  | [] => Ok st
  | (t, g) :: rest => bind (solve_pixel st t g) (fun st' => solve_loop st' rest)
  end.
(** The indices of [np.where(drizzle == 1)], in the order of the array. *)
Definition drizzle_pixels : list (nat * nat) :=
  filter (fun p => drizzle (fst p) (snd p))
    (flat_map (fun t => map (fun g => (t, g)) (seq 0 n_height)) (seq 0 n_time)).
(** products/drizzle_tools.py 235-243 and 259-281, [_init_variables] and
    [_solve_drizzle]. *)
Definition initial : state :=
  {| p_Do := fun _ _ => zero; p_mu := fun _ _ => zero; p_S := fun _ _ => zero;
     p_corr := fun _ _ => one;
     p_dia := fun t g => if drizzle t g then calc_dia (ratio t g) zero one k_init else zero |}.
Definition solve_drizzle : result state := solve_loop initial drizzle_pixels.
End Solver.
