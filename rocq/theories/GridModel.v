(** Model of bin edges, rebinning, neighbour search and 1-D interpolation. *)
From Verif Require Import Base ArrayModel FillModel TimeModel.
From Coq Require Import Qabs String.
Open Scope nat_scope.

Definition qlt (a b : Q) : bool := negb (Qle_bool b a).
Definition qmin (a b : Q) : Q := if Qle_bool a b then a else b.

(** [np.searchsorted(l, x)] (side "left") by linear scan; equals numpy's bisection
    for sorted [l]. *)
Fixpoint searchsorted_left (l : list Q) (x : Q) : nat :=
  match l with [] => 0 | g :: r => if qlt g x then S (searchsorted_left r x) else 0 end.
(** side "right"; also [np.digitize(x, l)] for increasing [l]. *)
Fixpoint searchsorted_right (l : list Q) (x : Q) : nat :=
  match l with [] => 0 | g :: r => if Qle_bool g x then S (searchsorted_right r x) else 0 end.

(** ** Bin edges *)

(** [np.linspace(a, b, n + 1)], n > 0. *)
Definition linspace (a b : Q) (n : nat) : list Q :=
  map (fun i => (a + inject_Z (Z.of_nat i) * ((b - a) / inject_Z (Z.of_nat n)))%Q) (seq 0 (S n)).
(** utils.py 104-120.  Indices [x[1]], [x[-2]] raise IndexError for fewer than two
    points. *)
Definition binvec (x : list Q) : result (list Q) :=
  match nth_error x 0, nth_error x 1, nth_error x (List.length x - 1), nth_error x (List.length x - 2) with
  | Some x0, Some x1, Some xl, Some xp =>
      Ok (linspace (x0 - (x1 - x0) / 2) (xl + (xl - xp) / 2) (List.length x))
  | _, _, _, _ => Raise IndexError
  end.

(** ** rebin_2d *)

(** A reduction of numpy.ma over the unmasked values of a column ([ma.mean],
    [ma.std], [ma.max] with axis=0): masked if nothing is unmasked. *)
Fixpoint unmasked {A} (l : list (masked A)) : list A :=
  match l with [] => [] | Some v :: r => v :: unmasked r | None :: r => unmasked r end.
Definition ma_stat (stat : list Q -> Q) (col : list (masked Q)) : masked Q :=
  match unmasked col with [] => None | l => Some (stat l) end.
(** Column [j] of a block of rows. *)
Definition column {A} (block : list (list (masked A))) (j : nat) : list (masked A) :=
  map (fun row => match nth_error row j with Some v => v | None => None end) block.
(** Rows selected by a boolean vector. *)
Definition select {A} (mask : list bool) (l : list A) : list A :=
  map snd (filter fst (combine mask l)).

(** utils.py 142: [np.digitize(x_in, edges) - 1]; -1 is before the first edge. *)
Definition bin_numbers (edges x_in : list Q) : list Z :=
  map (fun x => (Z.of_nat (searchsorted_right edges x) - 1)%Z) x_in.
(** utils.py 144: [np.bincount(binn[binn >= 0], minlength=n_bins)]. *)
Definition bincount (binn : list Z) (n_bins : nat) : list nat :=
  let keep := filter (fun b => (0 <=? b)%Z) binn in
  let n := fold_right Nat.max n_bins (map (fun b => S (Z.to_nat b)) keep) in
  map (fun k => count_occ Z.eq_dec keep (Z.of_nat k)) (seq 0 n).
(** utils.py 150-162, one output row. *)
Definition rebin_row (stat : list Q -> Q) (mask_zeros : bool) (ncol : nat)
  (block : list (list (masked Q))) : list (masked Q) :=
  map (fun j =>
    match ma_stat stat (column block j) with
    | Some v => if mask_zeros && Qeq_bool v 0 then None else Some v
    | None => None
    end) (seq 0 ncol).
(** utils.py 131-164 with keepdim=False.  [ncol] is [array.shape[1]]; the result is
    not rounded to float32.  IndexError if [x_in] does not match the rows. *)
Definition rebin_2d (stat : list Q -> Q) (n_min : nat) (mask_zeros : bool) (ncol : nat)
  (x_in : list Q) (array : image (masked Q)) (x_new : list Q)
  : result (image (masked Q) * list nat) :=
  bind (binvec x_new) (fun edges =>
  let binn := bin_numbers edges x_in in
  let n_bins := List.length x_new in
  let counts := bincount binn n_bins in
  if negb (Nat.eqb (List.length x_in) (List.length array)) then Raise IndexError else
  let result := map (fun k =>
      if Nat.ltb (nth k counts 0) n_min then map (fun _ => None) (seq 0 ncol)
      else rebin_row stat mask_zeros ncol (select (map (Z.eqb (Z.of_nat k)) binn) array))
    (seq 0 n_bins) in
  Ok (result, where1 (map (fun c => Nat.ltb c n_min) counts))).
(** keepdim=True (used for the folding velocity, radar.py 377): every input row gets
    the statistic of its bin. *)
Definition rebin_2d_keepdim (stat : list Q -> Q) (n_min : nat) (mask_zeros : bool) (ncol : nat)
  (x_in : list Q) (array : image (masked Q)) (x_new : list Q)
  : result (image (masked Q) * list nat) :=
  bind (binvec x_new) (fun edges =>
  let binn := bin_numbers edges x_in in
  let n_bins := List.length x_new in
  let counts := bincount binn n_bins in
  if negb (Nat.eqb (List.length x_in) (List.length array)) then Raise IndexError else
  let result := map (fun b =>
      if (0 <=? b)%Z && (b <? Z.of_nat n_bins)%Z && negb (Nat.ltb (nth (Z.to_nat b) counts 0) n_min)
      then rebin_row stat mask_zeros ncol (select (map (Z.eqb b) binn) array)
      else map (fun _ => None) (seq 0 ncol)) binn in
  Ok (result, where1 (map (fun c => Nat.ltb c n_min) counts))).

(** ** Gaps *)

(** Distances with [None] for [np.inf]. *)
Definition inf_min (a b : option Q) : option Q :=
  match a, b with
  | Some x, Some y => Some (qmin x y)
  | Some x, None => Some x
  | None, y => y
  end.
Definition inf_gt (a : option Q) (t : Q) : bool :=
  match a with Some x => qgt x t | None => true end.
(** utils.py 515-529, nearest distance for one new point. *)
Definition gap_nearest (grid : list Q) (x : Q) : option Q :=
  let idx := searchsorted_left grid x in
  let left := if Nat.ltb 0 idx
              then option_map (fun g => Qabs (x - g)%Q) (nth_error grid (idx - 1)) else None in
  let right := if Nat.ltb idx (List.length grid)
               then option_map (fun g => Qabs (x - g)%Q) (nth_error grid (Nat.min idx (List.length grid - 1)))
               else None in
  inf_min left right.
Definition get_gap_ind (grid new_grid : list Q) (threshold : Q) : list nat :=
  match grid with
  | [] => seq 0 (List.length new_grid)
  | _ => where1 (map (fun x => inf_gt (gap_nearest grid x) threshold) new_grid)
  end.

(** ** Nearest neighbours *)

(** utils.py 462-468: index of the chosen source gate for one target height; [y] not
    empty. *)
Definition nearest_gate (y : list Q) (yn : Q) : nat :=
  let idx := Nat.min (searchsorted_left y yn) (List.length y - 1) in
  let left := idx - 1 in
  let choose_right :=
    Nat.eqb idx 0 ||
    (Nat.ltb idx (List.length y) &&
     qlt (Qabs (nth idx y 0%Q - yn)%Q) (Qabs (yn - nth left y 0%Q)%Q)) in
  if choose_right then idx else left.
Fixpoint list_min (d : Q) (l : list Q) : Q := match l with [] => d | x :: r => list_min (qmin d x) r end.
Fixpoint list_max (d : Q) (l : list Q) : Q := match l with [] => d | x :: r => list_max (qmax d x) r end.
(** utils.py 444-473.  An empty source grid makes [y.min()] raise ValueError (index
    -1 into an empty axis raises IndexError before, if there is a target). *)
Definition interpolate_2D_along_y {A} (y : list Q) (z : image (masked A)) (y_new : list Q)
  : result (image (masked A)) :=
  match y with
  | [] => match y_new with [] => Raise ValueError | _ => Raise IndexError end
  | y0 :: r =>
      sequence (map (fun row =>
        bind (gather row (map (nearest_gate y) y_new)) (fun vals =>
        Ok (map2 (fun v (yn : Q) => if qlt yn (list_min y0 r) || qgt yn (list_max y0 r) then None else v)
              vals y_new))) z)
  end.

(** radar.py 326-333: index of the radar timestamp whose location is used. *)
Definition closest_index (time : list Q) (t : Q) : nat :=
  let idx := searchsorted_left time t in
  let idx_left := Nat.min (idx - 1) (List.length time - 1) in
  let idx_right := Nat.min idx (List.length time - 1) in
  if qlt (Qabs (t - nth idx_left time 0%Q)%Q) (Qabs (t - nth idx_right time 0%Q)%Q)
  then idx_left else idx_right.
(** radar.py 326-340 for a location variable along time: [data[idx_closest]].  An
    empty time vector gives index -1 and raises IndexError. *)
Definition add_location {A} (time : list Q) (data : list A) (time_new : list Q) : result (list A) :=
  match time, time_new with
  | [], _ :: _ => Raise IndexError
  | _, _ => gather data (map (closest_index time) time_new)
  end.

(** ** interpolate_1d *)

(** [scipy.interpolate.interp1d(kind="linear")] with end values outside, which is
    [np.interp]: samples sorted by strictly increasing time. *)
Fixpoint interp_from (t0 y0 : Q) (samples : list (Q * Q)) (t : Q) : Q :=
  match samples with
  | [] => y0
  | (t1, y1) :: r =>
      if qlt t t1 then (y0 + (y1 - y0) / (t1 - t0) * (t - t0))%Q else interp_from t1 y1 r t
  end.
Definition interp (samples : list (Q * Q)) (t : Q) : Q :=
  match samples with
  | [] => 0%Q
  | (t0, y0) :: r => if qlt t t0 then y0 else interp_from t0 y0 r t
  end.
(** utils.py 476-512 with method "linear".  The sample is the time with the value
    and its mask.  [np.max] of an empty vector raises ValueError. *)
Definition interpolate_1d (time : list Q) (y : list (masked Q)) (time_new : list Q) (max_time : Q)
  : result (list (masked Q)) :=
  if negb (Nat.eqb (List.length time) (List.length y)) then Raise IndexError else
  match time with
  | [] => Raise ValueError
  | t0 :: r =>
      if qgt (list_max t0 r) 24 || qlt (list_min t0 r) 0 then Raise ValueError
      else
        let good := filter (fun p => negb (is_masked (snd p))) (combine time y) in
        match good with
        | [] => Ok (map (fun _ => None) time_new)
        | _ =>
            let gt := map fst good in
            let gy := unmasked (map snd good) in
            bind (gather gt (unique_index gt)) (fun ut =>
            bind (gather gy (unique_index gt)) (fun uy =>
            let bad := get_gap_ind ut time_new (max_time / 60)%Q in
            Ok (map (fun p => if existsb (Nat.eqb (fst p)) bad then None
                              else Some (interp (combine ut uy) (snd p)))
                  (enumerate time_new))))
        end
  end.

(** ** Observation windows on a model grid *)

Fixpoint midpoints (l : list Q) : list Q :=
  match l with
  | a :: (b :: _) as r => ((a + b) / 2)%Q :: midpoints r
  | _ => []
  end.
(** model_evaluation/products/tools.py 16-21. *)
Definition rebin_edges (arr : list Q) : result (list Q) :=
  match nth_error arr 0, nth_error arr 1, nth_error arr (List.length arr - 1), nth_error arr (List.length arr - 2) with
  | Some a0, Some a1, Some al, Some ap =>
      Ok ((a0 - (a1 - a0))%Q :: midpoints arr ++ [(al + (al - ap))%Q])
  | _, _, _, _ => Raise IndexError
  end.
(** tools.py 44-52 without a mask (grid_methods.py never passes one). *)
Definition get_1d_indices (lo hi : Q) (data : list Q) : list bool :=
  map (fun x => Qle_bool lo x && qlt x hi) data.
(** grid_methods.py 51-66: window [i] between edges [i] and [i + 1]. *)
Definition window (edges data : list Q) (i : nat) : list bool :=
  match nth_error edges i, nth_error edges (S i) with
  | Some lo, Some hi => get_1d_indices lo hi data
  | _, _ => []
  end.

(** [ma.mean] of a non-empty list of unmasked values. *)
Definition mean (l : list Q) : Q := (fold_right Qplus 0 l / inject_Z (Z.of_nat (List.length l)))%Q.
(** grid_methods.py 65 and [obs_data[ind]] with [ind = np.outer(x_ind, y_ind)]: the
    selected pixels in row-major order. *)
Definition select_window {A} (x_ind y_ind : list bool) (obs : image A) : list A :=
  flat_map (select y_ind) (select x_ind obs).
(** grid_methods.py 130-143, one cell of a standard product: the mean of the valid
    selected pixels, masked if there is none.  A NaN is a masked pixel here. *)
Definition regrid_product (x_ind y_ind : list bool) (obs : image (masked Q)) : masked Q :=
  ma_stat mean (select_window x_ind y_ind obs).
(** grid_methods.py 67-76 and 119-128, one cell of the cloud fraction by volume.  The
    storage starts at zero (lines 94-101) and a cell without a window is skipped. *)
Definition regrid_cf (x_ind y_ind : list bool) (obs : image (masked Q)) : masked Q :=
  if existsb (fun b => b) x_ind && existsb (fun b => b) y_ind
  then ma_stat mean (select_window x_ind y_ind obs)
  else Some 0%Q.
