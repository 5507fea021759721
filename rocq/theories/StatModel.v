(** Model of the day statistics of the model evaluation
    (model_evaluation/statistics/statistical_methods.py), of the loop that calculates
    them for every observation (model_evaluation/plotting/plotting.py 224-315) and of
    the helpers of these figures (model_evaluation/plotting/plot_tools.py).
    Floating point numbers are exact rationals or NaN; infinities are not modelled.
    Two-dimensional arrays are flattened where their shape does not matter.  The data
    under a mask are not kept: no function here reads them. *)
From Coq Require Import List Bool Arith ZArith QArith String.
From Verif Require Import Base TimeModel GridModel ArrayModel TelegramModel.
Import ListNotations.
Open Scope string_scope. Open Scope nat_scope. Open Scope list_scope.
Local Notation length := List.length (only parsing).

(** A floating point number. *)
Inductive num := Num (q : Q) | NaN.
(** An element of a masked array. *)
Definition cell := masked num.

(** [np.round(x, decimals)] of numpy: [x] is scaled, rounded half to even, and scaled
    back. *)
Definition round_to (scale : positive) (q : Q) : Q :=
  (inject_Z (round_half_even (q * inject_Z (Zpos scale))) / inject_Z (Zpos scale))%Q.

(** statistical_methods.py 105 and 120-121: [x[np.where(np.isnan(x))] = ma.masked]. *)
Definition mask_nan (c : cell) : cell := match c with Some NaN => None | _ => c end.

(** The numbers of a masked array. *)
Definition numbers (l : list cell) : list Q :=
  flat_map (fun c => match c with Some (Num q) => [q] | _ => [] end) l.

(** [np.min(observation)] (106 and 122) of a masked array without NaN, as it is used in
    a comparison: the smallest number; without any number it is [ma.masked], which
    compares as its data, zero. *)
Definition min_number (l : list cell) : Q :=
  match numbers l with
  | [] => 0%Q
  | q :: r => fold_left (fun a b => if qlt b a then b else a) r q
  end.

(** 106 and 122: [model[model < t] = ma.masked]; NaN is not less than anything. *)
Definition mask_below (t : Q) (c : cell) : cell :=
  match c with Some (Num q) => if qlt q t then None else c | _ => c end.

Definition is_masked (c : cell) : bool := match c with None => true | Some _ => false end.

(** [a[mask] = ma.masked] *)
Definition mask_where (mask : list bool) (l : list cell) : list cell :=
  map2 (fun (b : bool) (c : cell) => if b then None else c) mask l.

(** statistical_methods.py 100-110, [combine_masked_indices]: the model and the
    observation afterwards (both arrays are changed in place). *)
Definition combine_masked_indices (model observation : list cell) : list cell * list cell :=
  let observation := map mask_nan observation in
  let model := map (mask_below (min_number observation)) model in
  let combine_mask := map2 orb (map is_masked model) (map is_masked observation) in
  (mask_where combine_mask model, mask_where combine_mask observation).

(** statistical_methods.py 87-88: [np.round(((m - o) / o) * 100, 2)] of one element.
    Division of masked arrays masks quotients that are not finite: a zero divisor and
    NaN. *)
Definition relative_cell (m o : cell) : cell :=
  match m, o with
  | Some (Num m), Some (Num o) =>
      if Qeq_bool o 0 then None else Some (Num (round_to 100 ((m - o) / o * 100)))
  | _, _ => None
  end.
(** 96-97: [np.round((o - m) * 100, 2)] of one element. *)
Definition absolute_cell (m o : cell) : cell :=
  match m, o with
  | Some (Num m), Some (Num o) => Some (Num (round_to 100 ((o - m) * 100)))
  | Some _, Some _ => Some NaN
  | _, _ => None
  end.

(** A statistic returns its result, and the model and the observation as it leaves
    them. *)
Definition outcome A := (A * (list cell * list cell))%type.

(** statistical_methods.py 79-88, [relative_error] *)
Definition relative_error (model observation : list cell) : outcome (list cell) :=
  let '(model, observation) := combine_masked_indices model observation in
  (map2 relative_cell model observation, (model, observation)).

(** statistical_methods.py 91-97, [absolute_error] *)
Definition absolute_error (model observation : list cell) : outcome (list cell) :=
  let '(model, observation) := combine_masked_indices model observation in
  (map2 absolute_cell model observation, (model, observation)).

(** [np.sum(~mask)] *)
Definition count_false (l : list bool) : Z := Z.of_nat (length (filter negb l)).

(** statistical_methods.py 113-132, [calc_common_area_sum] *)
Definition calc_common_area_sum (model observation : list cell) : outcome Q :=
  let observation := map mask_nan observation in
  let model := map mask_nan model in
  let model := map (mask_below (min_number observation)) model in
  let combine_mask := map2 orb (map is_masked model) (map is_masked observation) in
  let common_mask := map2 andb (map is_masked model) (map is_masked observation) in
  let valid_area := count_false common_mask in
  let match_ := if Z.eqb valid_area 0 then 0%Q
    else round_to 100 (inject_Z (count_false combine_mask) / inject_Z valid_area * 100) in
  (match_, (model, observation)).

(** statistical_methods.py 153: the last edge of [np.histogram] with ten bins: the
    largest number; without numbers the range is 0 to 1, and with one repeated number
    half a unit is added on both sides. *)
Definition last_edge (l : list Q) : Q :=
  match l with
  | [] => 1%Q
  | q :: r =>
      let largest := fold_left (fun a b => if qlt a b then b else a) r q in
      let smallest := fold_left (fun a b => if qlt b a then b else a) r q in
      if Qeq_bool largest smallest then (largest + (1 # 2))%Q else largest
  end.

(** [ma.round(x[~x.mask].data, decimals)] *)
Definition visible_rounded (scale : positive) (l : list cell) : list num :=
  flat_map (fun c => match c with
                     | Some (Num q) => [Num (round_to scale q)]
                     | Some NaN => [NaN]
                     | None => []
                     end) l.

(** statistical_methods.py 135-155, [histogram]; [cloud_fraction] is
    ["cf" in product], membership in a list of names. *)
Definition histogram (cloud_fraction : bool) (model observation : list cell) : list num * list num :=
  let scale := if cloud_fraction then 10%positive else 1000000%positive in
  let model := visible_rounded scale model in
  let observation := filter (fun x => match x with NaN => false | Num _ => true end)
                            (visible_rounded scale observation) in
  let edge := last_edge (numbers (map Some observation)) in
  (map (fun x => match x with Num q => if qlt edge q then Num edge else x | NaN => NaN end) model,
   observation).

Definition qsum (l : list Q) : Q := fold_left Qplus l 0%Q.
Definition qmean (l : list Q) : Q := (qsum l / inject_Z (Z.of_nat (length l)))%Q.

(** [np.isnan(x)] *)
Definition is_nan (c : cell) : bool := match c with Some NaN => true | _ => false end.

(** 161: [ma.mean] of the values of one level: masked without values, NaN if one is. *)
Definition ma_mean (l : list cell) : cell :=
  if forallb is_masked l then None
  else if existsb is_nan l then Some NaN
  else Some (Num (qmean (numbers l))).
(** 162: [np.nanmean] of the values of one level.  A level without numbers is masked
    or NaN depending on numpy; it is [None] here. *)
Definition nan_mean (l : list cell) : masked Q :=
  match numbers l with [] => None | _ :: _ => Some (qmean (numbers l)) end.

(** statistical_methods.py 158-163, [vertical_profile]; the arrays are given as one list
    of values per level. *)
Definition vertical_profile (model observation : list (list cell)) : list cell * list (masked Q) :=
  (map ma_mean model, map nan_mean observation).

(** ** The figures *)

(** plotting.py 271-273 and statistical_methods.py 54-67: which error is calculated.
    [DayStatistics] catches a RuntimeError only around the calculation, so an unknown
    name raises. *)
Definition error_statistic (product : string) : list cell -> list cell -> outcome (list cell) :=
  if String.eqb product "cf" then absolute_error else relative_error.

(** plotting.py 264-295 for the statistic "error": the panels drawn for the observations
    [names[1:]].  [model_data] is read once; every statistic masks it in place and the
    next one gets it as it is left.  [_check_data2] (245-247) raises when nothing is left
    to show, and the exception ends the loop (296). *)
Fixpoint error_loop (product : string) (model : list cell) (observations : list (list cell))
  : list (list cell) :=
  match observations with
  | [] => []
  | o :: r =>
      let '(panel, (model, _)) := error_statistic product model o in
      if forallb is_masked panel then [] else panel :: error_loop product model r
  end.
(** plotting.py 264-270: without any model data nothing is drawn: the first name is the
    model itself, so [obs_missing] is set too. *)
Definition error_panels (product : string) (model : list cell) (observations : list (list cell))
  : list (list cell) :=
  if forallb is_masked model then [] else error_loop product model observations.

(** The same for the statistic "area", which never stops. *)
Fixpoint area_loop (model : list cell) (observations : list (list cell)) : list Q :=
  match observations with
  | [] => []
  | o :: r => let '(a, (model, _)) := calc_common_area_sum model o in a :: area_loop model r
  end.
Definition area_panels (model : list cell) (observations : list (list cell)) : list Q :=
  if forallb is_masked model then [] else area_loop model observations.

(** plot_tools.py 106-112, [create_segment_values]: the four assignments in order; both
    arrays have a full mask. *)
Definition segment_value (m o : cell) : nat :=
  let v := 0 in
  let v := if is_masked m && is_masked o then 0 else v in
  let v := if negb (is_masked m) && is_masked o then 1 else v in
  let v := if negb (is_masked o) && is_masked m then 3 else v in
  if negb (is_masked m) && negb (is_masked o) then 2 else v.
Definition create_segment_values (model obs : list cell) : list nat := map2 segment_value model obs.

(** plot_tools.py 120-127, [rolling_mean]; [None] is NaN. *)
Definition rolling_mean (n : nat) (data : list cell) : list (masked Q) :=
  map (fun i => let window := firstn n (skipn i data) in
                if forallb is_masked window then None else nan_mean window)
      (seq 0 (length data)).

(** plot_tools.py 90-96, [mask_small_values]; [1e-5] and [1e-7] are taken as exact. *)
Definition mask_small_values (name : string) (data : list cell) : list cell :=
  let data := map (fun c => match c with Some (Num q) => if Qle_bool q 0 then None else c | _ => c end) data in
  let data := if contains "lwc" name then map (mask_below (1 # 100000)) data else data in
  if contains "iwc" name then map (mask_below (1 # 10000000)) data else data.

(** model_metadata.py 33 *)
Definition is_model (n : string) : bool := prefix "model_" n.

(** [list.remove], [list.insert] *)
Fixpoint remove_first (x : string) (l : list string) : list string :=
  match l with [] => [] | y :: r => if String.eqb x y then r else y :: remove_first x r end.
Definition insert (i : nat) (x : string) (l : list string) : list string := firstn i l ++ x :: skipn i l.

(** plot_tools.py 60-65, [sort_model2first_element] *)
Definition sort_model2first_element (a : list string) : list string :=
  fold_left (fun a im => insert (fst im) (snd im) (remove_first (snd im) a))
            (combine (seq 0 (length (filter is_model a))) (filter is_model a)) a.

(** plot_tools.py 52-57, [parse_dataset_keys], from the names of the variables. *)
Definition parse_dataset_keys (variables : list string) (product : string) (advance : bool) : list string :=
  let names := filter (contains product) variables in
  if advance then names
  else filter (fun n => negb (contains "cirrus" n) && negb (contains "snow" n)) names.

(** plot_tools.py 30-49, [parse_wanted_names] without a list of variables. *)
Definition parse_wanted_names (variables : list string) (name : string) (advance : bool)
  : list string * list string :=
  let names := parse_dataset_keys variables name advance in
  let standard_n := filter (fun n => contains name n && negb (contains "adv" n)) names in
  let standard_n := sort_model2first_element standard_n in
  let advection_n := filter (fun n => contains name n && contains "adv" n) names in
  let model_names := filter is_model names in
  let advection_n := fold_left (fun a im => insert (fst im) (snd im) a)
                               (combine (seq 0 (length model_names)) model_names) advection_n in
  if length advection_n <? length standard_n then (standard_n, [])
  else if length standard_n <? length advection_n then (advection_n, [])
  else (standard_n, advection_n).
