(** Model of the melting layer detection (melting.py) and of the freezing region
    (freezing.py). *)
From Verif Require Import Base ArrayModel FillModel TimeModel GridModel LayerModel ImageModel
  ClassifyModel DropletModel TelegramModel.
From Coq Require Import String Ascii.
Open Scope string_scope.
Open Scope nat_scope.
Local Notation length := List.length (only parsing).

(** An element of a masked array with the data under the mask: the velocities of
    [_find_melting_layer_from_v] are used without their mask. *)
Record element := { data : Q; hidden : bool }.
Definition visible (e : element) : masked Q := if hidden e then None else Some (data e).

(** Comparisons of masked scalars: [bool(ma.masked)] is False. *)
Definition exceeds (a : masked Q) (b : Q) : bool := match a with Some x => qlt b x | None => false end.
Definition is_under (a : masked Q) (b : Q) : bool := match a with Some x => qlt x b | None => false end.
Definition minus (a b : masked Q) : masked Q :=
  match a, b with Some x, Some y => Some (x - y)%Q | _, _ => None end.

(** [np.argmax] of a masked array: masked values are below every other value; 0 if
    everything is masked, ValueError when empty. *)
Fixpoint masked_argmax_from (i best : nat) (bestv : masked Q) (l : list (masked Q)) : nat :=
  match l with
  | [] => best
  | x :: r =>
      match x, bestv with
      | Some a, Some b => if qlt b a then masked_argmax_from (S i) i x r
                          else masked_argmax_from (S i) best bestv r
      | Some _, None => masked_argmax_from (S i) i x r
      | None, _ => masked_argmax_from (S i) best bestv r
      end
  end.
Definition masked_argmax (l : list (masked Q)) : result nat :=
  match l with [] => Raise ValueError | x :: r => Ok (masked_argmax_from 1 0 x r) end.

(** [ma.count]. *)
Definition count (l : list (masked Q)) : nat := length (unmasked l).

(** [str.lower] for ASCII letters. *)
Definition lower_ascii (c : ascii) : ascii :=
  let n := nat_of_ascii c in if (65 <=? n) && (n <=? 90) then ascii_of_nat (n + 32) else c.
Fixpoint lower (s : string) : string :=
  match s with EmptyString => EmptyString | String c r => String (lower_ascii c) (lower r) end.

(* ------------------------------------------------------------------ *)
(** ** melting.py *)

(** melting.py 175-179, [_find_model_temperature_range]. *)
Definition find_model_temperature_range (model_type : string) : Q * Q :=
  if contains "gdas1" (lower model_type) then (- (8), 6)%Q else (- (4), 3)%Q.

(** melting.py 169-172, [_get_temp_indices], one unmasked profile; the result of
    [np.where] is increasing, so its minimum and maximum are its ends. *)
Definition get_temp_indices (t_prof : list Q) (t_range : Q * Q) : list nat :=
  match where1 (map (fun t => qlt (qmin (fst t_range) (snd t_range) + T0) t
                              && qlt t (qmax (fst t_range) (snd t_range) + T0)) t_prof) with
  | [] => []
  | i :: r => seq i (S (last (i :: r) 0) - i)
  end.

(** melting.py 162-166, [_basetop]: base and top. *)
Definition basetop (dprof : list Q) (pind : nat) : result (nat * nat) :=
  bind (ind_top dprof pind (length dprof) 10 2) (fun top =>
  bind (ind_base dprof pind 10 2) (fun base => Ok (base, top))).

(** melting.py 107-125, [_find_melting_layer_from_ldr].  [np.floor(base + (peak -
    base) / 2)] with base below peak. *)
Definition find_melting_layer_from_ldr (ldr_prof : list (masked Q)) (ldr_dprof : list Q)
  (v_prof z_prof : list (masked Q)) : result (option (list nat)) :=
  bind (masked_argmax ldr_prof) (fun peak =>
  bind (basetop ldr_dprof peak) (fun bt =>
  let (base, top) := (bt : nat * nat) in
  bind (item ldr_prof peak) (fun ldr_peak =>
  bind (item ldr_prof base) (fun ldr_base =>
  bind (item z_prof base) (fun z_base =>
  bind (item v_prof base) (fun v_base =>
  if exceeds (minus ldr_peak ldr_base) 4 && exceeds ldr_peak (- (30)) && exceeds z_base (- (25))
     && is_under v_base (- (3 # 2))
  then let base := base + (peak - base) / 2 in Ok (Some (seq base (top - base)))
  else Ok None)))))).

(** melting.py 133-137: [np.copy] of a masked array and a masked index array both
    drop the mask, so the data under the mask are used; where the velocity does
    not change, the velocity itself stays in the array. *)
Definition velocity_steps (v_data : list Q) : list Q :=
  map2 (fun v d => assign (qlt 0%Q d) 1%Q (assign (qlt d 0%Q) 0%Q v)) (removelast v_data) (diffs v_data).

(** melting.py 128-159, [_find_melting_layer_from_v].  [round] is to the nearest
    integer, ties to even. *)
Definition find_melting_layer_from_v (v_prof : list element) (width_prof : option (list (masked Q)))
  (height : list Q) : result (option (list nat)) :=
  let n_increasing := cumsumr (velocity_steps (map data v_prof)) in
  bind (argmax n_increasing) (fun top =>
  match where1 (map (fun x => Qeq_bool x 0) (firstn top n_increasing)) with
  | [] => Ok None
  | i :: r =>
      let base := last (i :: r) 0 in
      bind (item v_prof top) (fun v_top =>
      bind (item v_prof base) (fun v_base =>
      bind (item height top) (fun h_top =>
      bind (item height base) (fun h_base =>
      bind (match width_prof with
            | Some w => bind (item w base) (fun w_base => bind (item w top) (fun w_top =>
                        Ok (exceeds (minus w_base w_top) (1 # 5)
                            && exceeds (minus (visible v_top) (visible v_base)) (1 # 2))))
            | None => Ok (exceeds (minus (visible v_top) (visible v_base)) 2)
            end) (fun strong =>
      if strong && qlt 50 (h_top - h_base) && qlt (h_top - h_base) 1000
         && is_under (visible v_base) (- (2))
      then let base' := Z.to_nat (round_half_even (inject_Z (Z.of_nat top)
                                   - inject_Z (Z.of_nat top - Z.of_nat base) / 2)) in
           Ok (Some (seq base' (top - base')))
      else Ok None)))))
  end).

(** The observations used by melting.py (containers.py 39-88); [ldr] and [width]
    may be absent. *)
Record melt_obs := {
  mo_tw : image Q; mo_z : image (masked Q); mo_v : image element;
  mo_ldr : option (image (masked Q)); mo_width : option (image (masked Q));
  mo_height : list Q; mo_model_type : string }.

(** melting.py 65-98: one profile.  The lookup of the gradient (line 77) is outside
    the [try] block and the gradient is one gate shorter than the profile. *)
Definition melting_profile (o : melt_obs) (ind : nat) (t_prof : list Q) : result (list bool) :=
  let nothing := map (fun _ => false) t_prof in
  let temp_indices := get_temp_indices t_prof (find_model_temperature_range (mo_model_type o)) in
  if length temp_indices <=? 1 then Ok nothing else
  bind (gather (nth ind (mo_z o) []) temp_indices) (fun z_prof =>
  bind (gather (nth ind (mo_v o) []) temp_indices) (fun v_prof =>
  bind (match mo_ldr o with
        | None => Ok None
        | Some ldr =>
            bind (gather (nth ind ldr []) temp_indices) (fun ldr_prof =>
            bind (gather (filled_diff (nth ind ldr [])) temp_indices) (fun ldr_dprof =>
            Ok (Some (ldr_prof, ldr_dprof))))
        end) (fun ldrs =>
  if match ldrs with Some (ldr_prof, _) => 3 <? count ldr_prof | None => false end
     || (3 <? count (map visible v_prof))
  then
    let from_v :=
      bind (gather (mo_height o) temp_indices) (fun height =>
      bind (match mo_width o with
            | None => Ok None
            | Some w => bind (gather (nth ind w []) temp_indices) (fun wp => Ok (Some wp))
            end) (fun width_prof =>
      find_melting_layer_from_v v_prof width_prof height)) in
    bind (match ldrs with
          | None => from_v
          | Some (ldr_prof, ldr_dprof) =>
              match find_melting_layer_from_ldr ldr_prof ldr_dprof (map visible v_prof) z_prof with
              | Raise ValueError => from_v
              | Raise IndexError => from_v
              | r => r
              end
          end) (fun indices =>
    match indices with
    | None => Ok nothing
    | Some l => bind (gather temp_indices l) (fun pos =>
                Ok (mapi_from (fun j b => assign (existsb (Nat.eqb j) pos) true b) 0 nothing))
    end)
  else Ok nothing))).

(** scipy.ndimage, mode "reflect" (d c b a | a b c d | d c b a): the array index of
    position [k] for an array of length [n]. *)
Definition reflect (n : nat) (k : Z) : nat :=
  let m := (k mod (2 * Z.of_nat n))%Z in
  Z.to_nat (if (m <? Z.of_nat n)%Z then m else 2 * Z.of_nat n - 1 - m)%Z.

(** melting.py 101-102: [gaussian_filter(layer, (2, 0.1)) > 0.2].  The kernel is cut
    off at four standard deviations ([int(4 * sigma + 0.5)]), which is 8 profiles
    in time and 0 gates in height.  [weights k] is the weight at distance [k]. *)
Definition smooth_layer (weights : nat -> Q) (layer : image bool) : image bool :=
  imapi (fun i j _ =>
    qlt (1 # 5) (fold_right Qplus 0 (map (fun k =>
      weights (Z.abs_nat k) *
        (if ImageModel.get layer (reflect (length layer) (Z.of_nat i + k)) j then 1 else 0))
      (map (fun k => Z.of_nat k - 8)%Z (seq 0 17))))%Q) layer.

(** melting.py 14-104, [find_melting_layer]. *)
Definition find_melting_layer (weights : nat -> Q) (smooth : bool) (o : melt_obs) : result (image bool) :=
  bind (sequence (map (fun p => melting_profile o (fst p) (snd p)) (enumerate (mo_tw o)))) (fun layer =>
  Ok (if smooth then smooth_layer weights layer else layer)).

(* ------------------------------------------------------------------ *)
(** ** freezing.py *)

(** freezing.py 96-109, one profile of [find_t0_alt]: [sorted] of two (temperature,
    height) tuples, then [np.interp]. *)
Definition pair_le (p q : Q * Q) : bool :=
  qlt (fst p) (fst q) || (Qeq_bool (fst p) (fst q) && Qle_bool (snd p) (snd q)).
Definition t0_alt_profile (height prof : list Q) : result Q :=
  match where1 (map (fun t => qlt t T0) prof) with
  | [] => Raise IndexError
  | 0 :: _ => item height 0
  | S i :: _ =>
      bind (item prof i) (fun t_below => bind (item prof (S i)) (fun t_above =>
      bind (item height i) (fun h_below => bind (item height (S i)) (fun h_above =>
      let p := (t_below, h_below) in let q := (t_above, h_above) in
      Ok (interp (if pair_le p q then [p; q] else [q; p]) T0)))))
  end.
(** freezing.py 84-110, [find_t0_alt]. *)
Definition find_t0_alt (temperature : image Q) (height : list Q) : result (list Q) :=
  sequence (map (t0_alt_profile height) temperature).

(** freezing.py 73-81, [_find_mean_melting_alt]: the median height of the melting
    gates of each profile. *)
Definition find_mean_melting_alt (height : list Q) (melting_layer : image bool) : list (masked Q) :=
  map (fun row => median (select row height)) melting_layer.

(** freezing.py 63-70, [_is_all_freezing]: [mean_melting_alt.all()] is masked when
    every value is masked. *)
Definition is_all_freezing (mean_melting_alt : list (masked Q)) (t0_alt : list Q) (height : list Q)
  : result bool :=
  bind (item height 0) (fun h0 =>
  Ok (forallb is_masked mean_melting_alt && forallb (fun a => Qle_bool a h0) t0_alt)).

(** [a[ind] or b[ind]]: masked and 0 are false. *)
Definition or_else (a : masked Q) (b : Q) : Q :=
  match a with Some x => if Qeq_bool x 0 then b else x | None => b end.

(** freezing.py 46-54: the altitudes to interpolate.  Position [i] gets the model
    altitude if it is the middle of a window without melting layer, or an end
    without melting layer. *)
Definition freezing_altitudes (mean_melting_alt : list (masked Q)) (t0_alt : list Q) (win : nat)
  : result (list (masked Q)) :=
  let n := length mean_melting_alt in
  bind (item mean_melting_alt 0) (fun first_alt =>
  bind (item t0_alt 0) (fun first_t0 =>
  bind (set_nth mean_melting_alt 0 (Some (or_else first_alt first_t0))) (fun alts =>
  bind (item mean_melting_alt (n - 1)) (fun last_alt =>
  bind (item t0_alt (n - 1)) (fun last_t0 =>
  bind (set_nth alts (n - 1) (Some (or_else last_alt last_t0))) (fun alts =>
  fold_result (fun alts k =>
      if forallb is_masked (section k (k + win) mean_melting_alt)
      then bind (item t0_alt (k + win / 2)) (fun a => set_nth alts (k + win / 2) (Some a))
      else Ok alts)
    (seq 0 (n - win)) alts)))))).

(** The unmasked altitudes with their times (freezing.py 55-56). *)
Definition valid_altitudes (time : list Q) (alts : list (masked Q)) : list (Q * Q) :=
  flat_map (fun p => match snd p with Some a => [(fst p, a)] | None => [] end) (combine time alts).

(** [interp1d(x, y)(t)] with increasing [x]: ValueError outside the range of [x]. *)
Definition interp_inside (samples : list (Q * Q)) (t : Q) : result Q :=
  match samples with
  | [] => Raise ValueError
  | s :: r => if qlt t (fst s) || qlt (fst (last r s)) t then Raise ValueError else Ok (interp samples t)
  end.

(** freezing.py 15-60, [find_freezing_region].  The window length is not negative
    for increasing times ([Z.to_nat]). *)
Definition find_freezing_region (tw : image Q) (time height : list Q) (melting_layer : image bool)
  : result (image bool) :=
  bind (find_t0_alt tw height) (fun t0_alt =>
  let mean_melting_alt := find_mean_melting_alt height melting_layer in
  bind (is_all_freezing mean_melting_alt t0_alt height) (fun all_freezing =>
  if all_freezing then Ok (imap (fun _ => true) tw) else
  bind (n_elements time 240 true) (fun win =>
  bind (freezing_altitudes mean_melting_alt t0_alt (Z.to_nat win)) (fun alts =>
  bind (sequence (map (interp_inside (valid_altitudes time alts)) time)) (fun interpolated =>
  Ok (map (fun alt => map (fun h => qlt (alt - 1) h) height) interpolated)))))).
