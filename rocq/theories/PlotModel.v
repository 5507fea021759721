(** Model of the pure computations behind the figures of cloudnetpy
    (/repo/cloudnetpy/plotting/plotting.py): gaps in the data, model profiles
    without data, segments hidden from status figures, cell edges, the highest
    gate shown, moving averages, flagged periods and the limits of the y axis.

    Simplifications: floats are rationals; a profile is the list of its pixels
    (one pixel for time series); drawing itself (matplotlib) is not modelled,
    only the numbers handed to it. *)
From Coq Require Import List Bool Arith ZArith QArith Qround Qabs String Ascii Lia.
From Verif Require Import Base TimeModel GridModel ArrayModel DropletModel.
Import ListNotations.
Open Scope string_scope. Open Scope nat_scope. Open Scope list_scope.
Local Notation length := List.length (only parsing).

Definition profile := list (masked Q).

(* ------------------------------------------------------------------ *)
(** ** Gaps *)

(** plotting.py 1234-1245: the table of the longest allowed gaps (minutes). *)
Definition max_allowed_gap : list (string * Z) :=
  [("mwr-multi", 35%Z); ("weather-station", 12%Z); ("doppler-lidar-wind", 75%Z);
   ("doppler-lidar", 75%Z); ("epsilon-lidar", 75%Z); ("radar", 5%Z);
   ("cpr-simulation", 60%Z); ("weather-radar", 20%Z)].
Fixpoint gap_lookup (k : string) (l : list (string * Z)) : Z :=
  match l with [] => 10%Z | (k', v) :: r => if String.eqb k k' then v else gap_lookup k r end.

(** [np.min]: ValueError for an empty array. *)
Definition np_min (l : list Q) : result Q :=
  match l with
  | [] => Raise ValueError
  | x :: r => Ok (fold_left (fun a b => if Qle_bool a b then a else b) r x)
  end.

(** plotting.py 1230-1246, [_get_max_gap_in_minutes].  The file type of the
    figure and of the file are the same attribute. *)
Definition get_max_gap_in_minutes (file_type : string) (time : list Q) : result Z :=
  if String.eqb file_type "model"
  then bind (np_min (diffs time)) (fun res_h => Ok (round_half_even (60 * res_h)%Q))
  else Ok (gap_lookup file_type max_allowed_gap).

(** [np.insert(array, ind, values, axis=0)] for one index. *)
Definition insert_at {A} (i : nat) (xs l : list A) : list A := firstn i l ++ xs ++ skipn i l.

(** [np.clip(ind, 0, n - 1)] of a natural number, n > 0. *)
Definition clip_index (n i : nat) : nat := Nat.min i (n - 1).

Definition is_some {A} (x : option A) : bool := match x with Some _ => true | None => false end.

(** plotting.py 1272-1281, [screen_completely_masked_profiles].  [Ok None]
    stands for the PlottingError "All values masked in the file.". *)
Definition screen_completely_masked_profiles (time : list Q) (data : list profile)
  : result (option (list Q * list profile)) :=
  if forallb (forallb is_some) data then Ok (Some (time, data))
  else
    let good_ind := where1 (map (existsb is_some) data) in
    match rev good_ind with
    | [] => Ok None
    | last_good :: _ =>
      let good_ind := map (clip_index (length time)) (good_ind ++ [S last_good]) in
      bind (sequence (map (item time) good_ind)) (fun t =>
      bind (sequence (map (item data) good_ind)) (fun d => Ok (Some (t, d))))
    end.

(** plotting.py 511, [time_delta]. *)
Definition time_delta : Q := 1 # 1000.

(** The arrays [time_new] and [data_new] (with [mask_new]) of plotting.py 499-500. *)
Definition arrays := (list Q * list profile)%type.

(** plotting.py 512-517: one round of the loop.  [blank] is the pair of fully
    masked rows.  The inner [np.insert] of two times in front of the same index. *)
Definition insert_gap (time : list Q) (blank : list profile) (st : arrays) (ind : nat) : arrays :=
  let (time_new, data_new) := st in
  let ind_gap := S ind in
  let data_new := insert_at ind_gap blank data_new in
  let time_new := insert_at ind_gap [(nth ind_gap time 0 - time_delta)%Q] time_new in
  let time_new := insert_at ind_gap [(nth (ind_gap - 1) time 0 + time_delta)%Q] time_new in
  (time_new, data_new).

(** plotting.py 494-530: the part of [_mark_gaps] after the screening of model
    profiles, for the longest gap [g] in hours.  An empty array cannot get here. *)
Definition insert_gaps (g min_x max_x : Q) (time : list Q) (data : list profile) : arrays :=
  let gap_indices := where1 (map (fun d => qlt g d) (diffs time)) in
  let blank := repeat (repeat None (length (hd [] data))) 2 in
  let st := fold_left (insert_gap time blank) (rev gap_indices) (time, data) in
  let st := if qlt g (hd 0%Q time - min_x)
            then (insert_at 0 [time_delta] (insert_at 0 [(hd 0 time - time_delta)%Q] (fst st)),
                  insert_at 0 blank (snd st))
            else st in
  if qlt g (max_x - last time 0%Q)
  then let ind_gap := length (snd st) in
       (insert_at ind_gap [(last time 0 + time_delta)%Q] (insert_at ind_gap [(max_x - time_delta)%Q] (fst st)),
        insert_at ind_gap blank (snd st))
  else st.

(** plotting.py 481-532, [_mark_gaps].  Both callers pass 0 as [min_x].
    [Ok None] stands for the PlottingError of the screening. *)
Definition mark_gaps (file_type : string) (min_x max_x : Q) (time : list Q) (data : list profile)
  : result (option arrays) :=
  match time with
  | [] => Raise IndexError
  | t0 :: _ =>
    if qlt t0 min_x || qlt max_x (last time 0%Q) then Raise ValueError
    else
      bind (get_max_gap_in_minutes file_type time) (fun minutes =>
      let max_gap_fraction_hour := (inject_Z minutes / 60)%Q in
      bind (if String.eqb file_type "model" then screen_completely_masked_profiles time data
            else Ok (Some (time, data))) (fun screened =>
      Ok (option_map (fun '(t, d) => insert_gaps max_gap_fraction_hour min_x max_x t d) screened)))
  end.

(** [set(a) - set(b)], sorted. *)
Definition qmem (x : Q) (l : list Q) : bool := existsb (Qeq_bool x) l.
Fixpoint qset (l : list Q) : list Q :=
  match l with [] => [] | x :: r => if qmem x r then qset r else x :: qset r end.

(** [[gap_times[i : i + 2] for i in range(0, len(gap_times), 2)]]. *)
Fixpoint chunk2 (l : list Q) : list (list Q) :=
  match l with
  | [] => []
  | [a] => [[a]]
  | a :: b :: r => [a; b] :: chunk2 r
  end.

(** plotting.py 446-449, the hatched periods of [_fill_between_data_gaps]. *)
Definition gap_batches (time_including_gaps time : list Q) : list (list Q) :=
  chunk2 (qsort (filter (fun t => negb (qmem t time)) (qset time_including_gaps))).

(* ------------------------------------------------------------------ *)
(** ** Batches and flagged periods *)

(** [np.diff(np.hstack((array, [0]))) == -1]. *)
Fixpoint diff_is_minus_one (l : list bool) : list bool :=
  match l with
  | [] => []
  | b :: r => (Z.b2z (hd false r) - Z.b2z b =? -1)%Z :: diff_is_minus_one r
  end.

(** plotting.py 1265-1269, [find_batches_of_ones]; the starts are the
    differences equal to one of [np.hstack(([0], array))]. *)
Definition find_batches_of_ones (array : list bool) : result (list (nat * nat)) :=
  let starts := where1 (diff_is_one 0%Z array) in
  let stops := where1 (diff_is_minus_one array) in
  if Nat.eqb (length starts) (length stops) then Ok (combine starts stops) else Raise ValueError.

(** plotting.py 693-707, [_fill_flagged_data]: the periods covered. *)
Definition fill_flagged_data (time : list Q) (flags : list bool) : result (list (Q * Q)) :=
  bind (find_batches_of_ones flags) (fun batches =>
  sequence (map (fun b => bind (item time (fst b)) (fun t1 => bind (item time (snd b)) (fun t2 => Ok (t1, t2))))
                (filter (fun b => negb (Nat.eqb (fst b) (snd b))) batches))).

(* ------------------------------------------------------------------ *)
(** ** Segments *)

(** A label and its colour. *)
Definition segment := (string * string)%type.

Definition starts_with_underscore (s : string) : bool :=
  match s with String c _ => Ascii.eqb c "_"%char | EmptyString => false end.

(** [del labels[ind], colors[ind]]. *)
Definition delete_at {A} (i : nat) (l : list A) : list A := firstn i l ++ skipn (S i) l.

(** plotting.py 721-722, one pixel: [data[data == ind] = masked; data[data > ind] -= 1]. *)
Definition hide_value (ind : nat) (v : masked Z) : masked Z :=
  match v with
  | None => None
  | Some x =>
    let x' := if (x =? Z.of_nat ind)%Z then None else Some x in
    match x' with
    | None => None
    | Some x => if (Z.of_nat ind <? x)%Z then Some (x - 1)%Z else Some x
    end
  end.

(** plotting.py 711-724, [_hide_segments]. *)
Definition hide_segments (clabel : list segment) (data : image (masked Z))
  : list segment * image (masked Z) :=
  let indices := where1 (map (fun x => starts_with_underscore (fst x)) clabel) in
  fold_left (fun (st : list segment * image (masked Z)) ind =>
    (delete_at ind (fst st), imap (hide_value ind) (snd st))) (rev indices) (clabel, data).

(* ------------------------------------------------------------------ *)
(** ** Cells *)

(** plotting.py 1257-1262, [_make_edges]. *)
Definition make_edges (centers : list Q) : result (list Q) :=
  bind (item centers 0) (fun c0 =>
  bind (item centers 1) (fun c1 =>
  let n := length centers in
  bind (item centers (n - 1)) (fun cn =>
  bind (item centers (n - 2)) (fun cm =>
  Ok ([(c0 - (c1 - c0) / 2)%Q]
      ++ map2 (fun a b => ((a + b) / 2)%Q) (firstn (n - 1) centers) (tl centers)
      ++ [(cn + (cn - cm) / 2)%Q]))))).

(** plotting.py 824-836, [_screen_data_by_max_y] for a figure with heights and
    2-D data: [(np.argmax(alt > max_y) or len(alt)) + 1] gates are kept. *)
Definition screen_data_by_max_y (alt : list Q) (max_y : option Q) (data : list profile)
  : result (list Q * list profile) :=
  match max_y with
  | None => Ok (alt, data)
  | Some y =>
    bind (argmax_bool (map (fun h => qlt y h) alt)) (fun k =>
    let ind := S (if Nat.eqb k 0 then length alt else k) in
    Ok (firstn ind alt, map (firstn ind) data))
  end.

(* ------------------------------------------------------------------ *)
(** ** Moving averages *)

(** [int(x)] of a float: towards zero. *)
Definition int_of (x : Q) : Z := Z.quot (Qnum x) (Zpos (Qden x)).

(** plotting.py 1081-1085, the size of the window; [None] if the median
    interval is zero ([int(inf)] raises OverflowError). *)
Definition window_size (time : list Q) (window : Q) : option nat :=
  match median (diffs time) with
  | None => None
  | Some delta =>
    if Qeq_bool delta 0 then None
    else
      let size := int_of (window / 60 / delta)%Q in
      let size := if (size <? 1)%Z then 1%Z else size in
      let size := if (size mod 2 =? 0)%Z then (size + 1)%Z else size in
      Some (Z.to_nat size)
  end.

(** [np.pad(data, n, mode="edge")] of a non-empty array. *)
Definition pad_edge (n : nat) (data : list Q) : list Q :=
  repeat (hd 0%Q data) n ++ data ++ repeat (last data 0%Q) n.

(** [np.convolve(padded, np.repeat(w, n), "valid")], len(padded) >= n. *)
Definition convolve_valid (l : list Q) (n : nat) (w : Q) : list Q :=
  map (fun i => fold_right (fun x a => (x * w + a)%Q) 0%Q (section i (i + n) l))
      (seq 0 (length l - n + 1)).

(** plotting.py 1073-1089, [_calculate_moving_average]. *)
Definition calculate_moving_average (data time : list Q) (window : Q) : option (list Q) :=
  match data with
  | [] => Some []
  | [x] => Some [x]
  | _ =>
    match window_size time window with
    | None => None
    | Some n => Some (convolve_valid (pad_edge (n / 2) data) n (1 / inject_Z (Z.of_nat n)))
    end
  end.

(** [np.split(array, indices)]. *)
Fixpoint split_from {A} (a : nat) (inds : list nat) (l : list A) : list (list A) :=
  match inds with
  | [] => [skipn a l]
  | i :: r => section a i l :: split_from i r l
  end.
Definition np_split {A} (inds : list nat) (l : list A) : list (list A) := split_from 0 inds l.

(** [blocks[k::2]]. *)
Fixpoint every_second {A} (l : list A) : list A :=
  match l with
  | [] => []
  | [x] => [x]
  | x :: _ :: r => x :: every_second r
  end.

(** plotting.py 1028-1030, the blocks of valid samples;
    [np.diff] of booleans is their exclusive or. *)
Definition changes (l : list bool) : list bool := map2 xorb l (tl l).
Definition valid_blocks {A} (is_invalid : list bool) (l : list A) : result (list (list A)) :=
  bind (item is_invalid 0) (fun first =>
  let block_ind := map S (where1 (changes is_invalid)) in
  Ok (every_second (skipn (if first then 1 else 0) (np_split block_ind l)))).

(** plotting.py 1068-1071, [_find_time_gap_indices]. *)
Definition find_time_gap_indices (time : list Q) (max_gap_min : Z) : list nat :=
  where1 (map (fun d => qlt (inject_Z max_gap_min / 60)%Q d) (diffs time)).

Fixpoint sequence_option {A} (l : list (option A)) : option (list A) :=
  match l with
  | [] => Some []
  | None :: _ => None
  | Some x :: r => option_map (cons x) (sequence_option r)
  end.

(** plotting.py 1004-1053, [_plot_moving_average]: the curves drawn.
    [is_invalid] is the mask of the data joined with the flags; wind directions
    (1023-1026, 1034-1037) are not modelled.  [None] inside stands for the
    OverflowError of the window. *)
Definition plot_moving_average (file_type : string) (file_time : list Q)
    (is_invalid : list bool) (data : list Q) : result (option (list (list Q * list Q))) :=
  bind (valid_blocks is_invalid file_time) (fun times =>
  bind (valid_blocks is_invalid data) (fun datas =>
  bind (sequence (map (fun _ => get_max_gap_in_minutes file_type file_time) times)) (fun gap_times =>
  Ok (option_map (@concat _)
    (sequence_option (map (fun '(time1, data1, gap_time) =>
       option_map (fun sma =>
         let gaps := map S (find_time_gap_indices time1 gap_time) in
         combine (np_split gaps time1) (np_split gaps sma))
       (calculate_moving_average data1 time1 5))
     (combine (combine times datas) gap_times))))))).

(* ------------------------------------------------------------------ *)
(** ** Limits of the y axis *)

(** plotting.py 964-980, [_get_y_limits] of one-dimensional figures. *)
Definition get_y_limits (data : list (masked Q)) : Q * Q :=
  let percent_gap := (5 # 100)%Q in
  let fallback := ((- percent_gap)%Q, percent_gap) in
  match flat_map (fun x => match x with Some v => [v] | None => [] end) data with
  | [] => fallback
  | v :: r =>
    let min_data := fold_left (fun a b => if Qle_bool a b then a else b) r v in
    let max_data := fold_left (fun a b => if Qle_bool a b then b else a) r v in
    let range_val := (max_data - min_data)%Q in
    let gap := (percent_gap * range_val)%Q in
    let min_y := (min_data - gap)%Q in
    let max_y := (max_data + gap)%Q in
    if Qeq_bool min_y 0 && Qeq_bool max_y 0 then fallback
    else if Qeq_bool min_y max_y
    then let gap := (Qabs.Qabs min_y * percent_gap)%Q in ((min_y - gap)%Q, (max_y + gap)%Q)
    else (min_y, max_y)
  end.
