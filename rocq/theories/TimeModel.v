(** Time screening, sorting and alignment of variables with time. *)
From Verif Require Import Base ArrayModel.
From Coq Require Import Qround String.
Open Scope nat_scope.

(** ** Dates *)

(** Rounding of [datetime.timedelta(seconds=float)] to whole microseconds: nearest,
    ties to even (Python library reference). *)
Definition round_half_even (q : Q) : Z :=
  let f := Qfloor q in
  match Qcompare (q - inject_Z f) (1 # 2) with
  | Lt => f
  | Gt => (f + 1)%Z
  | Eq => if Z.even f then f else (f + 1)%Z
  end.

Definition us_in_day : Z := 86400000000%Z.

(** utils.py 54-71, [seconds2date(t, epoch).date()].  An epoch is a number of
    microseconds since some midnight and a date is the number of days since that
    midnight (day numbers and calendar dates correspond one to one).  Overflow of
    datetime (years before 1 or after 9999) and NaN are not modelled. *)
Definition day_of (epoch_us : Z) (t : Q) : Z :=
  ((epoch_us + round_half_even (t * 1000000)) / us_in_day)%Z.

(** ** find_valid_time_indices *)

(** utils.py 1009-1014, the loop.  [ind_sorted] is the result of [np.argsort(time)];
    its order among equal times is unspecified (quicksort), so it is a parameter. *)
Fixpoint find_valid_loop (time : list Q) (date_of : Q -> Z) (day : Z)
  (ind_sorted acc : list nat) : result (list nat) :=
  match ind_sorted with
  | [] => Ok acc
  | ind :: rest =>
      match nth_error time ind with
      | None => Raise IndexError
      | Some t =>
          bind (gather time acc) (fun prev =>
          if (date_of t =? day)%Z && negb (existsb (fun x => Qeq_bool x t) prev)
          then find_valid_loop time date_of day rest (acc ++ [ind])
          else find_valid_loop time date_of day rest acc)
      end
  end.

(** utils.py 987-1017. *)
Definition find_valid_time_indices (ind_sorted : list nat) (time : list Q) (epoch_us : Z) (day : Z)
  : result (list nat) :=
  bind (find_valid_loop time (day_of epoch_us) day ind_sorted []) (fun ind_valid =>
  match ind_valid with [] => Raise ValidTimeStampError | _ => Ok ind_valid end).

(** ** Variables with a leading dimension *)

(** A dictionary value: an array with [ndim >= 1] dimensions given by its rows
    along axis 0, a scalar (including 0-d arrays), or a list of some length. *)
Inductive value (P : Type) : Type :=
| VArr (ndim : nat) (rows : list P)
| VScalar (p : P)
| VList (len : nat).
Arguments VArr {P}. Arguments VScalar {P}. Arguments VList {P}.

(** [array[ind]], [array[ind, :]], [array[ind, :, :]] for arrays of up to
    [maxdim] dimensions whose first dimension has length [n]. *)
Definition take_rows {P} (maxdim n : nat) (ind : list nat) (v : value P) : result (value P) :=
  match v with
  | VArr d rows =>
      if Nat.eqb (List.length rows) n && Nat.leb 1 d && Nat.leb d maxdim
      then bind (gather rows ind) (fun rows' => Ok (VArr d rows'))
      else Ok v
  | _ => Ok v
  end.

Definition dict (P : Type) := list (string * value P).
Definition map_dict {P R} (f : value P -> result R) (d : list (string * value P))
  : result (list (string * R)) :=
  sequence (map (fun kv => bind (f (snd kv)) (fun v => Ok (fst kv, v))) d).

(** utils.py 948-984, [screen_by_time], with the time vector passed separately
    ([data["time"]], one of the 1-D arrays).  A list of more than one element
    raises ValueError; arrays of more than three dimensions are left alone. *)
Definition screen_value {P} (n : nat) (ind : list nat) (v : value P) : result (value P) :=
  match v with
  | VList len => if Nat.ltb 1 len then Raise ValueError else Ok v
  | _ => take_rows 3 n ind v
  end.
Definition screen_by_time {P} (ind_sorted : list nat) (time : list Q) (data : dict P)
  (epoch_us : Z) (day : Z) : result (list Q * dict P) :=
  bind (find_valid_time_indices ind_sorted time epoch_us day) (fun ind =>
  bind (gather time ind) (fun time' =>
  bind (map_dict (screen_value (List.length time) ind) data) (fun data' => Ok (time', data')))).

(** ** np.unique and instrument records *)

(** [np.unique(time, return_index=True)]: stable sort of (value, index) pairs,
    then the first of every group of equal neighbours. *)
Fixpoint insert_pair (x : Q * nat) (l : list (Q * nat)) : list (Q * nat) :=
  match l with
  | [] => [x]
  | y :: r => if Qle_bool (fst x) (fst y) then x :: y :: r else y :: insert_pair x r
  end.
Fixpoint sort_pairs (l : list (Q * nat)) : list (Q * nat) :=
  match l with [] => [] | x :: r => insert_pair x (sort_pairs r) end.
Fixpoint dedup (prev : option Q) (l : list (Q * nat)) : list (Q * nat) :=
  match l with
  | [] => []
  | p :: r =>
      (if match prev with Some v => Qeq_bool v (fst p) | None => false end then [] else [p])
      ++ dedup (Some (fst p)) r
  end.
Definition unique (time : list Q) : list (Q * nat) :=
  dedup None (sort_pairs (combine time (seq 0 (List.length time)))).
Definition unique_index (time : list Q) : list nat := map snd (unique time).

(** An instrument record: the time vector and the other arrays.  The model keeps
    one time vector; in the code it is [data["time"]] or [self.time]. *)
Record instrument (P : Type) := { i_time : list Q; i_data : dict P }.
Arguments i_time {P}. Arguments i_data {P}. Arguments Build_instrument {P}.

(** cloudnet_instrument.py 59-80, [screen_time_indices] with integer indices:
    arrays of up to three dimensions; ValidTimeStampError for an empty list. *)
Definition screen_time_indices {P} (r : instrument P) (ind : list nat) : result (instrument P) :=
  match ind with
  | [] => Raise ValidTimeStampError
  | _ =>
      bind (map_dict (take_rows 3 (List.length (i_time r)) ind) (i_data r)) (fun data' =>
      bind (gather (i_time r) ind) (fun time' => Ok (Build_instrument time' data')))
  end.
(** cloudnet_instrument.py 49-52. *)
Definition remove_duplicate_timestamps {P} (r : instrument P) : result (instrument P) :=
  screen_time_indices r (unique_index (i_time r)).
(** cloudnet_instrument.py 54-57; [ind] is [time.argsort()]. *)
Definition sort_timestamps {P} (ind : list nat) (r : instrument P) : result (instrument P) :=
  screen_time_indices r ind.

(** A stable argsort, used for examples and as one possible [np.argsort]. *)
Definition argsort (time : list Q) : list nat :=
  map snd (sort_pairs (combine time (seq 0 (List.length time)))).

(** ** seconds2hours *)

Definition qmod (t m : Q) : Q := (t - m * inject_Z (Qfloor (t / m)))%Q.
(** [fraction_hour[-1] = 24] if it is 0. *)
Fixpoint fix_last (l : list Q) : list Q :=
  match l with
  | [] => []
  | [x] => [if Qeq_bool x 0 then 24%Q else x]
  | x :: r => x :: fix_last r
  end.
(** utils.py 33-51. *)
Definition seconds2hours (time : list Q) : result (list Q) :=
  match time with
  | [] => Raise IndexError
  | _ => Ok (fix_last (map (fun t => (qmod t 86400 / 3600)%Q) time))
  end.

(** ** Categorize time grid *)

(** utils.py 83-101, [time_grid]: [np.arange(h, 24 + h, 2 h)] with
    [h = step / 3600 / 2], i.e. ceil(24 / (2 h)) points. *)
Definition time_grid (step : Z) : result (list Q) :=
  if (step <? 1)%Z then Raise ValueError
  else
    let h := (inject_Z step / 3600 / 2)%Q in
    let n := Z.to_nat (Qceiling ((24 + h - h) / (2 * h))) in
    Ok (map (fun i => (h + inject_Z (Z.of_nat i) * (2 * h))%Q) (seq 0 n)).

(** categorize.py 91-102: indices of the grid not in any gap list. *)
Definition valid_indices (n : nat) (radar_gap lidar_gap model_gap : list nat) : list nat :=
  filter (fun ind => negb (existsb (Nat.eqb ind) (radar_gap ++ lidar_gap ++ model_gap))) (seq 0 n).

(** categorize.py 104-124 and 179-183: screening of the time vector and of all
    arrays of one or two dimensions with the full number of times. *)
Definition screen_categorize {P} (time : list Q) (radar_gap lidar_gap model_gap : list nat) (data : dict P)
  : result (list Q * dict P) :=
  let ind := valid_indices (List.length time) radar_gap lidar_gap model_gap in
  if Nat.ltb (List.length ind) 2 then Raise ValidTimeStampError
  else
    bind (gather time ind) (fun time' =>
    bind (map_dict (take_rows 2 (List.length time) ind) data) (fun data' => Ok (time', data'))).
