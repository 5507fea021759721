(** Model of the cleaning of radar data in categorize/radar.py, in the order of
    generate_categorize (categorize.py 192-197).  Floating point numbers are exact
    rationals. *)
From Verif Require Import Base ArrayModel FillModel GridModel ImageModel OutputModel LayerModel
  DropletModel MeltModel TelegramModel.
From Coq Require Import Qround String.
Open Scope string_scope.
Open Scope nat_scope.
Open Scope list_scope.
Local Notation length := List.length (only parsing).
Local Notation dict := OutputModel.dict (only parsing).

(** A variable of the radar on the common time grid: an array over time and height, or
    something else (rainfall rate, coordinates), whose values do not matter here.  The
    arrays over time and height come from [rebin_2d] and have a full mask, so that
    masking a view changes the array. *)
Inductive rvar := Grid (m : image (masked Q)) | Flat (l : list (masked Q)).

(** [self.data[key][:]] of an array that is indexed in two dimensions. *)
Definition grid_of (key : string) (d : dict rvar) : result (image (masked Q)) :=
  match lookup key d with
  | Some (Grid m) => Ok m
  | Some (Flat _) => Raise IndexError
  | None => Raise KeyError
  end.
Definition has (key : string) (d : dict rvar) : bool :=
  match lookup key d with Some _ => true | None => false end.
(** [~ma.getmaskarray(x)]. *)
Definition seen (m : image (masked Q)) : image bool := imap (fun x => negb (is_masked x)) m.

(** ** Speckle *)

(** cloudnetarray.py 112-117, [_filter] with [utils.filter_x_pixels]: pixels that the
    filter removes from the mask of visible pixels are masked. *)
Definition filter_vertical_stripes (m : image (masked Q)) : image (masked Q) :=
  let is_data_filtered := filter_x_pixels (seen m) in
  imapi (fun i j x => assign (negb (ImageModel.get is_data_filtered i j)) None x) m.

(** radar.py 103-113, [filter_speckle_noise]. *)
Definition filter_speckle_noise (d : dict rvar) : result (dict rvar) :=
  fold_result (fun d key =>
    if has key d then bind (grid_of key d) (fun m => Ok (set_key key (Grid (filter_vertical_stripes m)) d))
    else Ok d)
  ["Z"; "v"; "width"; "ldr"; "v_sigma"] d.

(** radar.py 115-119, [filter_1st_gate_artifact].  [np.where] also finds data under
    the mask, where masking changes nothing.  Without gates [[:, 0]] raises
    IndexError. *)
Definition mask_fast (row : list (masked Q)) : list (masked Q) :=
  match row with
  | x :: r => (match x with Some v => if qgt v 4 then None else Some v | None => None end) :: r
  | [] => []
  end.
Definition filter_1st_gate_artifact (d : dict rvar) : result (dict rvar) :=
  bind (grid_of "v" d) (fun v =>
  if existsb (fun row => length row =? 0) v then Raise IndexError
  else Ok (set_key "v" (Grid (map mask_fast v)) d)).

(** ** Stripes *)

(** The axis along which values are counted: [axis=1] counts the gates of every
    profile, [axis=0] the profiles of every gate. *)
Inductive axis := Profiles | Gates.
(** [data.shape[1]]. *)
Definition n_gates {A} (m : image A) : nat := match m with row :: _ => length row | [] => 0 end.
(** [ma.count(data, axis=axis)]. *)
Definition count_axis (a : axis) (m : image (masked Q)) : list nat :=
  match a with
  | Profiles => map count m
  | Gates => map (fun j => count (column m j)) (seq 0 (n_gates m))
  end.

(** [np.percentile(l, 100 * q)], linear interpolation between the two nearest ranks;
    only used for lists that are not empty. *)
Definition percentile (q : Q) (l : list Q) : Q :=
  let s := qsort l in
  let virtual := (q * inject_Z (Z.of_nat (length s) - 1))%Q in
  let k := Qfloor virtual in
  let a := nth (Z.to_nat k) s 0%Q in
  let b := nth (Nat.min (S (Z.to_nat k)) (length s - 1)) s 0%Q in
  (a + (b - a) * (virtual - inject_Z k))%Q.

Definition margin : nat := 5.
Definition to_q (n : nat) : Q := inject_Z (Z.of_nat n).
(** radar.py 153-161, the test of position [i]. *)
Definition is_spike (n_values : list nat) (i : nat) : bool :=
  let window := map (fun k => to_q (nth (i + k - margin) n_values 0))
                  (filter (fun k => negb (k =? margin)) (seq 0 (2 * margin + 1))) in
  let q1 := percentile (1 # 4) window in
  let q3 := percentile (3 # 4) window in
  let iqr := (q3 - q1)%Q in
  if Qeq_bool iqr 0 && qgt q3 0 then false
  else
    let threshold := (q3 + 3 * qmax iqr 1)%Q in
    qgt (to_q (nth i n_values 0)) (qmax threshold 20).
(** radar.py 151-161: the positions in [range(margin, n - margin)]. *)
Definition spike_indices (n_values : list nat) : list nat :=
  filter (is_spike n_values) (seq margin (length n_values - margin - margin)).

Definition in_set (k : nat) (s : list nat) : bool := existsb (Nat.eqb k) s.
(** radar.py 164-166: the first position below that is not in the set; [None] is -1. *)
Fixpoint walk_down (s : list nat) (k : nat) : option nat :=
  if in_set k s then match k with O => None | S k' => walk_down s k' end else Some k.
Definition below_of (s : list nat) (ind : nat) : option nat :=
  match ind with O => None | S k => walk_down s k end.
(** radar.py 167-169; [fuel] is the number of positions left, [None] is [n] or more. *)
Fixpoint walk_up (s : list nat) (fuel k : nat) : option nat :=
  match fuel with
  | O => None
  | S f => if in_set k s then walk_up s f (S k) else Some k
  end.
Definition above_of (s : list nat) (n ind : nat) : option nat := walk_up s (n - S ind) (S ind).

(** The mask of the source at position [ind] of the axis and [k] of the other one; no
    position counts as masked. *)
Definition hidden_on (a : axis) (m : image (masked Q)) (ind : option nat) (k : nat) : bool :=
  match ind with
  | None => true
  | Some i =>
      match (match a with Profiles => pixel m i k | Gates => pixel m k i end) with
      | Some x => is_masked x
      | None => true
      end
  end.
(** radar.py 186-208, [_mask_isolated]: the target and the source have the same shape. *)
Definition mask_isolated (a : axis) (target source : string) (ind : nat) (below above : option nat)
  (d : dict rvar) : result (dict rvar) :=
  bind (grid_of source d) (fun s =>
  bind (grid_of target d) (fun t =>
  let isolated k := negb (hidden_on a s (Some ind) k) && hidden_on a s below k && hidden_on a s above k in
  Ok (set_key target (Grid (imapi (fun i j x =>
    match a with
    | Profiles => assign ((i =? ind) && isolated j) None x
    | Gates => assign ((j =? ind) && isolated i) None x
    end) t)) d))).
(** radar.py 173-184, [_mask_stripe_pixels]. *)
Definition mask_stripe_pixels (variable : string) (a : axis) (ind : nat) (below above : option nat)
  (d : dict rvar) : result (dict rvar) :=
  bind (mask_isolated a "v" "Z" ind below above d) (fun d =>
  if negb (String.eqb variable "v") && has variable d
  then mask_isolated a variable variable ind below above d
  else Ok d).
(** radar.py 141-171, [_filter_stripes_axis]; the number of stripes is only logged. *)
Definition filter_stripes_axis (data : image (masked Q)) (variable : string) (a : axis) (d : dict rvar)
  : result (dict rvar) :=
  let n_values := count_axis a data in
  let n := length n_values in
  let spikes := spike_indices n_values in
  fold_result (fun d ind => mask_stripe_pixels variable a ind (below_of spikes ind) (above_of spikes n ind) d)
    spikes d.
(** radar.py 121-139, [filter_stripes]. *)
Definition filter_stripes (variable : string) (d : dict rvar) : result (dict rvar) :=
  if has variable d then
    bind (grid_of variable d) (fun data =>
    let n_profiles_with_data := length (filter (fun c => negb (c =? 0)) (count_axis Profiles data)) in
    if n_profiles_with_data <? 300 then Ok d
    else bind (filter_stripes_axis data variable Profiles d)
           (filter_stripes_axis data variable Gates))
  else Ok d.

(** ** Incomplete pixels *)

Fixpoint same_lengths {A B} (a : list (list A)) (b : list (list B)) {struct a} : bool :=
  match a, b with
  | [], [] => true
  | x :: a', y :: b' => (length x =? length y) && same_lengths a' b'
  | _, _ => false
  end.
(** [a & b] of two masks; arrays of different shapes raise ValueError (dimensions of
    length one, which numpy would repeat, do not occur). *)
Definition and_masks (a b : image bool) : result (image bool) :=
  if same_lengths a b then Ok (map2 (map2 andb) a b) else Raise ValueError.
(** cloudnetarray.py 57-59, [mask_indices] with a boolean array. *)
Definition mask_indices (ind : image bool) (m : image (masked Q)) : result (image (masked Q)) :=
  if same_lengths ind m then Ok (map2 (map2 (fun b x => assign b None x)) ind m) else Raise IndexError.
(** radar.py 84-101, [remove_incomplete_pixels]. *)
Definition remove_incomplete_pixels (d : dict rvar) : result (dict rvar) :=
  bind (grid_of "Z" d) (fun z =>
  bind (grid_of "v" d) (fun v =>
  bind (and_masks (seen z) (seen v)) (fun good =>
  bind (if has "width" d
        then bind (grid_of "width" d) (fun w => and_masks good (seen w))
        else Ok good) (fun good =>
  let bad := imap negb good in
  sequence (map (fun kv => match snd kv with
    | Grid m => bind (mask_indices bad m) (fun m' => Ok (fst kv, Grid m'))
    | Flat l => Ok (fst kv, Flat l)
    end) d))))).

(** ** All steps *)

(** categorize.py 192-197. *)
Definition clean (source_type : string) (d : dict rvar) : result (dict rvar) :=
  bind (if existsb (fun s => contains s (lower source_type)) ["rpg"; "basta"]
        then bind (filter_speckle_noise d) filter_1st_gate_artifact
        else Ok d) (fun d =>
  bind (fold_result (fun d variable => filter_stripes variable d) ["v"; "v_sigma"; "ldr"] d)
    remove_incomplete_pixels).
