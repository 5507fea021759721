(** Image operations: connected components (scipy.ndimage.label), the filters of
    utils.py built on them, and binary dilation. *)
From Verif Require Import Base ArrayModel.
Open Scope nat_scope.

(** Pixel coordinates: (profile, gate). *)
Definition px := (nat * nat)%type.
Definition px_eqb (p q : px) : bool := (fst p =? fst q) && (snd p =? snd q).
Definition mem (p : px) (l : list px) : bool := existsb (px_eqb p) l.

(** [map] with the coordinates of each element. *)
Fixpoint mapi_from {A B} (f : nat -> A -> B) (i : nat) (l : list A) : list B :=
  match l with [] => [] | x :: r => f i x :: mapi_from f (S i) r end.
Definition imapi {A B} (f : nat -> nat -> A -> B) (m : image A) : image B :=
  mapi_from (fun i row => mapi_from (f i) 0 row) 0 m.

(** Absolute difference of coordinates. *)
Definition adiff (a b : nat) : nat := (a - b) + (b - a).

(** Structuring elements: which pixels count as neighbours.
    [generate_binary_structure(2, 1)] (cross), [np.ones((3, 3))] (utils.py 216)
    and [[0,1,0],[0,1,0],[0,1,0]] (utils.py 239), whose middle column runs along
    axis 0, the profiles. *)
Definition cross (p q : px) : bool := adiff (fst p) (fst q) + adiff (snd p) (snd q) =? 1.
Definition square (p q : px) : bool := Nat.max (adiff (fst p) (fst q)) (adiff (snd p) (snd q)) =? 1.
Definition along_time (p q : px) : bool := (adiff (fst p) (fst q) =? 1) && (snd p =? snd q).

(** One growth step: all set pixels in the region or next to it. *)
Definition grow (nb : px -> px -> bool) (set : list px) (acc : list px) : list px :=
  filter (fun q => mem q acc || existsb (nb q) acc) set.
Fixpoint flood (nb : px -> px -> bool) (set : list px) (fuel : nat) (acc : list px) : list px :=
  match fuel with 0 => acc | S f => flood nb set f (grow nb set acc) end.

(** [ndimage.label]: the regions in the order in which their first pixel is met
    row by row; region number k (from 0) carries the label k + 1, the background
    label 0.  scipy's union-find is replaced by flood filling; only the partition
    into regions matters to the callers. *)
Fixpoint label_from (nb : px -> px -> bool) (set todo : list px) (fuel : nat) : list (list px) :=
  match fuel, todo with
  | S f, p :: _ =>
      let region := flood nb set (length set) [p] in
      region :: label_from nb set (filter (fun q => negb (mem q region)) todo) f
  | _, _ => []
  end.
Definition label_regions (nb : px -> px -> bool) (mask : image bool) : list (list px) :=
  let set := where2 mask in label_from nb set set (length set).

(** Label of one pixel in the label image. *)
Fixpoint label_at (regions : list (list px)) (p : px) : nat :=
  match regions with
  | [] => 0
  | r :: rest => if mem p r then 1 else match label_at rest p with 0 => 0 | S k => S (S k) end
  end.
Definition label_image (regions : list (list px)) (mask : image bool) : image nat :=
  imapi (fun i j _ => label_at regions (i, j)) mask.

(** utils.py 252-260, [remove_small_objects] for connectivity 1 (the only value
    used): sizes of labels 1..num, labels with size > max_size, [np.isin]. *)
Definition remove_small_objects (mask : image bool) (max_size : Z) : image bool :=
  let regions := label_regions cross mask in
  let labels := label_image regions mask in
  let sizes := map (fun r => Z.of_nat (length r)) regions in
  let keep_labels := map S (where1 (map (fun s => (max_size <? s)%Z) sizes)) in
  imap (fun l => existsb (Nat.eqb l) keep_labels) labels.

(** utils.py 243-249, [_filter]: the sizes of labels 0..num (the sum of the array
    over the background is 0), pixels whose label has size 1 are zeroed. *)
Definition filter_singletons (nb : px -> px -> bool) (array : image bool) : image bool :=
  let regions := label_regions nb array in
  let id_regions := label_image regions array in
  let id_sizes := 0 :: map (@length px) regions in
  let area_mask := map (Nat.eqb 1) id_sizes in
  imapi (fun i j b => assign (match pixel id_regions i j with
                              | Some l => nth l area_mask false
                              | None => false end) false b) array.
(** utils.py 200-217 and 220-240. *)
Definition filter_isolated_pixels (array : image bool) : image bool := filter_singletons square array.
Definition filter_x_pixels (array : image bool) : image bool := filter_singletons along_time array.

(** Value of a pixel, false outside. *)
Definition get (m : image bool) (i j : nat) : bool :=
  match pixel m i j with Some b => b | None => false end.

(** [ndimage.binary_dilation(mask, cross, iterations=n)], border value 0. *)
Definition dilate1 (m : image bool) : image bool :=
  imapi (fun i j b => b || get m (S i) j || get m i (S j)
    || (match i with 0 => false | S i' => get m i' j end)
    || (match j with 0 => false | S j' => get m i j' end)) m.
Fixpoint dilate (n : nat) (m : image bool) : image bool :=
  match n with 0 => m | S k => dilate k (dilate1 m) end.

(** classification.py 311-324, [_find_cloud_mask]: Target.DROPLET = 1,
    DRIZZLE_OR_RAIN_AND_DROPLET = 3, ICE = 4, ICE_AND_SUPERCOOLED = 5. *)
Definition find_cloud_mask (classification : image Z) : image bool :=
  let cloud_mask := imap (fun c =>
    let m := assign (c =? 1)%Z 1%Z 0%Z in
    let m := assign (c =? 3)%Z 1%Z m in
    let m := assign (c =? 4)%Z 1%Z m in
    assign (c =? 5)%Z 1%Z m) classification in
  remove_small_objects (imap (fun m => negb (m =? 0)%Z) cloud_mask) 20.
