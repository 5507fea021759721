(** Classification of pixels: categorize/classify.py, falling.py, the radar part
    of droplet.py and the clutter and rain flags of containers.py.

    All 2-D inputs are taken to have one shape (numpy would raise a broadcast
    error otherwise); a pixel missing from one of them counts as masked or false. *)
From Verif Require Import Base BitsModel ArrayModel FillModel GridModel ImageModel.
Open Scope nat_scope.

(** containers.py 39-88, the fields of [ClassData] used here.  Temperatures,
    velocities etc. are exact rationals; the model temperature is unmasked. *)
Record ClassData := {
  c_z : image (masked Q); c_beta : image (masked Q); c_tw : image Q;
  c_ldr : option (image (masked Q));      (* attribute may be missing *)
  c_lwp : list (masked Q); c_height : list Q; c_altitude : Q;
  c_clutter : image bool }.

(** [~array.mask] at a pixel. *)
Definition valid (m : image (masked Q)) (i j : nat) : bool :=
  match pixel m i j with Some (Some _) => true | _ => false end.
(** [array[i, j] < limit], [array[i, j] > limit]. *)
Definition below (m : image Q) (limit : Q) (i j : nat) : bool :=
  match pixel m i j with Some x => qlt x limit | None => false end.
Definition above (m : image Q) (limit : Q) (i j : nat) : bool :=
  match pixel m i j with Some x => qlt limit x | None => false end.

(** constants.py 6. *)
Definition T0 : Q := 27316 # 100.

(** In-place changes of one flag of a pixel. *)
Definition set_droplet (b : bool) (c : CategoryBits) : CategoryBits :=
  {| droplet := b; falling := falling c; freezing := freezing c;
     melting := melting c; aerosol := aerosol c; insect := insect c |}.
Definition set_falling (b : bool) (c : CategoryBits) : CategoryBits :=
  {| droplet := droplet c; falling := b; freezing := freezing c;
     melting := melting c; aerosol := aerosol c; insect := insect c |}.
Definition set_melting (b : bool) (c : CategoryBits) : CategoryBits :=
  {| droplet := droplet c; falling := falling c; freezing := freezing c;
     melting := b; aerosol := aerosol c; insect := insect c |}.
Definition set_aerosol (b : bool) (c : CategoryBits) : CategoryBits :=
  {| droplet := droplet c; falling := falling c; freezing := freezing c;
     melting := melting c; aerosol := b; insect := insect c |}.
Definition set_insect (b : bool) (c : CategoryBits) : CategoryBits :=
  {| droplet := droplet c; falling := falling c; freezing := freezing c;
     melting := melting c; aerosol := aerosol c; insect := b |}.

(** One array of the dataclass. *)
Definition droplets (m : image CategoryBits) : image bool := imap droplet m.
Definition fallings (m : image CategoryBits) : image bool := imap falling m.
Definition meltings (m : image CategoryBits) : image bool := imap melting m.
Definition insects (m : image CategoryBits) : image bool := imap insect m.

(* ------------------------------------------------------------------ *)
(** ** containers.py: rain and clutter *)

(** containers.py 90-106, [_find_profiles_with_rain]: the echo and disdrometer
    thresholds (108-141) are arbitrary decisions here; what matters is that the
    result is an integer array, [np.where(.., 1, 0)] overwritten by the unmasked
    disdrometer flags (dtype int) and combined with a boolean by [&]. *)
Definition profiles_with_rain (echo : list bool) (disdrometer : list (masked bool))
  (liquid_rain_only : list bool) : list Z :=
  let is_rain := map (fun b : bool => if b then 1%Z else 0%Z) echo in
  let is_rain := map2 (fun r (d : masked bool) =>
      match d with Some b => Z.b2z b | None => r end) is_rain disdrometer in
  map2 (fun r b => Z.land r (Z.b2z b)) is_rain liquid_rain_only.

(** containers.py 144-168, [_find_clutter] with the default n_gates = 10 and
    v_lim = 0.05: [is_clutter[:, :10] = tiny_velocity * transpose(~is_rain)]; the
    integer product is cast to bool by the assignment. *)
Definition find_clutter (v : image (masked Q)) (is_rain : list Z) : image bool :=
  imapi (fun i j (x : masked Q) =>
    let is_clutter := false in
    let tiny_velocity := match x with Some y => qlt (Qabs.Qabs y) (5 # 100) | None => false end in
    assign (j <? 10)
      (negb (Z.eqb (Z.b2z tiny_velocity * Z.lnot (nth i is_rain 0%Z))%Z 0)) is_clutter) v.

(* ------------------------------------------------------------------ *)
(** ** falling.py *)

(** [array[n, base : top + 1] = value] on a boolean image. *)
Definition set_range (m : image bool) (n base top : nat) (value : bool) : image bool :=
  imapi (fun i j b => assign ((i =? n) && (base <=? j) && (j <=? top)) value b) m.

(** falling.py 47-51. *)
Definition find_falling_from_radar (obs : ClassData) (is_insects : image bool) : image bool :=
  imapi (fun i j (z : masked Q) => negb (is_masked z) && negb (get (c_clutter obs) i j) && negb (get is_insects i j))
        (c_z obs).

(** falling.py 117-122. *)
Definition is_z_missing_above_liquid (z : list (masked Q)) (ind_top : nat) : bool :=
  if S ind_top =? length z then false
  else match nth_error z (S ind_top) with Some x => is_masked x | None => false end.

(** [compressed()]. *)
Fixpoint compressed (l : list (masked Q)) : list Q :=
  match l with [] => [] | Some x :: r => x :: compressed r | None :: r => compressed r end.

(** falling.py 125-130; the slice [z[base : top + 1]]. *)
Definition is_z_increasing (z : list (masked Q)) (ind_base ind_top : nat) : bool :=
  let z_valid := compressed (firstn (S ind_top - ind_base) (skipn ind_base z)) in
  if 1 <? length z_valid then qlt (hd 0%Q z_valid) (last z_valid 0%Q) else false.

(** falling.py 92-114, [_fix_liquid_dominated_radar]. *)
Definition fix_liquid_dominated_radar (obs : ClassData) (falling_from_radar is_liquid : image bool)
  : result (image bool) :=
  bind (zip_layers is_liquid) (fun layers =>
  Ok (fold_left (fun acc (layer : (nat * nat) * (nat * nat)) =>
        let n := fst (fst layer) in let base := snd (fst layer) in let top := snd (snd layer) in
        let z_prof := nth n (c_z obs) [] in
        if is_z_missing_above_liquid z_prof top && is_z_increasing z_prof base top
        then set_range acc n base top false else acc) layers falling_from_radar)).

(** Number of true values of a row in [a, b). *)
Definition count_in (row : nat -> bool) (a b : nat) : nat := length (filter row (seq a (b - a))).

(** falling.py 54-89, [_find_cold_aerosols].  The loop only reads [is_beta] and
    clears the pixel it visits, so it is written per pixel. *)
Definition find_cold_aerosols (obs : ClassData) (is_liquid : image bool) : image bool :=
  let lidar_range j := (nth j (c_height obs) 0 - c_altitude obs)%Q in
  imapi (fun i j liq =>
    let is_beta := fun k => valid (c_beta obs) i k in
    let cold := assign (below (c_tw obs) (T0 - 15) i j && is_beta j && negb liq) true false in
    let cold := assign (qlt (lidar_range j) 2000) false cold in
    if cold && qlt (lidar_range j) 4000 then
      let start_ind := j + 1 - 6 in
      let n_beta_below := count_in is_beta start_ind (j + 1) in
      assign (2 <? n_beta_below) false cold
    else cold) is_liquid.

(** falling.py 12-44. *)
Definition find_falling_hydrometeors (obs : ClassData) (is_liquid is_insects : image bool)
  : result (image bool) :=
  bind (fix_liquid_dominated_radar obs (find_falling_from_radar obs is_insects) is_liquid) (fun fixed =>
  let cold_aerosols := find_cold_aerosols obs is_liquid in
  Ok (imapi (fun i j b => b || get cold_aerosols i j) fixed)).

(* ------------------------------------------------------------------ *)
(** ** droplet.py and radar liquid *)

(** droplet.py 47-50, [_find_ind_above_top]. *)
Definition find_ind_above_top (is_freezing_from_peak : list bool) (top_above : nat) : result nat :=
  match where1 is_freezing_from_peak with
  | [] => Raise IndexError
  | first_point_below_zero :: _ =>
      Ok (Nat.min (length is_freezing_from_peak - 1) (first_point_below_zero + top_above))
  end.

(** droplet.py 13-44, [correct_liquid_top]; [top_above] stands for
    [n_elements(height, limit)]. *)
Definition correct_liquid_top (z : image (masked Q)) (is_liquid is_freezing : image bool) (top_above : nat)
  : result (image bool) :=
  let step (acc : result (image bool)) (pt : nat * nat) :=
    bind acc (fun corrected =>
    let prof := fst pt in let top := snd pt in
    bind (find_ind_above_top (skipn top (nth prof is_freezing [])) top_above) (fun ind =>
    let rad := firstn (ind + 1) (skipn top (nth prof z [])) in
    let mask := map (@is_masked Q) rad in
    if negb (forallb (fun b => b) mask || negb (existsb (fun b => b) mask)) then
      match first_true mask with
      | Some first_masked =>
          Ok (imapi (fun i j b => assign ((i =? prof) && (top <=? j) && (j <? top + first_masked)) true b)
                    corrected)
      | None => Raise IndexError
      end
    else Ok corrected)) in
  fold_left step (where2 (find_cloud_tops is_liquid)) (Ok is_liquid).

(** classify.py 195-203, [_remove_false_radar_liquid]. *)
Definition remove_false_radar_liquid (liquid_from_radar liquid_from_lidar : image bool) : image bool :=
  fold_left (fun acc (pb : nat * nat) =>
      imapi (fun i j b => assign ((i =? fst pb) && (j <? snd pb)) false b) acc)
    (where2 (find_cloud_bases liquid_from_lidar)) liquid_from_radar.

(** classify.py 75-81: the liquid mask with radar (VoodooNet) liquid; the
    probabilities are arbitrary. *)
Definition combine_liquid (liquid_prob : image Q) (liquid_from_lidar freezing_mask : image bool) : image bool :=
  let liquid_from_radar := imap (fun p => qlt (55 # 100) p) liquid_prob in
  let liquid_from_radar := remove_false_radar_liquid liquid_from_radar liquid_from_lidar in
  let liquid_from_radar := imapi (fun i j b => assign (negb (get freezing_mask i j)) false b) liquid_from_radar in
  imapi (fun i j b => b || get liquid_from_lidar i j) liquid_from_radar.

(* ------------------------------------------------------------------ *)
(** ** classify.py *)

(** classify.py 238-256, [_find_drizzle_and_falling], per pixel: 2 drizzle, 1
    other falling or supercooled liquid, masked otherwise. *)
Definition drizzle_and_falling (c : CategoryBits) : masked Z :=
  let falling_dry := falling c && negb (droplet c) in
  let supercooled_liquids := droplet c && freezing c in
  let drizzle := falling_dry && negb (freezing c) in
  let x := (Z.b2z falling_dry + Z.b2z drizzle)%Z in
  let x := assign supercooled_liquids 1%Z x in
  if (x =? 0)%Z then None else Some x.

(** classify.py 226-235, [_fix_undetected_melting_layer], default threshold
    0.005.  [ma.diff == -1] is masked (and its data False) where either gate is
    masked.  A masked lwp allows the change. *)
Definition transition (lower upper : masked Z) : bool :=
  match lower, upper with Some a, Some b => (b - a =? -1)%Z | _, _ => false end.
Definition lwp_allows (lwp : masked Q) : bool :=
  match lwp with None => true | Some x => qlt (5 # 1000) x end.
Definition fix_undetected_melting_layer (lwp : list (masked Q)) (bits : image CategoryBits) : image CategoryBits :=
  imapi (fun i j c =>
    match j with
    | 0 => c
    | S j' =>
        match pixel bits i j' with
        | None => c
        | Some lower =>
            assign (transition (drizzle_and_falling lower) (drizzle_and_falling c)
                    && lwp_allows (nth i lwp None)) (set_melting true c) c
        end
    end) bits.

(** Python indexing with a possibly negative integer. *)
Definition wrap (n : nat) (k : Z) : option nat :=
  if (0 <=? k)%Z then (if (k <? Z.of_nat n)%Z then Some (Z.to_nat k) else None)
  else if (0 <=? k + Z.of_nat n)%Z then Some (Z.to_nat (k + Z.of_nat n)) else None.
Fixpoint wrap_all (n : nat) (ks : list Z) : result (list nat) :=
  match ks with
  | [] => Ok []
  | k :: r => match wrap n k with
              | None => Raise IndexError
              | Some i => bind (wrap_all n r) (fun l => Ok (i :: l))
              end
  end.
(** [np.arange(a, b)]. *)
Definition arange (a b : Z) : list Z := map (fun k => (a + Z.of_nat k)%Z) (seq 0 (Z.to_nat (b - a))).
(** Indices selected by the slice [a:b] of an axis of length n. *)
Definition slice_bound (n : nat) (a : Z) : nat :=
  if (a <? 0)%Z then Z.to_nat (a + Z.of_nat n) else Nat.min (Z.to_nat a) n.
Definition slice_indices (n : nat) (a b : Z) : list nat :=
  seq (slice_bound n a) (slice_bound n b - slice_bound n a).

(** [falling[ps] = True; insect[ps] = False]. *)
Definition insects_to_falling (ps : list px) (bits : image CategoryBits) : image CategoryBits :=
  imapi (fun i j c => assign (mem (i, j) ps) (set_insect false (set_falling true c)) c) bits.

(** classify.py 273-290: the body of the loop for one melting layer pixel; the
    IndexError of either index array ends the body but keeps what was done. *)
Definition filter_insects_at (original_insects : image bool) (bits : image CategoryBits) (xy : px)
  : image CategoryBits :=
  let x := fst xy in let y := snd xy in
  let n_prof := length bits in
  let row := nth x bits [] in
  match wrap_all (length row) (arange (Z.of_nat y - 5) (Z.of_nat y)) with
  | Raise _ => bits
  | Ok ind1 =>
      let below_ := filter (fun j => get original_insects x j) ind1 in
      let n_drizzle := length (filter falling (firstn y row)) in
      if 5 <? n_drizzle then
        let bits := insects_to_falling (map (fun j => (x, j)) below_) bits in
        match wrap_all n_prof (arange (Z.of_nat x - 5) (Z.of_nat x + 6)) with
        | Raise _ => bits
        | Ok rows =>
            let beside_ := filter (fun i => get original_insects i y) rows in
            let cols := slice_indices (length row) (Z.of_nat y - 1) (Z.of_nat y + 2) in
            insects_to_falling (list_prod beside_ cols) bits
        end
      else bits
  end.

(** classify.py 259-292, [_filter_insects]. *)
Definition filter_insects (bits : image CategoryBits) : image CategoryBits :=
  let above_melting := map ffill_bool (meltings bits) in
  let bits := imapi (fun i j c =>
    assign (insect c && get above_melting i j) (set_insect false (set_falling true c)) c) bits in
  let original_insects := insects bits in
  fold_left (filter_insects_at original_insects) (where2 (meltings bits)) bits.

(** classify.py 206-223, [_find_aerosols]. *)
Definition find_aerosols (obs : ClassData) (bits : image CategoryBits) : image CategoryBits :=
  imapi (fun i j c =>
    set_aerosol (valid (c_beta obs) i j && negb (falling c) && negb (droplet c)) c) bits.

(** classify.py 187-192, [_fix_super_cold_liquid]. *)
Definition fix_super_cold_liquid (obs : ClassData) (bits : image CategoryBits) : image CategoryBits :=
  imapi (fun i j c =>
    assign (below (c_tw obs) (T0 - 38) i j && droplet c) (set_falling true (set_droplet false c)) c) bits.

(** classify.py 129-148, [_reclassify_ice_with_high_ldr]. *)
Definition reclassify_ice_with_high_ldr (obs : ClassData) (bits : image CategoryBits) : image CategoryBits :=
  match c_ldr obs with
  | None => bits
  | Some ldr =>
      let above_melting := map ffill_bool (meltings bits) in
      imapi (fun i j c =>
        let is_ice := falling c && freezing c && negb (droplet c) && negb (melting c) in
        let high_ldr := match pixel ldr i j with Some (Some x) => qlt (-13) x | _ => false end in
        let warm_enough := above (c_tw obs) (T0 - 10) i j in
        let reclassify := is_ice && high_ldr && warm_enough && negb (get above_melting i j) in
        let c := assign reclassify (set_insect true c) c in
        let c := assign reclassify (set_falling false c) c in
        assign (reclassify && valid (c_beta obs) i j) (set_aerosol true c) c) bits
  end.

(** classify.py 151-184, [_filter_insects_in_falling], default sizes 100 and 2. *)
Definition large_falling (bits : image CategoryBits) : image bool :=
  let fall := fallings bits in
  let regions := label_regions cross fall in
  let falling_ids := map S (where1 (map (fun r => 100 <=? length r) regions)) in
  imap (fun l => existsb (Nat.eqb l) falling_ids) (label_image regions fall).
Definition filter_insects_in_falling (bits : image CategoryBits) : image CategoryBits :=
  match label_regions cross (fallings bits) with
  | [] => bits
  | _ =>
      let near_large_falling := dilate 2 (large_falling bits) in
      imapi (fun i j c =>
        assign (insect c && freezing c && get near_large_falling i j)
               (set_aerosol false (set_insect false (set_falling true c))) c) bits
  end.

(** classify.py 316-335, [_filter_falling]. *)
Definition filter_falling (obs : ClassData) (bits : image CategoryBits) : image CategoryBits :=
  let kept := remove_small_objects (fallings bits) 10 in
  imapi (fun i j c =>
    let is_beta := valid (c_beta obs) i j in
    let filtered_out := falling c && negb (get kept i j) in
    let c := assign filtered_out (set_falling false c) c in
    let c := assign (filtered_out && negb (freezing c)) (set_insect true c) c in
    let c := assign (filtered_out && negb (freezing c) && is_beta) (set_aerosol true c) c in
    assign (filtered_out && freezing c && is_beta) (set_aerosol true c) c) bits.

(** classify.py 295-313, [_remove_clutter_in_liquid]: the category bits and the
    clutter flags that are left. *)
Definition false_clutter (is_clutter : image bool) (bits : image CategoryBits) : nat -> nat -> bool :=
  let near_liquid := dilate 1 (imap (fun c => droplet c || falling c) bits) in
  fun i j => get is_clutter i j && get near_liquid i j.
Definition remove_clutter_in_liquid (is_clutter : image bool) (bits : image CategoryBits)
  : image CategoryBits * image bool :=
  let fc := false_clutter is_clutter bits in
  (imapi (fun i j c => assign (fc i j) (set_falling true c) c) bits,
   imapi (fun i j b => assign (fc i j) false b) is_clutter).

(** classify.py 88-97: the steps between the detectors and the result. *)
Fixpoint repeat_step {A} (n : nat) (f : A -> A) (x : A) : A :=
  match n with 0 => x | S k => repeat_step k f (f x) end.
Definition melting_steps (obs : ClassData) (bits : image CategoryBits) : image CategoryBits :=
  repeat_step 5 (fun b => filter_insects (fix_undetected_melting_layer (c_lwp obs) b)) bits.
Definition before_speckle (obs : ClassData) (bits : image CategoryBits) : image CategoryBits :=
  filter_insects_in_falling (reclassify_ice_with_high_ldr obs
    (fix_super_cold_liquid obs (find_aerosols obs (melting_steps obs bits)))).
Definition post_process (obs : ClassData) (bits : image CategoryBits) : image CategoryBits * image bool :=
  remove_clutter_in_liquid (c_clutter obs) (filter_falling obs (before_speckle obs bits)).

(** classify.py 58-105, [classify_measurements].  The melting layer, freezing
    region, liquid and insect detectors (melting.py, freezing.py,
    droplet.find_liquid, insects.py) are arbitrary masks here. *)
Definition classify_measurements (obs : ClassData) (melting_layer freezing_region is_liquid is_insects : image bool)
  (top_above : nat) : result (image CategoryBits * image bool) :=
  bind (correct_liquid_top (c_z obs) is_liquid freezing_region top_above) (fun liquid =>
  bind (find_falling_hydrometeors obs liquid is_insects) (fun fall =>
  let bits := imapi (fun i j f =>
    {| droplet := get liquid i j; falling := f; freezing := get freezing_region i j;
       melting := get melting_layer i j; aerosol := false; insect := get is_insects i j |}) fall in
  Ok (post_process obs bits))).
