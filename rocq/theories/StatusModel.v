(** Per-pixel status variables of the products: classification, ice water
    content / ice effective radius, droplet effective radius, drizzle and the
    cloud mask of the model evaluation.

    Every [a[mask] = v] is one [assign], in source order (later wins).  The
    equally shaped arrays of the code are represented as one array of records,
    so shape mismatches cannot be expressed. *)
From Verif Require Import Base BitsModel.
Open Scope Z_scope.

(** classification.py 283-284, [_get_is_attenuated_mask]. *)
Definition is_attenuated_mask (q : QualityBits) : bool :=
  attenuated_liquid q || attenuated_rain q || attenuated_melting q.

(** classification.py 273-280, [_get_is_corrected_mask]. *)
Definition is_corrected_mask (q : QualityBits) : bool :=
  is_attenuated_mask q
  && (negb (attenuated_liquid q) || corrected_liquid q)
  && (negb (attenuated_rain q) || corrected_rain q)
  && (negb (attenuated_melting q) || corrected_melting q).

(** classification.py 227-246, [_get_target_classification], with the numbers
    of [Target] (113-124). *)
Definition target_classification (c : CategoryBits) (q : QualityBits) : Z :=
  let s := 0 in
  let s := assign (droplet c && negb (falling c)) 1 s in
  let s := assign (negb (droplet c) && falling c) 2 s in
  let s := assign (droplet c && falling c) 3 s in
  let s := assign (negb (droplet c) && falling c && freezing c) 4 s in
  let s := assign (droplet c && falling c && freezing c) 5 s in
  let s := assign (melting c) 6 s in
  let s := assign (melting c && droplet c) 7 s in
  let s := assign (aerosol c) 8 s in
  let s := assign (insect c && negb (clutter q)) 9 s in
  let s := assign (aerosol c && insect c && negb (clutter q)) 10 s in
  let s := assign (clutter q && negb (aerosol c)) 0 s in
  s.

(** classification.py 249-270, [_get_detection_status], numbers of
    [DetectionStatus] (127-137). *)
Definition detection_status (q : QualityBits) : Z :=
  let att := is_attenuated_mask q in
  let corr := is_corrected_mask q in
  let s := 0 in
  let s := assign (lidar q && negb (radar q)) 1 s in
  let s := assign (radar q && lidar q) 3 s in
  let s := assign (negb (radar q) && att && negb corr) 4 s in
  let s := assign (radar q && negb (lidar q) && negb att) 5 s in
  let s := assign (negb (radar q) && att && corr) 6 s in
  let s := assign (radar q && corr) 7 s in
  let s := assign (radar q && att && negb corr) 2 s in
  let s := assign (clutter q) 8 s in
  let s := assign (molecular q && negb (radar q)) 9 s in
  s.

(** classification.py 287-293, [_get_signal_source_status]. *)
Definition signal_source_status (q : QualityBits) : Z :=
  let s := 0 in
  let s := assign (radar q && lidar q) 1 s in
  let s := assign (radar q && negb (lidar q)) 2 s in
  let s := assign (lidar q && negb (radar q)) 3 s in
  s.

(** The three variables as fields (classification.py 58-75: one value per pixel
    of the categorize file). *)
Definition target_classification_field (m : image (CategoryBits * QualityBits)) : image Z :=
  imap (fun p => target_classification (fst p) (snd p)) m.
Definition detection_status_field (m : image QualityBits) : image Z :=
  imap detection_status m.
Definition signal_source_status_field (m : image QualityBits) : image Z :=
  imap signal_source_status m.

(* ------------------------------------------------------------------ *)
(** ** Ice products *)

(** product_tools.py 179-185, [_find_ice]. *)
Definition ice_is_ice (c : CategoryBits) : bool :=
  falling c && freezing c && negb (melting c) && negb (insect c).
(** product_tools.py 187-193. *)
Definition ice_would_be (c : CategoryBits) : bool :=
  (falling c && negb (freezing c) && negb (insect c)) || melting c.
(** product_tools.py 165-170. *)
Definition ice_attenuated (q : QualityBits) : bool :=
  attenuated_liquid q || attenuated_rain q || attenuated_melting q.
(** product_tools.py 172-177. *)
Definition ice_corrected_any (q : QualityBits) : bool :=
  corrected_liquid q || corrected_rain q || corrected_melting q.
(** product_tools.py 195-196. *)
Definition corrected_ice (c : CategoryBits) (q : QualityBits) : bool :=
  ice_is_ice c && ice_attenuated q && ice_corrected_any q.
(** product_tools.py 198-212. *)
Definition uncorrected_ice (c : CategoryBits) (q : QualityBits) : bool :=
  ice_is_ice c && ice_attenuated q
  && ((attenuated_melting q && negb (corrected_melting q))
      || (attenuated_rain q && negb (corrected_rain q))
      || (attenuated_liquid q && negb (corrected_liquid q))).
(** product_tools.py 158-163: [transpose(is_rain) * ~is_ice & freezing & ~melting]. *)
Definition clear_above_rain (rain : bool) (c : CategoryBits) : bool :=
  (rain && negb (ice_is_ice c)) && freezing c && negb (melting c).

(** One pixel seen by [IceSource]: the profile's rain flag, the flags, and the
    result of [_convert_z] ([None]: masked because Z or the temperature is
    masked).  The Z-T formula itself (257-279) is not modelled: the value is an
    arbitrary rational. *)
Record ice_pixel := {
  ip_rain : bool; ip_cat : CategoryBits; ip_qual : QualityBits; ip_z : masked Q }.

(** product_tools.py 230-239, [append_icy_data]. *)
Definition icy_data (p : ice_pixel) : masked Q :=
  assign (negb (ice_is_ice (ip_cat p)) || uncorrected_ice (ip_cat p) (ip_qual p))
         None (ip_z p).

(** product_tools.py 241-252, [append_status]; [is_data = ~data.mask] where data
    is the variable stored by [append_icy_data]. *)
Definition ice_status (p : ice_pixel) : Z :=
  let c := ip_cat p in let q := ip_qual p in
  let is_data := negb (is_masked (icy_data p)) in
  let s := 0 in
  let s := assign is_data 1 s in
  let s := assign (is_data && corrected_ice c q) 3 s in
  let s := assign (negb is_data && ice_is_ice c) 4 s in
  let s := assign (uncorrected_ice c q) 2 s in
  let s := assign (clear_above_rain (ip_rain p) c) 6 s in
  let s := assign (ice_would_be c && (s =? 0)) 7 s in
  s.

(** product_tools.py 282-292, [get_is_rain], one element: [data != 0], masked
    becomes True.  Choice of the variable: the first present of the three
    names; ValueError if there is none. *)
Definition is_rain_value (x : masked Q) : bool :=
  match x with None => true | Some v => negb (Qeq_bool v 0) end.
Definition get_is_rain (rain_detected rainfall_rate rain_rate : option (list (masked Q)))
  : result (list bool) :=
  match rain_detected, rainfall_rate, rain_rate with
  | Some d, _, _ | None, Some d, _ | None, None, Some d => Ok (map is_rain_value d)
  | None, None, None => Raise ValueError
  end.

(** iwc.py 98-100: the error variable is masked like the data (it may also be
    masked where [Z_error] is). *)
Definition iwc_error_pixel (p : ice_pixel) (err : masked Q) : masked Q :=
  assign (negb (ice_is_ice (ip_cat p)) || uncorrected_ice (ip_cat p) (ip_qual p)) None err.

(** model_evaluation/products/observation_products.py 102-112, [_mask_iwc]: keep
    status 1 and 3 only. *)
Definition mask_iwc (p : ice_pixel) : masked Q :=
  let st := ice_status p in
  assign (negb ((st =? 1) || (st =? 3))) None (icy_data p).

(* ------------------------------------------------------------------ *)
(** ** Droplet effective radius *)

(** der.py 100-101 and 103-110. *)
Definition der_is_mixed (c : CategoryBits) : bool := falling c && droplet c.
Definition der_is_ice (c : CategoryBits) : bool :=
  falling c && freezing c && negb (melting c) && negb (droplet c) && negb (insect c).
(** der.py 221-236, [append_retrieval_status]; [retrieved] is [~der.mask]. *)
Definition der_status (rain : bool) (c : CategoryBits) (retrieved : bool) : Z :=
  let s := 0 in
  let s := assign (der_is_ice c) 4 s in
  let s := assign retrieved 1 s in
  let s := assign (der_is_mixed c && retrieved) 2 s in
  let s := assign (rain && retrieved) 3 s in
  s.

(* ------------------------------------------------------------------ *)
(** ** Drizzle status *)

(** v_sigma of one pixel as numpy.ma holds it: the mask, and whether the
    underlying number is finite (the netCDF fill value 9.97e36 is). *)
Record vsigma := { vs_masked : bool; vs_finite : bool }.

Record drizzle_pixel := { dz_cat : CategoryBits; dz_qual : QualityBits; dz_v : vsigma }.

(** drizzle_tools.py 114-115. *)
Definition warm_liquid (c : CategoryBits) : bool := droplet c && negb (freezing c).

(** drizzle_tools.py 117-132, [_find_drizzle]: the conjunction without the last
    factor, which is the only one that can be masked. *)
Definition drizzle_flags (rain : bool) (c : CategoryBits) (q : QualityBits) : bool :=
  negb rain && falling c && negb (droplet c) && negb (freezing c)
  && negb (melting c) && negb (insect c) && radar q && lidar q
  && negb (clutter q) && negb (molecular q) && negb (attenuated_liquid q)
  && negb (attenuated_rain q).

(** The underlying data of the masked array [drizzle] ([&] of masked arrays
    keeps the computed data and ors the masks). *)
Definition drizzle_data (rain : bool) (p : drizzle_pixel) : bool :=
  drizzle_flags rain (dz_cat p) (dz_qual p) && vs_finite (dz_v p).
(** [drizzle == 1] used as an index or in np.where: numpy.ma compares the masks
    at masked entries, which gives False there. *)
Definition drizzle_eq1 (rain : bool) (p : drizzle_pixel) : bool :=
  drizzle_data rain p && negb (vs_masked (dz_v p)).

(** drizzle_tools.py 134-144. *)
Definition would_be_drizzle (rain : bool) (c : CategoryBits) (q : QualityBits) : bool :=
  negb rain && warm_liquid c && falling c && negb (melting c) && negb (insect c)
  && radar q && negb (clutter q) && negb (molecular q).

(** drizzle_tools.py 146-147: [np.any(melting, axis=1)]. *)
Definition cold_rain (profile : list drizzle_pixel) : bool :=
  existsb (fun p => melting (dz_cat p)) profile.

(** drizzle.py 172-186, one pixel.  [np.copy(drizzle)] drops the mask, so the
    start value is the underlying data; [cold_rain * drizzle == 1] is False at
    masked entries. *)
Definition drizzle_status_pixel (rain cold : bool) (p : drizzle_pixel) : Z :=
  let c := dz_cat p in let q := dz_qual p in
  let s := Z.b2z (drizzle_data rain p) in
  let s := assign (cold && drizzle_eq1 rain p) 2 s in
  let s := assign (would_be_drizzle rain c q) 3 s in
  let s := assign ((s =? 0) && warm_liquid c) 4 s in
  let s := assign rain 5 s in
  s.

Definition drizzle_status_profile (rain : bool) (profile : list drizzle_pixel) : list Z :=
  map (drizzle_status_pixel rain (cold_rain profile)) profile.
Definition drizzle_status_field (rows : list (bool * list drizzle_pixel)) : image Z :=
  map (fun r => drizzle_status_profile (fst r) (snd r)) rows.

(** Pixels for which the solver computes parameters: drizzle_tools.py 260,
    [np.where(drizzle == 1)]. *)
Definition drizzle_retrieved (rain : bool) (p : drizzle_pixel) : bool := drizzle_eq1 rain p.

(** drizzle.py 189-204, [_screen_rain] then [_append_data]: one element of a
    result array; rainy profiles are set to 0 and zeros are masked. *)
Definition drizzle_output (rain : bool) (v : Q) : masked Q :=
  let v' := assign rain 0%Q v in
  if Qeq_bool v' 0 then None else Some v'.

(* ------------------------------------------------------------------ *)
(** ** Cloud mask of the model evaluation *)

(** observation_products.py 82-91, [_classify_basic_mask]. *)
Definition classify_basic_mask (c : CategoryBits) : Z :=
  let m := Z.b2z (droplet c) + Z.b2z (falling c) * 2 in
  let m := assign (falling c && freezing c) (m + 2) m in
  let m := assign (aerosol c) 6 m in
  let m := assign (insect c) 7 m in
  let m := assign (aerosol c && insect c) 8 m in
  m.

(** observation_products.py 93-100, [_mask_cloud_bits]: the two relabelling
    loops, in order. *)
Definition mask_cloud_bits (m : Z) : Z :=
  let m := fold_left (fun m i => assign (m =? i) 1 m) [1; 3; 4; 5] m in
  fold_left (fun m i => assign (m =? i) 0 m) [2; 6; 7; 8] m.

Definition cloud_fraction_mask (c : CategoryBits) : Z := mask_cloud_bits (classify_basic_mask c).
Definition cloud_fraction_field (m : image CategoryBits) : image Z := imap cloud_fraction_mask m.
