(** Properties C17, C18, C24-C26, C28 and C55-C57: connected clouds, speckle
    filters and the classification of pixels. *)
From Verif Require Import Base BitsModel StatusModel ArrayModel ArraySpec FillModel GridModel
  ImageModel ImageSpec ImageProofs ClassifyModel ClassifySpec ClassifyProofs InsectProofs FallingProofs.
From Coq Require Import Qabs.
Open Scope nat_scope.

(** ** C17 *)
Theorem C17_keeps_large_clouds : forall mask max_size i j b,
  pixel (remove_small_objects mask max_size) i j = Some b ->
  (b = true <-> pixel mask i j = Some true /\ cloud_larger mask max_size (i, j)).
Proof. intros mask max i j b H. apply (remove_small_pixel mask max i j b H). Qed.
Theorem C17_same_pixels : forall mask max_size i j,
  (exists b, pixel (remove_small_objects mask max_size) i j = Some b) <-> exists b, pixel mask i j = Some b.
Proof.
  intros mask max i j. split; intros [b H].
  - apply (remove_small_pixel mask max i j b H).
  - apply (remove_small_total mask max i j b H).
Qed.
Theorem C17_idempotent : forall mask max_size,
  remove_small_objects (remove_small_objects mask max_size) max_size = remove_small_objects mask max_size.
Proof. exact remove_small_idempotent. Qed.
(** The cloud mask of the classification product: pixels of the four cloud classes
    whose cloud has more than twenty pixels. *)
Theorem C17_cloud_mask : forall classification i j b,
  pixel (find_cloud_mask classification) i j = Some b ->
  (b = true <-> (exists c, pixel classification i j = Some c /\ In c [1; 3; 4; 5]%Z) /\
     cloud_larger (imap (fun c => existsb (Z.eqb c) [1; 3; 4; 5]%Z) classification) 20 (i, j)).
Proof.
  intros cl i j b H. unfold find_cloud_mask in H. cbv zeta in H. rewrite imap_imap in H.
  assert (E : forall m : image Z, imap (fun c => negb (assign (c =? 5) 1 (assign (c =? 4) 1 (assign (c =? 3) 1 (assign (c =? 1) 1 0))) =? 0))%Z m
              = imap (fun c => existsb (Z.eqb c) [1; 3; 4; 5]%Z) m).
  { intros m. apply imap_ext. intros c. cbn [existsb]. unfold assign.
    destruct (c =? 1)%Z, (c =? 3)%Z, (c =? 4)%Z, (c =? 5)%Z; reflexivity. }
  rewrite E in H. apply C17_keeps_large_clouds in H. rewrite H, pixel_imap.
  split; intros [H1 H2]; (split; [|exact H2]).
  - destruct (pixel cl i j) as [c|]; [|discriminate]. cbn [option_map] in H1. exists c. split; [reflexivity|].
    assert (Hx : existsb (Z.eqb c) [1; 3; 4; 5]%Z = true) by congruence.
    apply existsb_exists in Hx. destruct Hx as (x & Hx & Ex). apply Z.eqb_eq in Ex. subst x. exact Hx.
  - destruct H1 as (c & -> & Hin). cbn [option_map]. f_equal. apply existsb_exists. exists c.
    split; [exact Hin|apply Z.eqb_refl].
Qed.
Print Assumptions C17_keeps_large_clouds.
Print Assumptions C17_same_pixels.
Print Assumptions C17_idempotent.
Print Assumptions C17_cloud_mask.
(** Diagonal neighbours do not connect: of clouds of 3, 2 and 1 pixels only the
    first has more than two. *)
Definition three_clouds : image bool :=
  [[true; true; false; false]; [true; false; true; true]; [false; false; false; false]; [false; true; false; false]].
Example C17_nonvacuous : remove_small_objects three_clouds 2 =
  [[true; true; false; false]; [true; false; false; false]; [false; false; false; false]; [false; false; false; false]]
  /\ cloud_larger three_clouds 2 (1, 0).
Proof.
  split; [reflexivity|].
  apply (C17_keeps_large_clouds three_clouds 2 1 0 true); reflexivity.
Qed.

(** ** C18 *)
Theorem C18_isolated : forall array i j b, pixel (filter_isolated_pixels array) i j = Some b ->
  (b = true <-> pixel array i j = Some true /\ exists q, around (i, j) q /\ set_in array q).
Proof.
  intros array i j b H.
  apply (filter_singletons_pixel square around array square_iff around_sym around_irr i j b H).
Qed.
Theorem C18_along_time : forall array i j b, pixel (filter_x_pixels array) i j = Some b ->
  (b = true <-> pixel array i j = Some true /\
     (pixel array (S i) j = Some true \/ exists i', i = S i' /\ pixel array i' j = Some true)).
Proof.
  intros array i j b H.
  destruct (filter_singletons_pixel along_time beside array along_time_iff beside_sym beside_irr i j b H) as [_ Hb].
  rewrite Hb. split; intros [H1 H2]; (split; [exact H1|]).
  - destruct H2 as ([a c] & [Hc Ha] & Hs). cbn [fst snd] in *. unfold set_in in Hs. cbn [fst snd] in Hs. subst c.
    destruct Ha as [->| ->]; [right; eauto|left; exact Hs].
  - destruct H2 as [Hs|(i' & -> & Hs)].
    + exists (S i, j). split; [|exact Hs]. unfold beside. cbn. lia.
    + exists (i', j). split; [|exact Hs]. unfold beside. cbn. lia.
Qed.
Theorem C18_same_pixels : forall array i j,
  ((exists b, pixel (filter_isolated_pixels array) i j = Some b) <-> exists b, pixel array i j = Some b) /\
  ((exists b, pixel (filter_x_pixels array) i j = Some b) <-> exists b, pixel array i j = Some b).
Proof.
  intros array i j. split; (split; intros [b H]).
  - apply (filter_singletons_pixel square around array square_iff around_sym around_irr i j b H).
  - apply (filter_singletons_total square array i j b H).
  - apply (filter_singletons_pixel along_time beside array along_time_iff beside_sym beside_irr i j b H).
  - apply (filter_singletons_total along_time array i j b H).
Qed.
Print Assumptions C18_isolated.
Print Assumptions C18_along_time.
Print Assumptions C18_same_pixels.
(** The example of the docstring of filter_x_pixels (its rows are profiles), and a
    diagonal pair, which filter_isolated_pixels keeps. *)
Example C18_nonvacuous :
  filter_x_pixels [[true; false; false]; [false; true; false]; [false; true; true]]
  = [[false; false; false]; [false; true; false]; [false; true; false]] /\
  filter_isolated_pixels [[true; false; false; false]; [false; true; false; true]; [false; false; false; false]]
  = [[true; false; false; false]; [false; true; false; false]; [false; false; false; false]].
Proof. split; reflexivity. Qed.

(** ** C24: the aerosol flag.  Of the seven steps only the last two break the
    exclusion; the theorem says exactly where. *)
Theorem C24_exclusive_before_speckle_removal : forall obs bits i j c,
  pixel (before_speckle obs bits) i j = Some c -> aerosol_alone c.
Proof. intros obs bits i j c H. apply (before_speckle_alone obs bits i j c H). Qed.
Theorem C24_where_it_may_fail_partial : forall obs bits i j c,
  pixel (fst (post_process obs bits)) i j = Some c -> aerosol c = true ->
  (droplet c = false /\ falling c = false) \/
  (* a droplet pixel whose falling flag was removed as speckle *)
  (droplet c = true /\ exists c0, pixel (before_speckle obs bits) i j = Some c0 /\ droplet c0 = true /\
     falling c0 = true /\ ~ cloud_larger (fallings (before_speckle obs bits)) 10 (i, j)) \/
  (* a clutter pixel turned into falling because it touches a cloud *)
  (falling c = true /\ pixel (c_clutter obs) i j = Some true).
Proof.
  intros obs bits i j c H Ha. destruct (post_process_aerosol obs bits i j c H Ha) as [?|[(c0 & ? & ? & ? & ? & Hs)|(? & ? & ?)]].
  - left. assumption.
  - right. left. split; [assumption|]. exists c0. destruct Hs. auto.
  - right. right. auto.
Qed.
(** The whole of classify_measurements on two small scenes.  First: a liquid layer
    of two gates with radar echo; its pixel ends up as droplet and aerosol, and the
    target classification reports class 10 (aerosol and insects), hiding the cloud. *)
Definition scene_speckle : ClassData :=
  {| c_z := [[None; Some 0%Q; Some 0%Q; None; None]]; c_beta := [[None; Some 1%Q; None; None; None]];
     c_tw := [[280; 280; 280; 280; 280]%Q]; c_ldr := None; c_lwp := [None]; c_height := [0; 100; 200; 300; 400]%Q;
     c_altitude := 0; c_clutter := [[false; false; false; false; false]] |}.
(** Second: a clutter pixel with lidar echo below a liquid layer. *)
Definition scene_clutter : ClassData :=
  {| c_z := [[Some 0; Some 0%Q; None; None]]%Q; c_beta := [[Some 1; Some 1; None; None]]%Q;
     c_tw := [[280; 280; 280; 280]%Q]; c_ldr := None; c_lwp := [None]; c_height := [0; 100; 200; 300]%Q;
     c_altitude := 0; c_clutter := [[true; false; false; false]] |}.
Definition no_flags : QualityBits :=
  {| radar := true; lidar := true; clutter := false; molecular := false; attenuated_liquid := false;
     corrected_liquid := false; attenuated_rain := false; corrected_rain := false;
     attenuated_melting := false; corrected_melting := false |}.
Theorem C24_aerosol_exclusive_refuted :
  (exists obs melting_layer freezing_region liquid insects top_above bits clutter c,
     classify_measurements obs melting_layer freezing_region liquid insects top_above = Ok (bits, clutter) /\
     pixel bits 0 1 = Some c /\ aerosol c = true /\ droplet c = true /\
     target_classification c no_flags = 10%Z) /\
  (exists obs melting_layer freezing_region liquid insects top_above bits clutter c,
     classify_measurements obs melting_layer freezing_region liquid insects top_above = Ok (bits, clutter) /\
     pixel bits 0 0 = Some c /\ aerosol c = true /\ falling c = true /\
     target_classification c no_flags = 8%Z).
Proof.
  split.
  - exists scene_speckle, [[false; false; false; false; false]], [[false; false; false; false; true]],
      [[false; true; false; false; false]], [[false; false; false; false; false]], 2.
    do 3 eexists. split; [vm_compute; reflexivity|]. split; [reflexivity|]. repeat split.
  - exists scene_clutter, [[false; false; false; false]], [[false; false; false; true]],
      [[false; true; false; false]], [[false; false; false; false]], 1.
    do 3 eexists. split; [vm_compute; reflexivity|]. split; [reflexivity|]. repeat split.
Qed.
Print Assumptions C24_exclusive_before_speckle_removal.
Print Assumptions C24_where_it_may_fail_partial.
Print Assumptions C24_aerosol_exclusive_refuted.

(** ** C25 *)
Theorem C25_no_supercold_droplets : forall obs bits i j c t,
  pixel (fst (post_process obs bits)) i j = Some c -> pixel (c_tw obs) i j = Some t -> (t < 23516 # 100)%Q ->
  droplet c = false /\
  forall c0, pixel bits i j = Some c0 -> droplet c0 = true ->
    falling c = true \/
    (pixel (fallings (before_speckle obs bits)) i j = Some true /\
     ~ cloud_larger (fallings (before_speckle obs bits)) 10 (i, j)).
Proof.
  intros obs bits i j c t H Ht Hlt. apply (post_process_supercold obs bits i j c H). exists t. auto.
Qed.
(** The same for the whole of classify_measurements. *)
Theorem C25_classification : forall obs melting_layer freezing_region liquid insects top_above bits clutter i j c t,
  classify_measurements obs melting_layer freezing_region liquid insects top_above = Ok (bits, clutter) ->
  pixel bits i j = Some c -> pixel (c_tw obs) i j = Some t -> (t < 23516 # 100)%Q -> droplet c = false.
Proof.
  intros obs ml fr liq ins ta bits cl i j c t H Hc Ht Hlt. unfold classify_measurements in H.
  destruct (correct_liquid_top _ _ _ _); [|discriminate]. cbn [bind] in H.
  destruct (find_falling_hydrometeors _ _ _); [|discriminate]. cbn [bind] in H. cbv zeta in H.
  match type of H with Ok ?p = _ => assert (Hp : p = (bits, cl)) by congruence end.
  apply (f_equal fst) in Hp. cbn [fst] in Hp. rewrite <- Hp in Hc.
  apply (C25_no_supercold_droplets _ _ i j c t Hc Ht Hlt).
Qed.
Print Assumptions C25_no_supercold_droplets.
Print Assumptions C25_classification.
(** A cold liquid layer of twelve gates becomes falling; a single pixel is removed
    as speckle. *)
Definition scene_cold (n : nat) : ClassData :=
  {| c_z := [repeat None n]; c_beta := [repeat (Some 1%Q) n]; c_tw := [repeat 230%Q n]; c_ldr := None;
     c_lwp := [None]; c_height := repeat 100%Q n; c_altitude := 0; c_clutter := [repeat false n] |}.
Definition liquid_pixel : CategoryBits :=
  {| droplet := true; falling := false; freezing := true; melting := false; aerosol := false; insect := false |}.
Example C25_nonvacuous :
  fst (post_process (scene_cold 12) [repeat liquid_pixel 12]) =
    [repeat {| droplet := false; falling := true; freezing := true; melting := false; aerosol := false; insect := false |} 12] /\
  fst (post_process (scene_cold 1) [[liquid_pixel]]) =
    [[{| droplet := false; falling := false; freezing := true; melting := false; aerosol := true; insect := false |}]].
Proof. split; vm_compute; reflexivity. Qed.

(** ** C26: the rain flags have no influence on clutter at all. *)
Theorem C26_low_and_slow : forall v echo disdrometer liquid_rain_only i j b,
  pixel (find_clutter v (profiles_with_rain echo disdrometer liquid_rain_only)) i j = Some b ->
  (b = true <-> j < 10 /\ exists x, pixel v i j = Some (Some x) /\ (Qabs x < 5 # 100)%Q).
Proof.
  intros v echo dis only i j b. apply find_clutter_pixel. intros r. apply profiles_with_rain_01.
Qed.
Theorem C26_no_clutter_in_rain_refuted : exists v echo disdrometer liquid_rain_only,
  let is_rain := profiles_with_rain echo disdrometer liquid_rain_only in
  nth_error is_rain 0 = Some 1%Z /\ pixel (find_clutter v is_rain) 0 0 = Some true.
Proof.
  exists [[Some 0%Q]], [true], [None], [true]. split; reflexivity.
Qed.
Print Assumptions C26_low_and_slow.
Print Assumptions C26_no_clutter_in_rain_refuted.
Example C26_nonvacuous :
  find_clutter [[Some (1 # 100); Some 1; None]]%Q (profiles_with_rain [true] [Some false] [true])
  = [[true; false; false]].
Proof. reflexivity. Qed.

(** ** C28 *)
Theorem C28_changes_partial : forall bits i j c', pixel (filter_insects bits) i j = Some c' ->
  exists c, pixel bits i j = Some c /\
    (c' = c \/
     (became_falling c c' /\
      ((* an insect at or above a melting pixel of its profile *)
       (insect c = true /\ at_or_above bits melting i j) \/
       (* an insect at most five gates below one *)
       (insect c = true /\ exists y cy, pixel bits i y = Some cy /\ melting cy = true /\ j < y /\ y <= j + 5) \/
       (* any pixel next to the gate of a melting pixel, beside which there is an insect
          at most five profiles away, or (in the first five profiles) in the last five *)
       (exists x y cxy ciy, pixel bits x y = Some cxy /\ melting cxy = true /\ j <= S y /\ y <= S j /\
          pixel bits i y = Some ciy /\ insect ciy = true /\
          ((x <= i + 5 /\ i <= x + 5) \/ (x < 5 /\ x + List.length bits <= i + 5)))))).
Proof.
  intros bits i j c' H. destruct (filter_insects_changes bits i j c' H) as (c & Hc & [->|[-> Hr]]).
  - exists c. auto.
  - exists c. split; [exact Hc|]. right. split; [repeat split|].
    destruct Hr as [Hr|[(Hi & y & (cy & Hy & Hm) & H1 & H2)|(x & y & (cx & Hx & Hm) & H1 & H2 & Hn & _ & (ci & Hi & Hins))]].
    + left. exact Hr.
    + right. left. split; [exact Hi|]. exists y, cy. auto.
    + right. right. exists x, y, cx, ci. auto 10.
Qed.
Theorem C28_no_insects_above_melting : forall bits i j c c', pixel bits i j = Some c -> insect c = true ->
  at_or_above bits melting i j -> pixel (filter_insects bits) i j = Some c' -> became_falling c c'.
Proof.
  intros bits i j c c' Hc Hi Ha H. rewrite (filter_insects_above bits i j c c' Hc Hi Ha H). repeat split.
Qed.
(** Three kinds of pixels for the witnesses. *)
Definition blank : CategoryBits :=
  {| droplet := false; falling := false; freezing := false; melting := false; aerosol := false; insect := false |}.
Definition rain_px := set_falling true blank.
Definition melt_px := set_melting true blank.
Definition insect_px := set_insect true blank.
(** Rain below a melting pixel at gate 7 of the first profile, insects at that
    height in profile 1 and in the tenth of ten profiles. *)
Definition scene_insects : image CategoryBits :=
  let clear := repeat blank 10 in
  let ins := repeat blank 7 ++ [insect_px; blank; blank] in
  [repeat rain_px 7 ++ [melt_px; blank; blank]; ins; clear; clear; clear; clear; clear; clear; clear; ins].
(** A clear-sky pixel (above an insect) becomes falling. *)
Theorem C28_only_insects_change_refuted : exists bits i j c c', pixel bits i j = Some c /\
  c = blank /\ pixel (filter_insects bits) i j = Some c' /\ falling c' = true.
Proof.
  exists scene_insects, 1, 8. do 2 eexists. split; [vm_compute; reflexivity|].
  split; [reflexivity|]. split; [vm_compute; reflexivity|]. reflexivity.
Qed.
(** A melting pixel at the start of the file changes an insect at its end, nine
    profiles later, although nothing is melting nearby. *)
Theorem C28_far_pixel_refuted : exists bits i j c c', pixel bits i j = Some c /\
  pixel (filter_insects bits) i j = Some c' /\ c' <> c /\
  (forall x y cxy, pixel bits x y = Some cxy -> melting cxy = true -> x + 9 <= i).
Proof.
  exists scene_insects, 9, 7. do 2 eexists. split; [vm_compute; reflexivity|].
  split; [vm_compute; reflexivity|]. split; [discriminate|]. intros x y cxy H Hm.
  assert (Hin : In (x, y) (where2 (meltings scene_insects))).
  { apply in_where2. unfold set_in, meltings. cbn [fst snd]. rewrite pixel_imap, H. cbn [option_map]. congruence. }
  vm_compute in Hin. destruct Hin as [E|[]]. injection E as <- <-. lia.
Qed.
Print Assumptions C28_changes_partial.
Print Assumptions C28_no_insects_above_melting.
Print Assumptions C28_only_insects_change_refuted.
Print Assumptions C28_far_pixel_refuted.
Example C28_nonvacuous : pixel (filter_insects [[melt_px; insect_px]]) 0 1 = Some rain_px.
Proof. reflexivity. Qed.

(** ** C55: falling hydrometeors, exactly. *)
Theorem C55_falling : forall obs liquid is_insects, shape liquid = shape (c_z obs) ->
  exists out, find_falling_hydrometeors obs liquid is_insects = Ok out /\ shape out = shape (c_z obs) /\
  forall i j b, pixel out i j = Some b ->
  (b = true <->
   (measured (c_z obs) i j /\ pixel (c_clutter obs) i j <> Some true /\ pixel is_insects i j <> Some true /\
    ~ exists base top, liquid_dominated (c_z obs) liquid i base top /\ base <= j <= top)
   \/ cold_lidar_ice (c_beta obs) (c_tw obs) (c_height obs) (c_altitude obs) liquid i j).
Proof.
  intros obs liq ins Hs. destruct (find_falling_total obs liq ins) as (out & E & Hsh).
  exists out. split; [exact E|]. split; [exact Hsh|]. apply find_falling_pixel; assumption.
Qed.
Print Assumptions C55_falling.
(** Echo rising through a liquid layer and gone above it: not falling; clutter at
    gate 0: not falling; cold lidar echo at 5 km: falling. *)
Definition scene_falling : ClassData :=
  {| c_z := [[Some 0; Some (-30); Some (-20); None; None]]%Q; c_beta := [[None; Some 1; None; None; Some 1]]%Q;
     c_tw := [[280; 270; 265; 260; 240]]%Q; c_ldr := None; c_lwp := [None];
     c_height := [100; 1100; 2100; 3100; 5100]%Q; c_altitude := 100; c_clutter := [[true; false; false; false; false]] |}.
Example C55_nonvacuous :
  find_falling_hydrometeors scene_falling [[false; true; true; false; false]] [[false; false; false; false; false]]
  = Ok [[false; false; false; false; true]] /\
  find_falling_hydrometeors scene_falling [[false; false; false; false; false]] [[false; false; false; false; false]]
  = Ok [[false; true; true; false; true]].
Proof. split; vm_compute; reflexivity. Qed.

(** ** C56: liquid tops corrected with the radar. *)
Theorem C56_liquid_tops : forall z liquid freezing_region margin, shape freezing_region = shape liquid ->
  match correct_liquid_top z liquid freezing_region margin with
  | Ok out => shape out = shape liquid /\
      (forall i t, top_of liquid i t -> exists k, t <= k /\ pixel freezing_region i k = Some true) /\
      forall i j b, pixel out i j = Some b ->
        (b = true <-> pixel liquid i j = Some true \/
           exists t, top_of liquid i t /\ extends_top z freezing_region margin i t j)
  | Raise e => e = IndexError /\
      exists i t, top_of liquid i t /\ forall k, t <= k -> pixel freezing_region i k <> Some true
  end.
Proof. exact correct_liquid_top_spec. Qed.
Print Assumptions C56_liquid_tops.
Example C56_nonvacuous :
  correct_liquid_top [[None; Some 0%Q; Some 0%Q; None; None]] [[false; true; false; false; false]]
    [[false; false; false; true; true]] 1 = Ok [[false; true; true; false; false]] /\
  correct_liquid_top [[None; Some 0%Q]] [[false; true]] [[true; false]] 1 = Raise IndexError.
Proof. split; reflexivity. Qed.

(** ** C57: liquid from the radar spectra. *)
Theorem C57_radar_liquid : forall prob lidar freezing_region i j b,
  pixel (combine_liquid prob lidar freezing_region) i j = Some b ->
  exists p, pixel prob i j = Some p /\
  (b = true <-> pixel lidar i j = Some true \/
    ((55 # 100 < p)%Q /\ pixel freezing_region i j = Some true /\
     ~ exists row base top, nth_error lidar i = Some row /\ max_run row base top /\ j < base)).
Proof. exact combine_liquid_pixel. Qed.
Print Assumptions C57_radar_liquid.
Example C57_nonvacuous :
  combine_liquid [[9 # 10; 9 # 10; 0; 9 # 10; 1 # 2]]%Q [[false; false; true; false; false]]
    [[true; true; true; true; true]] = [[false; false; true; true; false]].
Proof. reflexivity. Qed.
