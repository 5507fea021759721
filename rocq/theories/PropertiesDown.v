(** Properties of the averages on the model grid, the advection window, the cloud
    fractions and the bundling of files. *)
From Verif Require Import Base OutputModel GridModel GridSpec GridProofs TimeModel TimeSpec SiteModel ConcatModel CliSpec DownModel DownSpec DownProofs.
From Coq Require Import Lqa.
Open Scope string_scope.
Open Scope nat_scope.
Open Scope list_scope.
Local Notation length := List.length (only parsing).

(** ** C176: advection window *)
(** Exactly the observations within half an hour of the model time and within half a
    model cell of air are used. *)
Theorem C176_window : forall resolution wind model_t obs_time k, (0 < resolution)%Q ->
  (nth_error (get_adv_indices model_t (advection_time resolution wind 1) obs_time) k = Some true <->
   carried resolution wind model_t obs_time k).
Proof. exact adv_window. Qed.
Print Assumptions C176_window.
(** A stronger wind never uses more observations. *)
Theorem C176_monotone : forall resolution w w' model_t obs_time k, (0 < resolution)%Q -> (0 < w)%Q -> (w <= w')%Q ->
  nth_error (get_adv_indices model_t (advection_time resolution (Some w') 1) obs_time) k = Some true ->
  nth_error (get_adv_indices model_t (advection_time resolution (Some w) 1) obs_time) k = Some true.
Proof.
  intros res w w' mt ot k R W L H. apply (proj1 (adv_window _ _ _ _ _ R)) in H. apply (proj2 (adv_window _ _ _ _ _ R)).
  destruct H as (v & t & E & V & Et & D & A & B). assert (v = w') by congruence. subst v. exists w, t. split; [reflexivity|]. split; [exact W|]. split; [exact Et|]. split; [exact D|].
  set (d := (t - mt)%Q) in *. clearbody d. assert (E2 : (res / 2 == res * (1 # 2))%Q) by field. rewrite E2 in *. destruct (Qlt_le_dec d 0) as [N|N].
  - assert (0 <= (w' - w) * - d)%Q by (apply Qmult_le_0_compat; lra). assert (0 < w * - d)%Q by (apply Qmult_lt_0_compat; lra). split; lra.
  - assert (0 <= (w' - w) * d)%Q by (apply Qmult_le_0_compat; lra). assert (0 <= w * d)%Q by (apply Qmult_le_0_compat; lra). split; lra.
Qed.
Print Assumptions C176_monotone.
(** Without a wind no observation is used. *)
Theorem C176_no_wind : forall resolution model_t obs_time k, (0 < resolution)%Q ->
  nth_error (get_adv_indices model_t (advection_time resolution None 1) obs_time) k <> Some true.
Proof. intros res mt ot k R H. apply (proj1 (adv_window _ _ _ _ _ R)) in H. destruct H as (w & t & E & _). discriminate. Qed.
Print Assumptions C176_no_wind.
(** Calm air stays where it is, so the whole hour should be used, as it is for every
    weak wind; with a wind of zero no observation is used. *)
Theorem C176_calm_refuted : exists resolution obs_time,
  (forall w, (0 < w)%Q -> (w * (36 # 10) <= resolution)%Q ->
     nth_error (get_adv_indices 12 (advection_time resolution (Some w) 1) obs_time) 0 = Some true) /\
  nth_error (get_adv_indices 12 (advection_time resolution (Some 0%Q) 1) obs_time) 0 = Some false.
Proof.
  exists 10%Q, [12%Q]. split; [|reflexivity]. intros w W L. apply (proj2 (adv_window 10 (Some w) 12 [12%Q] 0 ltac:(reflexivity))).
  exists w, 12%Q. split; [reflexivity|]. split; [exact W|]. split; [reflexivity|]. split; [split; vm_compute; [discriminate|reflexivity]|].
  assert (E : (w * (36 # 10) * (12 - 12) == 0)%Q) by ring. rewrite E. split; vm_compute; [discriminate|reflexivity].
Qed.
Print Assumptions C176_calm_refuted.
(** 10 km at 10 m/s take 1000 s: 500 s on both sides, the later end open. *)
Example C176_nonvacuous :
  get_adv_indices 12 (advection_time 10 (Some 10%Q) 1) [12 - (501 # 3600); 12 - (500 # 3600); 12; 12 + (499 # 3600); 12 + (500 # 3600)]%Q
    = [false; true; true; true; false] /\
  get_adv_indices 12 (advection_time 10 (Some 1%Q) 1) [(23 # 2) - (1 # 3600); 23 # 2; (25 # 2) - (1 # 3600); 25 # 2]%Q = [false; true; true; false].
Proof. vm_compute. split; reflexivity. Qed.

(** ** C177: products on the model grid *)
Theorem C177_values : forall obs g out i j std adv t levels w, downsample_product obs g = Ok out ->
  i < length (gr_model_time g) -> pixel out i j = Some (std, adv) -> (0 < gr_resolution g)%Q ->
  nth_error (gr_model_time g) i = Some t -> nth_error (gr_model_height g) i = Some levels -> pixel (gr_wind g) i j = Some w ->
  mean_of (in_time (gr_obs_time g) (gr_model_time g) i) (in_level (gr_obs_height g) levels j) obs std /\
  mean_of (carried (gr_resolution g) w t (gr_obs_time g)) (in_level (gr_obs_height g) levels j) obs adv.
Proof. exact product_values. Qed.
Print Assumptions C177_values.
(** The result has the shape of the model heights. *)
Theorem C177_shape : forall obs g out, downsample_product obs g = Ok out ->
  length out = length (gr_model_height g) /\
  forall i levels, nth_error (gr_model_height g) i = Some levels -> exists row, nth_error out i = Some row /\ length row = length levels.
Proof. intros obs g out H. destruct (downsample_pixel _ _ _ _ _ H) as (_ & _ & A & B & _). split; assumption. Qed.
Print Assumptions C177_shape.
(** It is made exactly if the model covers its grid; the only error is IndexError. *)
Theorem C177_success : forall obs g,
  (exists out, downsample_product obs g = Ok out) <-> covered (gr_model_time g) (gr_model_height g) (gr_wind g).
Proof. exact product_total. Qed.
Print Assumptions C177_success.
Theorem C177_error : forall obs g e, downsample_product obs g = Raise e -> e = IndexError.
Proof. intros obs g e H. apply (downsample_raise _ _ _ _ _ H). intros x xa y e'. discriminate. Qed.
Print Assumptions C177_error.
(** Rows of heights beyond the model times are filled with zeros instead of being masked. *)
Theorem C177_extra_rows_refuted : exists obs g out, downsample_product obs g = Ok out /\
  length (gr_model_time g) <= 2 /\ pixel out 2 0 = Some (Some 0%Q, Some 0%Q) /\
  (forall k, ~ in_time (gr_obs_time g) (gr_model_time g) 2 k).
Proof.
  exists [[Some 5%Q; Some 7%Q]],
    {| gr_obs_time := [1 # 4]%Q; gr_obs_height := [100; 200]%Q; gr_model_time := [0; 1]%Q;
       gr_model_height := [[100; 200]; [100; 200]; [100; 200]]%Q; gr_resolution := 10;
       gr_wind := [[Some 5; Some 5]; [Some 5; Some 5]; [Some 5; Some 5]]%Q |}.
  eexists. split; [reflexivity|]. split; [cbn; lia|]. split; [reflexivity|].
  intros k (lo & hi & t & (x0 & x1 & xp & xl & E0 & E1 & Ep & El & Hlo & Hhi) & Et & B). cbn in E0, E1, Ep, El.
  assert (x0 = 0%Q) by congruence. assert (x1 = 1%Q) by congruence. assert (xp = 0%Q) by congruence. assert (xl = 1%Q) by congruence. subst.
  destruct k as [|k]; [|destruct k; discriminate]. cbn in Et. assert (t = (1 # 4)%Q) by congruence. subst t.
  apply (in_bin_compat lo hi (-1 # 2) (3 # 2)) in B; [|rewrite Hlo; reflexivity|rewrite Hhi; reflexivity]. destruct B as [B _]. vm_compute in B. apply B. reflexivity.
Qed.
Print Assumptions C177_extra_rows_refuted.
Definition ex_grids : grids :=
  {| gr_obs_time := [1 # 4; 3 # 4; 1; 5 # 4]%Q; gr_obs_height := [90; 110; 200]%Q; gr_model_time := [0; 1]%Q;
     gr_model_height := [[100; 200]; [100; 200]]%Q; gr_resolution := 9;
     gr_wind := [[Some 5; None]; [Some 10; Some 1]]%Q |}.
Definition ex_obs : image (masked Q) :=
  [[Some 1; Some 3; Some 5]; [Some 2; None; Some 6]; [None; None; None]; [Some 4; Some 8; None]]%Q.
Definition red2 (c : masked Q * masked Q) := (option_map Qred (fst c), option_map Qred (snd c)).
Example C177_nonvacuous :
  (match downsample_product ex_obs ex_grids with Ok out => map (map red2) out | Raise _ => [] end) =
    [[(Some 2, None); (Some 5, None)]; [(Some (14 # 3), None); (Some 6, Some 6)]]%Q /\
  covered (gr_model_time ex_grids) (gr_model_height ex_grids) (gr_wind ex_grids) /\ (0 < gr_resolution ex_grids)%Q.
Proof.
  split; [vm_compute; reflexivity|]. split; [|reflexivity]. apply (product_total ex_obs). eexists. reflexivity.
Qed.

(** ** C178: cloud fractions on the model grid *)
(** With observations in the time and height window: by volume the mean of the valid
    pixels, by area the fraction of profiles with cloud; the same with the advection
    window if it has observation times. *)
Theorem C178_values_partial : forall obs g out i j c t levels w, downsample_cf obs g = Ok out ->
  shaped obs (gr_obs_time g) (gr_obs_height g) -> (forall i j v, pixel obs i j = Some (Some v) -> (0 <= v)%Q) ->
  i < length (gr_model_time g) -> pixel out i j = Some c -> (0 < gr_resolution g)%Q ->
  nth_error (gr_model_time g) i = Some t -> nth_error (gr_model_height g) i = Some levels -> pixel (gr_wind g) i j = Some w ->
  let x := in_time (gr_obs_time g) (gr_model_time g) i in
  let x_adv := carried (gr_resolution g) w t (gr_obs_time g) in
  let y := in_level (gr_obs_height g) levels j in
  (exists k, x k) -> (exists l, y l) ->
  mean_of x y obs (cf_V c) /\ area_of x y obs (cf_A c) /\
  ((exists k, x_adv k) -> mean_of x_adv y obs (cf_V_adv c) /\ area_of x_adv y obs (cf_A_adv c)).
Proof.
  intros obs g out i j c t levels w H S P I Px R Et Eh Ew x xa y X Y.
  destruct (cf_values _ _ _ _ _ _ _ _ _ H S P I Px R Et Eh Ew) as [(_ & _ & V & A & D)|([N|N] & _)].
  - split; [exact V|]. split; [exact A|]. intros (k & K). destruct D as [(_ & D)|(N & _)]; [exact D|exfalso; exact (N k K)].
  - exfalso. destruct X as (k & K). exact (N k K).
  - exfalso. destruct Y as (k & K). exact (N k K).
Qed.
Print Assumptions C178_values_partial.
(** Where the window has no observations all four are zero, not masked. *)
Theorem C178_empty_window : forall obs g out i j c t levels w, downsample_cf obs g = Ok out ->
  shaped obs (gr_obs_time g) (gr_obs_height g) -> (forall i j v, pixel obs i j = Some (Some v) -> (0 <= v)%Q) ->
  i < length (gr_model_time g) -> pixel out i j = Some c -> (0 < gr_resolution g)%Q ->
  nth_error (gr_model_time g) i = Some t -> nth_error (gr_model_height g) i = Some levels -> pixel (gr_wind g) i j = Some w ->
  (forall k, ~ in_time (gr_obs_time g) (gr_model_time g) i k) \/ (forall l, ~ in_level (gr_obs_height g) levels j l) ->
  cf_V c = Some 0%Q /\ cf_A c = Some 0%Q /\ cf_V_adv c = Some 0%Q /\ cf_A_adv c = Some 0%Q.
Proof.
  intros obs g out i j c t levels w H S P I Px R Et Eh Ew N.
  destruct (cf_values _ _ _ _ _ _ _ _ _ H S P I Px R Et Eh Ew) as [((k & K) & (l & L) & _)|(_ & ->)]; [|repeat split].
  exfalso. destruct N as [N|N]; [exact (N k K)|exact (N l L)].
Qed.
Print Assumptions C178_empty_window.
(** So the advection value can be zero although its window has a cloudy observation. *)
Theorem C178_advection_gap_refuted : exists obs g out c, downsample_cf obs g = Ok out /\
  shaped obs (gr_obs_time g) (gr_obs_height g) /\ pixel out 0 0 = Some c /\ cf_V_adv c = Some 0%Q /\ cf_A_adv c = Some 0%Q /\
  carried (gr_resolution g) (Some 1%Q) 1 (gr_obs_time g) 0 /\ nth_error (gr_model_time g) 0 = Some 1%Q /\
  pixel (gr_wind g) 0 0 = Some (Some 1%Q) /\ in_level (gr_obs_height g) [100; 200]%Q 0 0 /\
  nth_error (gr_model_height g) 0 = Some [100; 200]%Q /\ pixel obs 0 0 = Some (Some 1%Q).
Proof.
  exists [[Some 1%Q]],
    {| gr_obs_time := [14 # 10]%Q; gr_obs_height := [100]%Q; gr_model_time := [1; 3 # 2]%Q;
       gr_model_height := [[100; 200]; [100; 200]]%Q; gr_resolution := 10; gr_wind := [[Some 1; Some 1]; [Some 1; Some 1]]%Q |}.
  do 2 eexists. split; [reflexivity|]. split; [split; [reflexivity|repeat constructor]|]. split; [reflexivity|]. split; [reflexivity|]. split; [reflexivity|].
  split; [exists 1%Q, (14 # 10)%Q; repeat split; vm_compute; congruence|]. split; [reflexivity|]. split; [reflexivity|]. split; [|split; reflexivity].
  exists 0%Q, 150%Q, 100%Q. split; [exists 100%Q, 200%Q; left; repeat split|]. split; [exists 100%Q, 200%Q; right; repeat split; cbn; lia|]. repeat split; vm_compute; congruence.
Qed.
Print Assumptions C178_advection_gap_refuted.
(** Without masked pixels the fraction by volume is at most the fraction by area. *)
Theorem C178_volume_below_area : forall obs g out i j c levels v a, downsample_cf obs g = Ok out ->
  shaped obs (gr_obs_time g) (gr_obs_height g) -> i < length (gr_model_time g) -> pixel out i j = Some c ->
  nth_error (gr_model_height g) i = Some levels ->
  (forall k l, in_time (gr_obs_time g) (gr_model_time g) i k -> in_level (gr_obs_height g) levels j l ->
     exists q, pixel obs k l = Some (Some q) /\ (0 <= q /\ q <= 1)%Q) ->
  cf_V c = Some v -> cf_A c = Some a -> (v <= a)%Q.
Proof. exact volume_le_area. Qed.
Print Assumptions C178_volume_below_area.
(** With masked pixels it can be above. *)
Theorem C178_masked_pixels_refuted : exists obs g out c v a, downsample_cf obs g = Ok out /\
  shaped obs (gr_obs_time g) (gr_obs_height g) /\ (forall i j q, pixel obs i j = Some (Some q) -> (0 <= q /\ q <= 1)%Q) /\
  pixel out 0 0 = Some c /\ cf_V c = Some v /\ cf_A c = Some a /\ (a < v)%Q.
Proof.
  exists [[Some 1; Some 1]; [Some 0; None]]%Q,
    {| gr_obs_time := [1 # 10; 2 # 10]%Q; gr_obs_height := [90; 110]%Q; gr_model_time := [0; 1]%Q;
       gr_model_height := [[100; 200]; [100; 200]]%Q; gr_resolution := 10; gr_wind := [[Some 1; Some 1]; [Some 1; Some 1]]%Q |}.
  do 4 eexists. split; [reflexivity|]. split; [split; [reflexivity|repeat constructor]|]. split.
  - intros i j q E. unfold pixel in E. destruct i as [|[|i]]; cbn in E; [| |destruct i; discriminate].
    + destruct j as [|[|j]]; cbn in E; [| |destruct j; discriminate]; assert (q = 1%Q) by congruence; subst; lra.
    + destruct j as [|[|j]]; cbn in E; [|discriminate|destruct j; discriminate]; assert (q = 0%Q) by congruence; subst; lra.
  - split; [reflexivity|]. split; [reflexivity|]. split; [reflexivity|]. vm_compute. reflexivity.
Qed.
Print Assumptions C178_masked_pixels_refuted.
(** Ordered observations are never rejected; others may be. *)
Theorem C178_success : forall obs g, covered (gr_model_time g) (gr_model_height g) (gr_wind g) ->
  shaped obs (gr_obs_time g) (gr_obs_height g) -> ascending (gr_obs_time g) -> ascending (gr_obs_height g) ->
  exists out, downsample_cf obs g = Ok out.
Proof. exact cf_total. Qed.
Print Assumptions C178_success.
Theorem C178_shape : forall obs g out, downsample_cf obs g = Ok out ->
  covered (gr_model_time g) (gr_model_height g) (gr_wind g) /\ length out = length (gr_model_height g) /\
  forall i levels, nth_error (gr_model_height g) i = Some levels -> exists row, nth_error out i = Some row /\ length row = length levels.
Proof.
  intros obs g out H. split; [exact (downsample_covered _ _ _ _ _ H)|]. destruct (downsample_pixel _ _ _ _ _ H) as (_ & _ & A & B & _). split; assumption.
Qed.
Print Assumptions C178_shape.
Definition ex_cloud : image (masked Q) :=
  [[Some 1; Some 0; Some 0]; [Some 0; None; Some 0]; [None; None; None]; [Some 0; Some 1; None]]%Q.
Definition red4 (c : fractions) := map (option_map Qred) [cf_V c; cf_A c; cf_V_adv c; cf_A_adv c].
Example C178_nonvacuous :
  (match downsample_cf ex_cloud ex_grids with Ok out => map (map red4) out | Raise _ => [] end) =
    [[[Some (1 # 2); Some 1; Some 0; Some 0]; [Some 0; Some 0; Some 0; Some 0]];
     [[Some (1 # 3); Some (1 # 2); None; None]; [Some 0; Some 0; Some 0; Some 0]]]%Q /\
  shaped ex_cloud (gr_obs_time ex_grids) (gr_obs_height ex_grids) /\
  ascending (gr_obs_time ex_grids) /\ ascending (gr_obs_height ex_grids) /\
  downsample_cf [[Some 1]; [Some 1]; [Some 1]]%Q
    {| gr_obs_time := [1 # 10; 9 # 10; 2 # 10]%Q; gr_obs_height := [100]%Q; gr_model_time := [0; 1]%Q;
       gr_model_height := [[100; 200]; [100; 200]]%Q; gr_resolution := 10; gr_wind := [[Some 1; Some 1]; [Some 1; Some 1]]%Q |} = Raise ValueError.
Proof.
  split; [vm_compute; reflexivity|]. split; [split; [reflexivity|repeat constructor]|]. split; [repeat constructor; vm_compute; discriminate|].
  split; [repeat constructor; vm_compute; discriminate|]. vm_compute. reflexivity.
Qed.

(** ** C179: bundling the files of a day *)
(** Several files: those readable with a time stamp on the date, in the given order,
    are joined without the variables that are never bundled. *)
Theorem C179_files : forall current_year files date dimensions variables fs out,
  bundle_netcdf_files current_year files date dimensions variables = Ok (fs, out) -> 2 <= length files ->
  CliSpec.kept (dated current_year date) files fs /\
  exists dim used content, out = Joined dim content /\
    concatenate_files (map bf_content fs) variables
      (Some ["minimum"; "maximum"; "number_integrated_samples"; "Min_LWP"; "Max_LWP"]) = Ok (used, content).
Proof.
  intros cy files date dims vars fs out H L. unfold bundle_netcdf_files in H. destruct files as [|f0 [|f1 rest]]; try (cbn in L; lia).
  destruct (bf_readable f0); [|discriminate]. destruct (first_dimension dims (bf_dimensions f0)) as [dim|]; [|discriminate].
  apply bind_ok in H as (gs & Eg & H). apply bind_ok in H as ([used o] & Ec & H). apply ok_eq in H. assert (gs = fs) by congruence. assert (out = Joined dim o) by (cbn [snd] in H; congruence). subst.
  split; [apply bundle_valid, Eg|]. exists dim, used, o. split; [reflexivity|exact Ec].
Qed.
Print Assumptions C179_files.
(** The dimension is the first of the wanted ones that the first file has. *)
Theorem C179_dimension : forall current_year files date dimensions variables fs dim content,
  bundle_netcdf_files current_year files date dimensions variables = Ok (fs, Joined dim content) ->
  exists f0 rest a b, files = f0 :: rest /\ dimensions = a ++ dim :: b /\ In dim (bf_dimensions f0) /\
    forall x, In x a -> ~ In x (bf_dimensions f0).
Proof.
  intros cy files date dims vars fs dim o H. unfold bundle_netcdf_files in H. destruct files as [|f0 rest]; [discriminate|]. exists f0, rest.
  destruct (bf_readable f0); [|discriminate]. destruct (first_dimension dims (bf_dimensions f0)) as [d|] eqn:E; [|discriminate].
  assert (d = dim). { destruct rest; [discriminate|]. apply bind_ok in H as (gs & _ & H). apply bind_ok in H as (r & _ & H). congruence. }
  subst d. apply first_dimension_iff in E as (a & b & E). exists a, b. split; [reflexivity|exact E].
Qed.
Print Assumptions C179_dimension.
Theorem C179_no_dimension : forall current_year f0 rest date dimensions variables, bf_readable f0 = true ->
  (forall d, In d dimensions -> ~ In d (bf_dimensions f0)) ->
  bundle_netcdf_files current_year (f0 :: rest) date dimensions variables = Raise KeyError.
Proof. intros cy f0 rest date dims vars R N. unfold bundle_netcdf_files. rewrite R. apply first_dimension_none in N. rewrite N. reflexivity. Qed.
Print Assumptions C179_no_dimension.
(** Several files, none of the day: an error, nothing is joined. *)
Theorem C179_none_of_the_day : forall current_year files date dimensions variables fs, 2 <= length files ->
  bundle_netcdf_files current_year files date dimensions variables = Ok fs -> exists f, In f files /\ dated current_year date f.
Proof.
  intros cy files date dims vars [fs out] L H. destruct (C179_files _ _ _ _ _ _ _ H L) as [K (dim & used & o & _ & Ec)].
  destruct fs as [|f fs]; [discriminate|]. exists f. clear - K. remember (f :: fs) as l eqn:E. induction K as [|x l' out P K IH|x l' out N K IH]; [discriminate| |].
  - assert (x = f) by congruence. subst. split; [left; reflexivity|exact P].
  - destruct (IH E) as [I D]. split; [right; exact I|exact D].
Qed.
Print Assumptions C179_none_of_the_day.
(** Days are counted by the calendar. *)
Theorem C179_calendar : forall a b, next_day a b -> day_number b = (day_number a + 1)%Z.
Proof. exact day_step. Qed.
Print Assumptions C179_calendar.
Definition ex_cfile (name : string) (time : list Q) (broken : list string) : cfile :=
  {| cf_name := name; cf_range := Some [100%Q]; cf_vars := [("time", Series false (map (fun t => [Some t]) time))]; cf_broken := broken |}.
Definition ex_bfile (name : string) (readable : bool) (time : list Q) (units : string) (broken : list string) : bfile :=
  {| bf_readable := readable; bf_dimensions := ["range"; "time"]; bf_time := Some time; bf_units := Some units; bf_content := ex_cfile name time broken |}.
(** One file is copied although it is of another day. *)
Theorem C179_single_file_refuted : exists f date,
  ~ dated 2026 date f /\ bundle_netcdf_files 2026 [f] date ["time"; "profile"] None = Ok ([f], Copied f).
Proof.
  exists (ex_bfile "a.nc" true [60%Q] "seconds since 2020-01-01" []), (2020, 1, 5)%Z. split; [|reflexivity].
  intros (_ & time & units & epoch & t & Et & Eu & Ee & It & D). cbn in Et, Eu. assert (units = "seconds since 2020-01-01") by congruence. subst units.
  vm_compute in Ee. assert (epoch = (2020, 1, 1)%Z) by congruence. assert (time = [60%Q]) by congruence. subst. destruct It as [<-|[]].
  apply TimeProofs.day_of_iff in D. vm_compute in D. discriminate.
Qed.
Print Assumptions C179_single_file_refuted.
(** Unreadable files are left out, but not the first one: it is an error. *)
Theorem C179_unreadable_first_refuted : exists bad good other date out,
  bf_readable bad = false /\
  bundle_netcdf_files 2026 [good; bad; other] date ["time"; "profile"] None = Ok ([good; other], out) /\
  bundle_netcdf_files 2026 [bad; good; other] date ["time"; "profile"] None = Raise OSError.
Proof.
  exists (ex_bfile "b.nc" false [] "" []), (ex_bfile "a.nc" true [60%Q] "seconds since 2020-01-01" []), (ex_bfile "c.nc" true [90%Q] "seconds since 2020-01-01" []), (2020, 1, 1)%Z.
  eexists. split; [reflexivity|]. split; [vm_compute; reflexivity|reflexivity].
Qed.
Print Assumptions C179_unreadable_first_refuted.
(** The returned list can hold a file that was left out because its data are broken. *)
Theorem C179_returned_refuted : exists good bad date out used content,
  bundle_netcdf_files 2026 [good; bad] date ["time"; "profile"] None = Ok ([good; bad], out) /\ out = Joined "time" content /\
  concatenate_files [bf_content good; bf_content bad] None (Some bundle_ignore) = Ok (used, content) /\ ~ In (bf_content bad) used.
Proof.
  exists (ex_bfile "a.nc" true [60%Q] "seconds since 2020-01-01" []), (ex_bfile "b.nc" true [90%Q] "seconds since 2020-01-01" ["time"]), (2020, 1, 1)%Z.
  do 3 eexists. split; [vm_compute; reflexivity|]. split; [reflexivity|]. split; [vm_compute; reflexivity|]. intros [H|[]]. discriminate.
Qed.
Print Assumptions C179_returned_refuted.
(** Times are taken as seconds whatever their units: 25 hours after midnight are
    counted as the first day. *)
Theorem C179_hours_refuted : exists f g date out,
  bf_time f = Some [25%Q] /\ bf_units f = Some "hours since 2020-01-01" /\ date = (2020, 1, 1)%Z /\
  bundle_netcdf_files 2026 [f; g] date ["time"; "profile"] None = Ok ([f], out).
Proof.
  exists (ex_bfile "a.nc" true [25%Q] "hours since 2020-01-01" []), (ex_bfile "b.nc" true [90%Q] "seconds since 2020-01-03" []), (2020, 1, 1)%Z.
  eexists. split; [reflexivity|]. split; [reflexivity|]. split; [reflexivity|]. vm_compute. reflexivity.
Qed.
Print Assumptions C179_hours_refuted.
Example C179_nonvacuous :
  (exists out, bundle_netcdf_files 2026 [ex_bfile "b.nc" true [86460; 5]%Q "seconds since 2020-02-28" []; ex_bfile "c.nc" true [90%Q] "seconds since 2020-03-01" [];
      ex_bfile "a.nc" true [3%Q] "seconds since 2020-02-29" []] (2020, 2, 29)%Z ["profile"; "time"] None
     = Ok ([ex_bfile "b.nc" true [86460; 5]%Q "seconds since 2020-02-28" []; ex_bfile "a.nc" true [3%Q] "seconds since 2020-02-29" []], Joined "time" out)) /\
  bundle_netcdf_files 2026 [ex_bfile "b.nc" true [5%Q] "seconds since 2020-02-28" []; ex_bfile "c.nc" true [90%Q] "seconds since 2020-03-01" []] (2020, 2, 29)%Z ["time"] None
     = Raise ValidTimeStampError /\
  bundle_netcdf_files 2026 [ex_bfile "b.nc" true [5%Q] "seconds since 2020-02-28" []] (2020, 2, 29)%Z ["profile"] None = Raise KeyError /\
  bundle_netcdf_files 2026 [] (2020, 2, 29)%Z ["time"] None = Raise IndexError /\
  next_day (2020, 2, 29)%Z (2020, 3, 1)%Z /\ next_day (2019, 12, 31)%Z (2020, 1, 1)%Z.
Proof.
  split; [eexists; vm_compute; reflexivity|]. split; [vm_compute; reflexivity|]. split; [reflexivity|]. split; [reflexivity|].
  split; [apply (NewMonth 2020 2 29); [right; right; left|lia]|apply (NewYear 2019)].
  split; [reflexivity|]. split; [|reflexivity]. right. split; [exists 505%Z; reflexivity|]. intros (q & E). lia.
Qed.
