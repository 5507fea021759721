(** Properties C119 to C125: cloud radars with netCDF files (Galileo, Copernicus, BASTA,
    BOW-TIE, MIRA). *)
From Verif Require Import Base ArrayModel GridModel OutputModel ConcatProofs DropletModel DropletSpec DropletProofs SiteModel SiteSpec SiteProofs
  MeltModel MeltSpec RadarSpec NcRadarModel NcRadarSpec NcRadarProofs.
From Coq Require Import Lqa Ascii String.
Open Scope string_scope.
Open Scope nat_scope.
Open Scope list_scope.
Local Notation length := List.length (only parsing).

(** ** C119: reading of the files *)

Theorem C119_variables file keymap name :
  (forall v', lookup name (init_data file keymap []) = Some v' <-> exists v, last_present file keymap name v /\ read_as v v') /\
  (lookup name (init_data file keymap []) = None <-> forall key, In (key, name) keymap -> lookup key file = None).
Proof. split; [intros v'; apply init_data_iff|apply init_data_none]. Qed.
Print Assumptions C119_variables.

Theorem C119_all_masked d v : lookup "v" d = Some (N2 v) ->
  (test_if_all_masked d = Raise RadarDataError <-> forall i j x b, pixel v i j = Some (x, b) -> b = true) /\
  (test_if_all_masked d = Ok tt <-> exists i j x, pixel v i j = Some (x, false)).
Proof. apply all_masked_iff. Qed.
Print Assumptions C119_all_masked.

(** The range is that of the file, "height" if there is none, times the factor of the
    site. *)
Theorem C119_range file factor l :
  (lookup "range" file = Some (N1 l) \/ (lookup "range" file = None /\ lookup "height" file = Some (N1 l)) ->
   exists r, add_range file factor = Ok r /\
     Forall2 (fun (x : cell) y => match fst x with Some q => exists z, y = Some z /\ (z == q * given 1 factor)%Q | None => y = None end) l r) /\
  (lookup "range" file = None -> lookup "height" file = None -> add_range file factor = Raise KeyError).
Proof.
  assert (F : forall m : list cell, Forall2 (fun (x : cell) y => match fst x with Some q => exists z, y = Some z /\ (z == q * given 1 factor)%Q | None => y = None end) m
                (match factor with Some f => map (option_map (fun r => (r * f)%Q)) (map number m) | None => map number m end)).
  { intros m. destruct factor as [f|]; cbn [given]; induction m as [|[[q|] b] m IH]; cbn [map]; try constructor; try exact IH; unfold number; cbn [fst option_map]; auto.
    - exists (q * f)%Q. split; reflexivity.
    - exists q. split; [reflexivity|]. ring. }
  unfold add_range. split.
  - intros [H|[H0 H]].
    + replace (lookup "range" file) with (Some (N1 l)). cbn [bind]. eexists. split; [reflexivity|apply F].
    + replace (lookup "range" file) with (@None nvar). replace (lookup "height" file) with (Some (N1 l)). cbn [bind]. eexists. split; [reflexivity|apply F].
  - intros -> ->. reflexivity.
Qed.
Print Assumptions C119_range.

Theorem C119_nyquist file :
  (forall l, lookup "ambiguous_velocity" file = Some l \/ (lookup "ambiguous_velocity" file = None /\ lookup "NyquistVelocity" file = Some l) -> l <> [] ->
   exists m, nyquist file = Some (Some m) /\ is_median l m) /\
  (lookup "ambiguous_velocity" file = None -> lookup "NyquistVelocity" file = None -> nyquist file = None).
Proof.
  unfold nyquist. split.
  - intros l H N. pose proof (median_iff l) as M. destruct (median l) as [m|] eqn:E; [|contradiction]. exists m. split; [|exact M].
    destruct H as [H|[H0 H]]; [rewrite H, E; reflexivity|]. rewrite H0, H. cbn [option_map]. rewrite E. reflexivity.
  - intros -> ->. reflexivity.
Qed.
Print Assumptions C119_nyquist.

Example C119_nonvacuous :
  init_data [("Zg", N1 [(None, false); (Some 3%Q, false)]); ("Zh2l", N1 [(Some 4%Q, false)])] [("Zh2l", "Zh"); ("Zg", "Zh"); ("VELg", "v")] [] =
    [("Zh", N1 [(None, true); (Some 3%Q, false)])] /\
  test_if_all_masked [("v", N2 [[(None, true)]; [(Some 1%Q, true)]])] = Raise RadarDataError /\
  test_if_all_masked [("v", N2 [[(None, true)]; [(Some 1%Q, false)]])] = Ok tt /\
  add_range [("height", N1 [(Some 100%Q, false)])] (Some 2%Q) = Ok [Some 200%Q] /\
  nyquist [("NyquistVelocity", [1%Q; 9%Q; 2%Q])] = Some (Some (4 # 2)%Q).
Proof. repeat split; vm_compute; reflexivity. Qed.

(** ** C120: Galileo *)

(** Only the gates above the radar remain; a pixel is masked if it was, if the signal is
    weak, if reflectivity or velocity is missing, or if it is clutter of the lowest 15
    gates. *)
Theorem C120_screening nt n limit d range z v snr ldr : nt <> 1 -> radar_data nt n d -> lookup "range" d = Some (N1 range) -> length range = n ->
  lookup "Zh" d = Some (N2 z) -> lookup "v" d = Some (N2 v) -> lookup "SNR" d = Some (N2 snr) -> lookup "ldr" d = Some (N2 ldr) ->
  forall gates, kept_gates (fun q => 0 < q)%Q range gates ->
  (gates = [] -> galileo_screen limit d = Raise ValueError) /\
  (gates <> [] -> exists d', galileo_screen limit d = Ok d' /\
    (forall k, lookup k d = None -> lookup k d' = None) /\
    (forall k m, lookup k d = Some (N2 m) -> exists m', lookup k d' = Some (N2 m') /\
       cut_image gates same_number (galileo_bad (given 3 limit) snr z v ldr) m m') /\
    (forall k l, lookup k d = Some (N1 l) -> length l = n -> exists l', lookup k d' = Some (N1 l') /\ at_gates gates l l') /\
    (forall k l, lookup k d = Some (N1 l) -> length l <> n -> lookup k d' = Some (N1 l)) /\
    (forall k x, lookup k d = Some (N0 x) -> lookup k d' = Some (N0 x))).
Proof. apply galileo_spec. Qed.
Print Assumptions C120_screening.

(** There is always exactly one list of such gates. *)
Theorem C120_gates p range : (forall q, {p q} + {~ p q}) -> exists gates, kept_gates p range gates /\ forall gates', kept_gates p range gates' -> gates' = gates.
Proof. apply gates_exist. Qed.
Print Assumptions C120_gates.

Lemma no_mask_check (d : ndict) : forallb (fun kv : string * nvar => match snd kv with N2 m => forallb (forallb (fun x : cell => negb (snd x))) m | _ => true end) d = true ->
  forall k m, lookup k d = Some (N2 m) -> forall i j, ~ covered m i j.
Proof.
  intros H k m L i j [x X]. apply ConcatProofs.lookup_some_in in L. rewrite forallb_forall in H. specialize (H _ L). cbn [snd] in H. rewrite forallb_forall in H.
  unfold pixel in X. destruct (nth_error m i) as [row|] eqn:E; [|discriminate]. specialize (H _ (nth_error_In _ _ E)). rewrite forallb_forall in H. specialize (H _ (nth_error_In _ _ X)). discriminate.
Qed.
Lemma rectangle_check nt n (d : ndict) : forallb (fun kv : string * nvar => match snd kv with N2 m => (length m =? nt) && forallb (fun row : list cell => length row =? n) m | _ => true end) d = true -> radar_data nt n d.
Proof.
  intros H k m L. apply ConcatProofs.lookup_some_in in L. rewrite forallb_forall in H. specialize (H _ L). cbn [snd] in H. apply andb_true_iff in H. destruct H as [H1 H2]. apply Nat.eqb_eq in H1.
  split; [exact H1|]. intros i row E. rewrite forallb_forall in H2. apply Nat.eqb_eq, H2, (nth_error_In _ _ E).
Qed.
Definition px (q : Q) : cell := (Some q, false).
Definition galileo_demo (ldr : Q) : ndict :=
  [("Zh", N2 [[px 1; px 20]; [px 2; px 3]]); ("v", N2 [[px 1; px 1]; [px 1; px 1]]); ("SNR", N2 [[px 9; px 9]; [px 9; px 2]]);
   ("ldr", N2 [[px (-20); px ldr]; [px (-20); px (-20)]]); ("range", N1 [px (-10); px 20]); ("time", N1 [px 1; px 2])].

(** The comment says that strong reflectivity is valid ("Only strong Z values are valid",
    weak: below -15 dBZ).  It is masked too. *)
Theorem C120_strong_echo_refuted : exists d d' z' x, galileo_screen None d = Ok d' /\ lookup "Zh" d = lookup "Zh" (galileo_demo (-3)) /\
  lookup "Zh" d' = Some (N2 z') /\ pixel z' 0 0 = Some (Some x, true) /\ (-15 < x)%Q /\ (forall k m, lookup k d = Some (N2 m) -> forall i j, ~ covered m i j).
Proof.
  exists (galileo_demo (-3)). do 3 eexists. split; [vm_compute; reflexivity|]. split; [reflexivity|]. split; [reflexivity|]. split; [reflexivity|]. split; [reflexivity|].
  apply no_mask_check. reflexivity.
Qed.
Print Assumptions C120_strong_echo_refuted.

(** If there are as many profiles as gates, the times are cut like the gates. *)
Theorem C120_times_refuted : exists d d' t t', galileo_screen None d = Ok d' /\ radar_data 2 2 d /\ lookup "time" d = Some (N1 t) /\ length t = 2 /\
  lookup "time" d' = Some (N1 t') /\ length t' = 1 /\ exists m, lookup "Zh" d' = Some (N2 m) /\ length m = 2.
Proof.
  exists (galileo_demo (-20)). do 3 eexists. split; [vm_compute; reflexivity|]. split.
  - apply rectangle_check. reflexivity.
  - split; [reflexivity|]. split; [reflexivity|]. split; [reflexivity|]. split; [reflexivity|]. eexists. split; reflexivity.
Qed.
Print Assumptions C120_times_refuted.

(** A file of one profile: the range is cut, the image is not. *)
Theorem C120_one_profile_refuted : exists d d' r m, galileo_screen None d = Ok d' /\ lookup "range" d' = Some (N1 r) /\ length r = 1 /\
  lookup "Zh" d' = Some (N2 [m]) /\ length m = 2.
Proof.
  exists [("Zh", N2 [[px 1; px 20]]); ("v", N2 [[px 1; px 1]]); ("SNR", N2 [[px 9; px 9]]); ("ldr", N2 [[px (-20); px (-20)]]); ("range", N1 [px (-10); px 20]); ("time", N1 [px 1])].
  do 3 eexists. split; [vm_compute; reflexivity|]. repeat split; reflexivity.
Qed.
Print Assumptions C120_one_profile_refuted.

Example C120_nonvacuous : exists d', galileo_screen None (galileo_demo (-20)) = Ok d' /\
  lookup "Zh" d' = Some (N2 [[px 20]; [(Some 3%Q, true)]]) /\ lookup "range" d' = Some (N1 [px 20]) /\
  kept_gates (fun q => 0 < q)%Q [px (-10); px 20] [1] /\
  galileo_screen None (set_key "range" (N1 [px (-10); px (-5)]) (galileo_demo (-20))) = Raise ValueError.
Proof.
  eexists. split; [vm_compute; reflexivity|]. split; [reflexivity|]. split; [reflexivity|]. split; [|vm_compute; reflexivity]. split; [repeat constructor|].
  intros j. split.
  - intros [<-|[]]. exists 20%Q, false. split; reflexivity.
  - intros (q & b & E & H). destruct j as [|[|j]]; cbn in E; unfold px in E; [|left; reflexivity|destruct j; discriminate]. assert (q = (-10)%Q) by congruence. subst q. lra.
Qed.

(** ** C121: Copernicus *)

Theorem C121_screening nt n zo ro d range z v snr width : radar_data nt n d -> lookup "range" d = Some (N1 range) -> length range = n ->
  Forall (fun x : cell => snd x = false) range ->
  lookup "Zh" d = Some (N2 z) -> lookup "v" d = Some (N2 v) -> lookup "SNR" d = Some (N2 snr) -> lookup "width" d = Some (N2 width) ->
  forall gates, kept_gates (fun q => 0 <= q - given 0 (o_applied ro) + given (-720) (o_site ro))%Q range gates ->
  exists d', copernicus_screen zo ro d = Ok d' /\
    (forall k, lookup k d = None -> lookup k d' = None) /\
    (forall k m, lookup k d = Some (N2 m) -> exists m', lookup k d' = Some (N2 m') /\
       cut_image gates (if String.eqb k "Zh" then moved (given 0 (o_applied zo)) (given (- (1495 # 10)) (o_site zo)) else same_number)
         (fun i j _ => copernicus_bad snr width z v range i j) m m') /\
    (exists r, lookup "range" d' = Some (N1 r) /\ at_gates gates (map (fun x : cell => (moved (given 0 (o_applied ro)) (given (-720) (o_site ro)) (fst x), false)) range) r) /\
    (forall k l, lookup k d = Some (N1 l) -> k <> "range" -> lookup k d' = Some (N1 l)) /\
    (forall k x, lookup k d = Some (N0 x) -> lookup k d' = Some (N0 x)).
Proof. apply copernicus_spec. Qed.
Print Assumptions C121_screening.

Definition copernicus_demo : ndict :=
  [("Zh", N2 [[px 1; px 150]; [px 2; px 130]]); ("v", N2 [[px 1; px 1]; [px 1; px (-10)]]); ("SNR", N2 [[px 2; px 9]; [px 2; px 9]]);
   ("width", N2 [[px 1; px 1]; [px 1; px 1]]); ("range", N1 [px 60; px 820]); ("time", N1 [px 1; px 2])].
Definition no_offsets : offsets := {| o_applied := None; o_site := None |}.

(** The first gates (150 m) are masked before the range is corrected: in the product they
    are visible. *)
Theorem C121_first_gates_refuted : exists d d' v r x y, copernicus_screen no_offsets no_offsets d = Ok d' /\
  lookup "v" d' = Some (N2 v) /\ lookup "range" d' = Some (N1 r) /\ pixel v 0 0 = Some (Some x, false) /\ nth_error r 0 = Some (Some y, false) /\ (0 <= y < 150)%Q.
Proof.
  exists copernicus_demo. do 5 eexists. split; [vm_compute; reflexivity|]. split; [reflexivity|]. split; [reflexivity|]. split; [reflexivity|]. split; [reflexivity|]. split; lra.
Qed.
Print Assumptions C121_first_gates_refuted.

(** The documented default of the calibration is -146.8. *)
Theorem C121_calibration_refuted : exists d d' z z' x x', copernicus_screen no_offsets no_offsets d = Ok d' /\
  lookup "Zh" d = Some (N2 z) /\ pixel z 0 1 = Some (Some x, false) /\ lookup "Zh" d' = Some (N2 z') /\ pixel z' 0 0 = Some (Some x', false) /\ ~ (x' == x - (1468 # 10))%Q.
Proof.
  exists copernicus_demo. do 5 eexists. split; [vm_compute; reflexivity|]. split; [reflexivity|]. split; [reflexivity|]. split; [reflexivity|]. split; [reflexivity|]. discriminate.
Qed.
Print Assumptions C121_calibration_refuted.

Example C121_nonvacuous : exists d' z, copernicus_screen {| o_applied := Some 1%Q; o_site := Some 0%Q |} no_offsets copernicus_demo = Ok d' /\
  lookup "Zh" d' = Some (N2 z) /\ pixel z 0 0 = Some (px 149) /\ covered z 1 0 /\ lookup "range" d' = Some (N1 [px 100]) /\
  kept_gates (fun q => 0 <= q - given 0 None + given (-720) None)%Q [px 60; px 820] [1].
Proof.
  do 2 eexists. split; [vm_compute; reflexivity|]. split; [reflexivity|]. split; [reflexivity|]. split; [eexists; reflexivity|]. split; [reflexivity|]. split; [repeat constructor|].
  intros j. split.
  - intros [<-|[]]. exists 820%Q, false. split; [reflexivity|]. discriminate.
  - intros (q & b & E & H). destruct j as [|[|j]]; cbn in E; unfold px in E; [|left; reflexivity|destruct j; discriminate]. assert (q = 60%Q) by congruence. subst q. cbn [given] in H. lra.
Qed.

(** ** C122: BASTA, dates *)

Theorem C122_background nt n file mask name key m : lookup "background_mask" file = Some (N2 mask) ->
  In (name, key) [("Zh", "reflectivity"); ("v", "velocity")] -> lookup key file = Some (N2 m) -> sized nt n mask -> sized nt n m ->
  exists d m', basta_data file = Ok d /\ lookup name d = Some (N2 m') /\ sized nt n m' /\
    forall i j x b, pixel m i j = Some (x, b) -> exists b', pixel m' i j = Some (x, b') /\ (b' = true <-> b = true \/ x = None \/ ~ signal mask i j).
Proof.
  intros M I. apply basta_image; [exact M|]. cbn [In] in I. destruct I as [I|[I|[]]].
  - assert (name = "Zh" /\ key = "reflectivity") as [-> ->] by (split; congruence). left. reflexivity.
  - assert (name = "v" /\ key = "velocity") as [-> ->] by (split; congruence). right. left. reflexivity.
Qed.
Print Assumptions C122_background.

Theorem C122_no_background file : lookup "background_mask" file = None -> basta_data file = Raise KeyError.
Proof. intros H. unfold basta_data. rewrite image_of_missing by exact H. reflexivity. Qed.
Print Assumptions C122_no_background.

Theorem C122_date units e :
  (validate_date units e = Ok tt <-> exists w, third_word units w /\ iso_date w (fst (fst e)) (snd (fst e)) (snd e)) /\
  (validate_date units e = Raise ValidTimeStampError <-> exists w y m d, third_word units w /\ iso_date w y m d /\ (y, m, d) <> e) /\
  (validate_date units e = Raise IndexError <-> forall w, ~ third_word units w) /\
  (validate_date units e = Raise ValueError <-> exists w, third_word units w /\ forall y m d, ~ iso_date w y m d).
Proof. apply validate_date_spec. Qed.
Print Assumptions C122_date.

Theorem C122_chilbolton now units ws d y m e date : words_of units ws -> (exists w, nth_error ws 2 = Some w /\ date_text w d) -> date_fields d [y; m; e] ->
  looks_like_date now y m e -> calendar_day y m e ->
  (chilbolton_check_date now units date = Ok tt <-> date = (y, m, e)) /\
  (chilbolton_check_date now units date = Raise ValidTimeStampError <-> date <> (y, m, e)).
Proof.
  intros W (w & N & D) F L C. unfold chilbolton_check_date. rewrite (proj1 (epoch_fields now units ws W w d N D y m e F) L C). cbn [bind].
  destruct (same_date (y, m, e) date) eqn:S.
  - apply same_date_iff in S. split; split; congruence.
  - assert (M : (y, m, e) <> date) by (intros H; apply same_date_iff in H; congruence). split; split; congruence.
Qed.
Print Assumptions C122_chilbolton.

Example C122_nonvacuous :
  (exists d, basta_data [("reflectivity", N2 [[px 1; px 2; px 3]]); ("background_mask", N2 [[px 1; px 0; (None, true)]])] = Ok d /\
     lookup "Zh" d = Some (N2 [[px 1; (Some 2%Q, true); (Some 3%Q, true)]])) /\
  validate_date "seconds since 2024-02-29 00:00:00" (2024, 2, 29)%Z = Ok tt /\
  validate_date "seconds since 2024-02-29 00:00:00" (2024, 2, 28)%Z = Raise ValidTimeStampError /\
  validate_date "seconds since 2023-02-29 00:00:00" (2024, 2, 28)%Z = Raise ValueError /\
  validate_date "seconds" (2024, 2, 28)%Z = Raise IndexError /\
  chilbolton_check_date 2026 "hours since 2022-12-11 00:00:00" (2022, 12, 11)%Z = Ok tt.
Proof. split; [eexists; split; vm_compute; reflexivity|]. repeat split; vm_compute; reflexivity. Qed.

(** ** C123: BOW-TIE *)

Theorem C123_units d :
  (forall d', convert_units d = Ok d' ->
     (forall name c v, bowtie_factor name c -> lookup name d = Some v -> exists v', lookup name d' = Some v' /\ times c v v') /\
     (forall name, (forall c, ~ bowtie_factor name c) -> lookup name d' = lookup name d)) /\
  (convert_units d = Raise KeyError <-> lookup "lwp" d = None \/ lookup "rainfall_rate" d = None \/ lookup "relative_humidity" d = None) /\
  (forall e, convert_units d = Raise e -> e = KeyError).
Proof. apply convert_units_spec. Qed.
Print Assumptions C123_units.

Theorem C123_bits d v : lookup "v" d = Some (N2 v) ->
  exists d' bits, add_correction_bits d = Ok d' /\ lookup "correction_bits" d' = Some (N2 bits) /\
    (forall k, k <> "correction_bits" -> lookup k d' = lookup k d) /\
    forall i j, pixel bits i j = option_map (fun x : cell => (Some 1%Q, snd x)) (pixel v i j).
Proof. apply correction_bits_spec. Qed.
Print Assumptions C123_bits.

Example C123_nonvacuous :
  (exists d, convert_units [("lwp", N1 [px 200; (Some 7%Q, true)]); ("rainfall_rate", N1 [px 36]); ("relative_humidity", N1 [px 50]); ("v", N2 [[px 1; (None, true)]])] = Ok d /\
     lookup "lwp" d = Some (N1 [(Some (200 # 1000)%Q, false); (Some 7%Q, true)]) /\
     exists d', add_correction_bits d = Ok d' /\ lookup "correction_bits" d' = Some (N2 [[px 1; (Some 1%Q, true)]])) /\
  convert_units [("lwp", N1 [px 200])] = Raise KeyError /\ bowtie_factor "lwp" (1 # 1000).
Proof.
  split; [|split; [reflexivity|left; split; reflexivity]]. eexists. split; [vm_compute; reflexivity|]. split; [reflexivity|]. eexists. split; [vm_compute; reflexivity|]. reflexivity.
Qed.

(** ** C124: MIRA, types of files and variables *)

Theorem C124_types files :
  (keymap_of_files files = Ok znc_keymap <-> files <> [] /\ Forall (file_type "znc") files) /\
  (keymap_of_files files = Ok mmclx_keymap <-> files <> [] /\ Forall (file_type "mmclx") files) /\
  (keymap_of_files files = Raise OSError <-> files = []) /\
  (keymap_of_files files = Raise TypeError <-> mixed_types files) /\
  (keymap_of_files files = Raise ValueError <-> ~ mixed_types files /\ exists f, In f files /\ ~ file_type "znc" f /\ ~ file_type "mmclx" f) /\
  (forall km, keymap_of_files files = Ok km -> km = znc_keymap \/ km = mmclx_keymap).
Proof. apply keymap_spec. Qed.
Print Assumptions C124_types.

(** In znc files the variables with the suffix h2l are preferred, in mmclx files Zg is
    preferred to Ze. *)
Theorem C124_variables files file km : keymap_of_files files = Ok km ->
  (Forall (file_type "znc") files -> forall name first second, In (name, first, second) znc_choice -> choice file (init_data file km []) name first second) /\
  (Forall (file_type "mmclx") files -> choice file (init_data file km []) "Zh" "Zg" "Ze").
Proof.
  intros E. assert (N : files <> []) by (intros ->; discriminate). split; intros F.
  - assert (km = znc_keymap) as -> by (pose proof (proj2 (proj1 (keymap_spec files)) (conj N F)); congruence). apply znc_choices.
  - assert (km = mmclx_keymap) as -> by (pose proof (proj2 (proj1 (proj2 (keymap_spec files))) (conj N F)); congruence). apply mmclx_choices.
Qed.
Print Assumptions C124_variables.

Example C124_nonvacuous :
  keymap_of_files ["20200101_0000.znc"; "x/20200101.ZNC.00"] = Ok znc_keymap /\ keymap_of_files ["a.mmclx"; "b.znc"] = Raise TypeError /\
  keymap_of_files ["a.b.nc"; "c.NC"] = Raise ValueError /\ keymap_of_files ["noextension"] = Raise ValueError /\
  lookup "Zh" (init_data [("Zg", N1 [px 1]); ("Zh2l", N1 [px 2])] znc_keymap []) = Some (N1 [px 2]) /\
  lookup "Zh" (init_data [("Zg", N1 [px 1])] znc_keymap []) = Some (N1 [px 1]).
Proof. repeat split; vm_compute; reflexivity. Qed.

(** ** C125: MIRA, screening *)

Theorem C125_screening nt n db p limit d z v l snr : (limit <= 10)%Q -> radar_data nt n d ->
  lookup "Zh" d = Some (N2 z) -> lookup "v" d = Some (N2 v) -> lookup "ldr" d = Some (N2 l) -> lookup "SNR" d = Some (N2 snr) ->
  exists d', mira_screen db (Some p) limit d = Ok d' /\
    (p = "0" <-> lookup "ldr" d' = None) /\
    forall k m, k <> "ldr" -> lookup k d = Some (N2 m) -> exists m', lookup k d' = Some (N2 m') /\ sized nt n m' /\
      forall i j x b, pixel m i j = Some (x, b) -> exists x' b', pixel m' i j = Some (x', b') /\
        (b' = true <-> b = true \/ (linear_unit k /\ undefined db x) \/ mira_bad limit db snr z v i j) /\
        (b' = false -> (linear_unit k -> forall q, x = Some q -> x' = db q) /\ (~ linear_unit k -> x' = x)).
Proof. apply mira_spec. Qed.
Print Assumptions C125_screening.

Theorem C125_ldr d pol :
  (lookup "ldr" d = None -> screen_ldr pol d = Ok d) /\
  (lookup "ldr" d <> None -> pol = None -> screen_ldr pol d = Raise KeyError) /\
  (lookup "ldr" d <> None -> pol = Some "0" -> exists d', screen_ldr pol d = Ok d' /\ lookup "ldr" d' = None /\ forall k, k <> "ldr" -> lookup k d' = lookup k d) /\
  (forall p m, lookup "ldr" d = Some (N2 m) -> pol = Some p -> p <> "0" ->
   exists d' m', screen_ldr pol d = Ok d' /\ lookup "ldr" d' = Some (N2 m') /\ (forall k, k <> "ldr" -> lookup k d' = lookup k d) /\
     forall i j x b, pixel m i j = Some (x, b) -> exists b', pixel m' i j = Some (x, b') /\ (b' = true <-> b = true \/ exists q, image_mean m q /\ (0 < q)%Q)).
Proof. apply screen_ldr_spec. Qed.
Print Assumptions C125_ldr.

Theorem C125_limit site mira10 :
  (forall l, site = Some l -> mira_snr_limit site mira10 = l) /\ (site = None -> mira10 = true -> mira_snr_limit site mira10 = (-30)%Q) /\
  (site = None -> mira10 = false -> mira_snr_limit site mira10 = (-17)%Q) /\ ((forall l, site = Some l -> (l <= 10)%Q) -> (mira_snr_limit site mira10 <= 10)%Q).
Proof.
  unfold mira_snr_limit. split; [intros l ->; reflexivity|]. split; [intros -> ->; reflexivity|]. split; [intros -> ->; reflexivity|].
  intros H. destruct site as [l|]; [apply H; reflexivity|]. destruct mira10; discriminate.
Qed.
Print Assumptions C125_limit.

(** The screening of the depolarisation ratio accepts files without it, but no such file
    gets there. *)
Theorem C125_no_ldr_refuted : exists d, (forall pol, screen_ldr pol d = Ok d) /\ (forall db pol limit, mira_screen db pol limit d = Raise KeyError).
Proof. exists [("Zh", N2 [[px 1]]); ("v", N2 [[px 1]]); ("SNR", N2 [[px 1]])]. split; [reflexivity|]. intros db pol limit. eapply mira_no_ldr; reflexivity. Qed.
Print Assumptions C125_no_ldr_refuted.

Definition demo_db (q : Q) : option Q := if Qle_bool q 0 then None else Some (q - 20)%Q.
Example C125_nonvacuous :
  (exists d', mira_screen demo_db (Some "1") (-17) [("Zh", N2 [[px 30; px 25; px 0]]); ("v", N2 [[px 1; px 2; px 3]]); ("ldr", N2 [[px 10; px 10; px 10]]); ("SNR", N2 [[px 9; px 1; px 9]])] = Ok d' /\
     lookup "v" d' = Some (N2 [[px 1; (Some 2%Q, true); (Some 3%Q, true)]]) /\ exists z q, lookup "Zh" d' = Some (N2 z) /\ pixel z 0 0 = Some (Some q, false) /\ (q == 10)%Q) /\
  (exists d', screen_ldr (Some "1") [("ldr", N2 [[px 10; px (-5)]])] = Ok d' /\ lookup "ldr" d' = Some (N2 [[(Some 10%Q, true); (Some (-5)%Q, true)]])) /\
  (exists d', screen_ldr (Some "0") [("ldr", N2 [[px 10; px (-5)]])] = Ok d' /\ lookup "ldr" d' = None).
Proof.
  split; [|split].
  - eexists. split; [vm_compute; reflexivity|]. split; [reflexivity|]. do 2 eexists. split; [reflexivity|]. split; [reflexivity|]. reflexivity.
  - eexists. split; vm_compute; reflexivity.
  - eexists. split; vm_compute; reflexivity.
Qed.
