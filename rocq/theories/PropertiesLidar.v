(** Properties of lidars and ceilometers. *)
From Verif Require Import Base ArrayModel ArrayProofs TimeModel GridModel GridProofs DropletModel DropletSpec DropletProofs FreezeProofs
  OutputModel OutputProofs TelegramModel TelegramSpec TelegramProofs SiteModel SiteSpec SiteProofs MeltModel MeltSpec MeltImageProofs
  NwpModel NwpSpec NwpProofs NcRadarModel NcRadarSpec NcRadarProofs LidarModel LidarSpec LidarProofs.
From Coq Require Import String Ascii Lqa.
Open Scope string_scope.
Open Scope nat_scope.
Open Scope list_scope.
Local Notation length := List.length (only parsing).

(** ** C126: text files of ceilometers *)
(** The file gives one profile per time on the day of the file: the first one of that
    time, in ascending order of time, with the calibrated backscatter. *)
Theorem C126_profiles : forall expected factor data n c h,
  gates data n -> read_vaisala expected factor data = Ok (c, h) ->
  exists kept f m, kept <> [] /\ NoDup kept /\ (forall i, In i kept <-> wanted data (c_date c) i) /\
    file_day expected data (c_date c) /\ applied_factor factor f /\ c_factor c = f /\
    holds_profiles data (c_date c) f kept h (c_beta c) /\ increasing h /\
    is_median (map (fun d : Z * shot => p_tilt (snd d)) data) m /\ c_zenith c = m.
Proof.
  intros expected factor data n c h G H. destruct data as [|d0 r] eqn:D; [discriminate|]. rewrite <- D in *.
  assert (N : data <> []) by congruence.
  destruct (read_spec expected factor data n N G) as (d & t0 & p0 & rest & m & E & FD & M & [(_ & R)|(c' & h' & kept & R & K & W & ND & HP & I & F & Z & DD & _)]); [congruence|].
  assert (c' = c) by congruence. assert (h' = h) by congruence. subst c' h'. destruct (factor_spec factor) as (f & Ef & AF).
  exists kept, f, m. rewrite DD. rewrite Ef in AF |- *. auto 15.
Qed.
(** The range holds the centres of the gates, if the number of gates is neither the
    number of profiles nor the number of different times. *)
Theorem C126_range : forall expected factor t0 p0 rest n c h,
  let data := (t0, p0) :: rest in
  gates data n -> n <> length data -> ~ different_times data n -> read_vaisala expected factor data = Ok (c, h) ->
  gate_centres n (p_res p0) (c_range c).
Proof.
  intros expected factor t0 p0 rest n c h data G NL ND H. assert (N : data <> []) by discriminate.
  destruct (read_spec expected factor data n N G) as (d & t0' & p0' & rest' & m & E & FD & M & [(_ & R)|(c' & h' & kept & R & K & W & NDu & HP & I & F & Z & DD & GC)]); [congruence|].
  assert (c' = c) by congruence. subst c'. assert (p0' = p0) by (unfold data in E; congruence). subst p0'. apply GC; assumption.
Qed.
(** It fails exactly if there are no profiles, or none on the day, or if they have
    different numbers of gates. *)
Theorem C126_errors : forall expected factor data e,
  read_vaisala expected factor data = Raise e <->
  e = ValidTimeStampError /\ data = [] \/
  e = ValueError /\ data <> [] /\ (forall n, ~ gates data n) \/
  e = ValidTimeStampError /\ data <> [] /\ (exists n, gates data n) /\
    (exists day, expected = Some day /\ forall t, In t (map fst data) -> ~ on_day t day).
Proof.
  intros expected factor data e. destruct data as [|[t0 p0] rest].
  { cbn [read_vaisala]. split; [intros H; left; split; [congruence|reflexivity]|]. intros [(-> & _)|[(_ & H & _)|(_ & H & _)]]; [reflexivity|congruence|congruence]. }
  set (data := (t0, p0) :: rest). assert (N : data <> []) by discriminate.
  assert (DEC : (exists n, gates data n) \/ (forall n, ~ gates data n) /\ read_vaisala expected factor data = Raise ValueError).
  { destruct (forallb (fun x : list Q => length x =? length (p_beta p0)) (map (fun d : Z * shot => p_beta (snd d)) rest)) eqn:F.
    - left. exists (length (p_beta p0)). intros t p [I|I]; [congruence|]. rewrite forallb_forall in F. apply Nat.eqb_eq, F. apply in_map_iff. exists (t, p). split; [reflexivity|exact I].
    - right. split; [|unfold read_vaisala, data; cbn [map snd stack]; rewrite F; reflexivity]. intros n G.
      assert (forallb (fun x : list Q => length x =? length (p_beta p0)) (map (fun d : Z * shot => p_beta (snd d)) rest) = true); [|congruence].
      apply forallb_forall. intros x X. apply in_map_iff in X as ([t p] & <- & X). apply Nat.eqb_eq. cbn [snd]. rewrite (G t p (or_intror X)), (G t0 p0 (or_introl eq_refl)). reflexivity. }
  destruct DEC as [(n & G)|(NG & R)].
  - destruct (read_spec expected factor data n N G) as (d & t0' & p0' & rest' & m & E & FD & M & C).
    assert (ND : (exists t, In t (map fst data) /\ on_day t d) \/ exists day, expected = Some day /\ d = day).
    { unfold file_day in FD. destruct expected as [x|]; [right; eauto|]. left. destruct FD as (t & I & O & _). eauto. }
    destruct C as [(NO & R)|(c & h & kept & R & K & W & _)]; rewrite R.
    + split.
      * intros H. right. right. split; [congruence|]. split; [exact N|]. split; [eauto|]. destruct ND as [X|(day & Ed & ->)]; [contradiction|].
        exists day. split; [exact Ed|]. intros t I O. apply NO. eauto.
      * intros [(-> & H)|[(_ & _ & H)|(-> & _)]]; [congruence|destruct (H n G)|reflexivity].
    + split; [discriminate|]. intros [(_ & H)|[(_ & _ & H)|(_ & _ & _ & day & Ed & H)]]; [congruence|destruct (H n G)|]. exfalso.
      destruct kept as [|i kept]; [congruence|]. destruct (proj1 (W i) (or_introl eq_refl)) as (t & p & En & O & _). apply (H t).
      * apply in_map_iff. exists (t, p). split; [reflexivity|exact (nth_error_In _ _ En)].
      * unfold file_day in FD. rewrite Ed in FD. congruence.
  - rewrite R. split.
    + intros H. right. left. split; [congruence|]. split; [exact N|exact NG].
    + intros [(_ & H)|[(-> & _)|(_ & _ & (n & G) & _)]]; [congruence|reflexivity|destruct (NG n G)].
Qed.
(** A CL31 is told from a CL51 by the number of gates. *)
Theorem C126_instrument : forall expected factor data n c h,
  gates data n -> read_vaisala expected factor data = Ok (c, h) ->
  (cl_model (c_beta c) = "CL31" /\ (Z.of_nat n < 1540)%Z \/ cl_model (c_beta c) = "CL51" /\ (1540 <= Z.of_nat n)%Z) /\
  (check_shape (c_beta c) = Raise ValidTimeStampError /\ (length h = 1 \/ n = 1) \/ check_shape (c_beta c) = Ok tt /\ length h <> 1 /\ n <> 1).
Proof.
  intros expected factor data n c h G H. destruct (C126_profiles _ _ _ _ _ _ G H) as (kept & f & m & K & _ & _ & _ & _ & _ & (L1 & L2 & HP) & _).
  destruct kept as [|k kept]; [congruence|]. destruct (HP 0 k eq_refl) as (t & p & x & row & Ed & Eh & Eb & _ & S).
  destruct (c_beta c) as [|row' rest]; [discriminate|]. cbn in Eb. assert (row' = row) by congruence. subst row'.
  assert (LR : length row = n).
  { transitivity (length (p_beta p)); [|apply (G t p), (nth_error_In _ _ Ed)]. clear -S. induction S; cbn; congruence. }
  cbn [cl_model check_shape]. rewrite LR. split.
  - destruct (Z.ltb_spec (Z.of_nat n) 1540); [left|right]; split; auto.
  - cbn in L1, L2. assert (length rest = length kept) by lia. rewrite L1. destruct (Nat.eqb_spec (length rest) 0); destruct (Nat.eqb_spec n 1); cbn [orb]; [left|left|left|right]; split; auto; lia.
Qed.
(** The range does not always hold the centres of the gates: with as many gates as
    profiles it is sorted and cut like the times. *)
Definition shots2 : list (Z * shot) :=
  [(7200000000%Z, {| p_beta := [1%Q; 2%Q]; p_tilt := 1%Q; p_res := 10%Q |});
   (3600000000%Z, {| p_beta := [3%Q; 4%Q]; p_tilt := 3%Q; p_res := 10%Q |})].
Theorem C126_range_refuted : exists expected factor t0 p0 rest n c h,
  let data := (t0, p0) :: rest in
  gates data n /\ read_vaisala expected factor data = Ok (c, h) /\ length (c_beta c) = 2 /\ ~ gate_centres n (p_res p0) (c_range c) /\ ~ increasing (c_range c).
Proof.
  exists None, None, 7200000000%Z, {| p_beta := [1%Q; 2%Q]; p_tilt := 1%Q; p_res := 10%Q |}, (tl shots2), 2. cbv zeta. do 2 eexists. split.
  - intros t p [H|[H|[]]]; assert (p_beta p = [1%Q; 2%Q] \/ p_beta p = [3%Q; 4%Q]) as [-> | ->] by (cbn in H; injection H as _ <-; auto); reflexivity.
  - split; [vm_compute; reflexivity|]. split; [reflexivity|]. split.
    + intros (_ & H). specialize (H 0 _ eq_refl). vm_compute in H. discriminate H.
    + intros H. specialize (H 0 _ _ eq_refl eq_refl). vm_compute in H. discriminate H.
Qed.
(** A factor of zero is not applied. *)
Theorem C126_zero_factor_refuted : exists expected factor data c h,
  read_vaisala expected factor data = Ok (c, h) /\ factor = Some 0%Q /\ ~ (c_factor c == 0)%Q /\ c_beta c <> [[0%Q; 0%Q]; [0%Q; 0%Q]].
Proof. exists None, (Some 0%Q), shots2. do 2 eexists. split; [vm_compute; reflexivity|]. split; [reflexivity|]. split; [intros H; discriminate H|discriminate]. Qed.
(** Three profiles, the second repeated and the last on the next day. *)
Definition shots4 : list (Z * shot) :=
  let p b := {| p_beta := b; p_tilt := 1%Q; p_res := 10%Q |} in
  [(7200000000%Z, p [1%Q; 2%Q]); (3600000000%Z, p [3%Q; 4%Q]); (7200000000%Z, p [5%Q; 6%Q]); (90000000000%Z, p [7%Q; 8%Q])].
Example C126_nonvacuous : gates shots4 2 /\ 2 <> length shots4 /\ ~ different_times shots4 2 /\
  exists c h, read_vaisala None (Some 2%Q) shots4 = Ok (c, h) /\ Forall2 Qeq h [1%Q; 2%Q] /\ Forall2 (Forall2 Qeq) (c_beta c) [[6%Q; 8%Q]; [2%Q; 4%Q]] /\ c_date c = 0%Z.
Proof.
  split; [intros t p H; repeat (destruct H as [H|H]; [injection H as _ <-; reflexivity|]); destruct H|]. split; [discriminate|]. split.
  - intros (l & ND & I & L). assert (X : incl [3600000000; 7200000000; 90000000000]%Z l) by (intros t H; apply I; cbn in *; tauto).
    apply NoDup_incl_length in X; [cbn in X; lia|]. repeat constructor; cbn; lia.
  - do 2 eexists. split; [vm_compute; reflexivity|]. split; [repeat constructor; reflexivity|]. split; [repeat constructor; reflexivity|reflexivity].
Qed.
Print Assumptions C126_profiles. Print Assumptions C126_range. Print Assumptions C126_errors. Print Assumptions C126_instrument.
Print Assumptions C126_range_refuted. Print Assumptions C126_zero_factor_refuted.

(** ** C127: the choice of the reader *)
(** Text: the last announcement among the first hundred lines decides. *)
Theorem C127_text : forall path lines,
  (forall r, initialize None path (Lines lines) = Ok r <-> exists i, announces lines i r /\ forall j r', i < j -> ~ announces lines j r') /\
  (forall e, initialize None path (Lines lines) = Raise e <-> e = RuntimeError /\ forall i r, ~ announces lines i r).
Proof.
  intros path lines. destruct (text_reader path lines) as [(i & r & A & LA & E)|(NO & E)]; rewrite E; split.
  - intros r'. split; [intros H; exists i; assert (r' = r) by congruence; subst; split; assumption|]. intros (j & A' & LA').
    destruct (Nat.lt_trichotomy i j) as [L|[<-|L]]; [destruct (LA _ _ L A')| |destruct (LA' _ _ L A)].
    apply announces_iff in A as (l & El & H). apply announces_iff in A' as (l' & El' & H'). assert (l' = l) by congruence. subst l'. f_equal. exact (header_unique _ _ _ H H').
  - intros e. split; [discriminate|]. intros (_ & H). destruct (H _ _ A).
  - intros r. split; [discriminate|]. intros (i & A & _). destruct (NO _ _ A).
  - intros e. split; [intros H; split; [congruence|exact NO]|]. intros (-> & _). reflexivity.
Qed.
(** netCDF: by the title or the name of the file; a title is needed. *)
Theorem C127_netcdf : forall path name title, file_of path name ->
  (initialize None path (NetCDF (Some title)) = Ok Cl61Reader <->
     occurs_any_case "cl61d" title \/ occurs_any_case "cl61-d" title \/ occurs_any_case "cl61d" name \/ occurs_any_case "cl61-d" name) /\
  (initialize None path (NetCDF (Some title)) = Ok LufftReader <->
     ~ (occurs_any_case "cl61d" title \/ occurs_any_case "cl61-d" title \/ occurs_any_case "cl61d" name \/ occurs_any_case "cl61-d" name)) /\
  initialize None path (NetCDF None) = Raise AttributeError.
Proof.
  intros path name title F. pose proof (file_of_unique path _ _ F (file_of_basename path)) as ->.
  assert (L1 : all_lower "cl61d") by (unfold all_lower, lower_case; repeat split; cbn; lia). assert (L2 : all_lower "cl61-d") by (unfold all_lower, lower_case; repeat split; cbn; lia).
  rewrite <- !(contains_lower "cl61d" _ L1), <- !(contains_lower "cl61-d" _ L2).
  unfold initialize, find_model. cbn [existsb].
  destruct (contains "cl61d" (lower title)), (contains "cl61-d" (lower title)), (contains "cl61d" (lower (basename path))), (contains "cl61-d" (lower (basename path)));
    cbn; (split; [|split; [|reflexivity]]); split; intros H; try reflexivity; try discriminate; try (exfalso; apply H; auto); auto;
    try (destruct H as [H|[H|[H|H]]]; discriminate); try (intros [X|[X|[X|X]]]; discriminate).
Qed.
(** The site names the instrument. *)
Theorem C127_site : forall m path f,
  (forall r, initialize (Some m) path f = Ok r <-> In (m, r) named) /\
  (forall e, initialize (Some m) path f = Raise e <-> e = ValueError /\ forall r, ~ In (m, r) named).
Proof.
  intros m path f. unfold initialize. destruct (mem_str m _) eqn:M; cbn [bind].
  - apply mem_str_iff in M. split.
    + intros r. destruct M as [<-|[<-|[<-|[<-|[<-|[<-|[<-|[]]]]]]]]; cbn; (split; [intros H; injection H as <-; auto 10|]);
        intros H; repeat (destruct H as [H|H]; [try discriminate H; injection H as <-; reflexivity|]); destruct H.
    + intros e. split; [discriminate|]. intros (_ & H). exfalso. destruct M as [<-|[<-|[<-|[<-|[<-|[<-|[<-|[]]]]]]]];
        [apply (H ClReader)|apply (H ClReader)|apply (H Cl61Reader)|apply (H CtReader)|apply (H LufftReader)|apply (H CsReader)|apply (H Da10Reader)]; cbn; auto 10.
  - assert (NI : forall r, ~ In (m, r) named).
    { intros r H. assert (mem_str m ["cl31"; "cl51"; "cl61d"; "ct25k"; "chm15k"; "cs135"; "da10"] = true); [|congruence]. apply mem_str_iff.
      repeat (destruct H as [H|H]; [injection H as <- _; cbn; auto 10|]). destruct H. }
    split; [intros r; split; [discriminate|intros H; destruct (NI _ H)]|]. intros e. split; [intros H; split; [congruence|exact NI]|]. intros (-> & _). reflexivity.
Qed.
(** Not every documented instrument is recognised: messages of a CS135 announce no
    instrument, and files of a DA10 are read as if they came from Lufft. *)
Theorem C127_documented_refuted :
  (exists path lines rest, In (String "001" ("CS" ++ rest)) lines /\ initialize None path (Lines lines) = Raise RuntimeError) /\
  (exists path title, occurs "DA10" title /\ initialize None path (NetCDF (Some title)) = Ok LufftReader).
Proof.
  split.
  - exists "cs.dat", [String "001" "CS0102006"], "0102006". split; [left; reflexivity|reflexivity].
  - exists "da.nc", "Vaisala DA10". split; [exists "Vaisala ", ""; reflexivity|reflexivity].
Qed.
Example C127_nonvacuous : announces ["2024-01-01"; String "001" "CL020221"] 1 ClReader /\
  initialize None "a/b.dat" (Lines ["2024-01-01"; String "001" "CL020221"]) = Ok ClReader /\
  initialize None "a/x_CL61D_1.nc" (NetCDF (Some "")) = Ok Cl61Reader /\ initialize None "cl61d/x.nc" (NetCDF (Some "CHM")) = Ok LufftReader.
Proof. split; [split; [lia|]; exists "020221"; left; split; reflexivity|]. repeat split; reflexivity. Qed.
Print Assumptions C127_text. Print Assumptions C127_netcdf. Print Assumptions C127_site. Print Assumptions C127_documented_refuted.

(** ** C128: netCDF files of lidars *)
(** The range is moved from the limits of the gates to their middle. *)
Theorem C128_range : forall edges upper,
  (length edges < 2 /\ edges2mid edges upper = Raise IndexError) \/
  exists mid, edges2mid edges upper = Ok mid /\ (if upper then middle_of_upper edges mid else middle_of_lower edges mid) /\
    (increasing edges -> increasing mid).
Proof.
  intros edges upper. destruct (Nat.lt_ge_cases (length edges) 2) as [L|L]; [left; split; [exact L|apply edges_short, L]|right].
  destruct upper.
  - destruct (edges_upper edges L) as (mid & E & M). exists mid. split; [exact E|]. split; [exact M|]. apply upper_increasing; assumption.
  - destruct (edges_lower edges L) as (mid & E & M). exists mid. split; [exact E|]. split; [exact M|]. apply lower_increasing; assumption.
Qed.
(** The zenith angle is the median of the angles of the file, or the default without
    such a variable. *)
Theorem C128_zenith : forall default,
  zenith_angle None default = default /\
  forall angles v, known angles v -> v <> [] -> is_median v (zenith_angle (Some angles) default).
Proof.
  intros default. split; [reflexivity|]. intros angles v K NE. apply known_eq in K. subst v. unfold zenith_angle.
  pose proof (median_iff (unmasked angles)) as M. destruct (median (unmasked angles)); [exact M|contradiction].
Qed.
(** With only masked angles the default is not used: the zenith angle is 0. *)
Theorem C128_zenith_refuted : exists angles default, known angles [] /\ (default == 3)%Q /\ ~ (zenith_angle (Some angles) default == default)%Q.
Proof. exists [None; None], 3%Q. split; [reflexivity|]. split; [reflexivity|]. intros H. discriminate H. Qed.
(** The software of a Lufft instrument is old if its version is an integer, or if the
    firmware, the third word, is before 0.702. *)
Theorem C128_version :
  (forall v, old_version (VInteger v) = Ok true) /\
  (forall s w z, third_word s w -> firmware_number w z -> (old_version (VText s) = Ok true <-> (z < 702)%Z) /\ (old_version (VText s) = Ok false <-> (702 <= z)%Z)) /\
  (forall s, (exists b, old_version (VText s) = Ok b) <-> exists w, third_word s w) /\
  (forall v e, old_version v = Raise e <-> v = VMissing /\ e = AttributeError \/ v = VOther /\ e = RuntimeError \/
     exists s, v = VText s /\ e = IndexError /\ forall w, ~ third_word s w).
Proof.
  split; [reflexivity|]. split.
  { intros s w z T F. apply words_third in T. cbn [old_version]. rewrite T. pose proof (firmware_old w z F) as O. destruct (String.ltb w "0.702"); split; split; intros H; try reflexivity; try discriminate.
    all: destruct (Z.lt_ge_cases z 702) as [L|L]; try lia; try (apply O in L; discriminate); exfalso; pose proof (proj1 O eq_refl); lia. }
  assert (W : forall s, (exists w, nth_error (words s) 2 = Some w /\ third_word s w) \/ nth_error (words s) 2 = None /\ forall w, ~ third_word s w).
  { intros s. destruct (nth_error (words s) 2) as [w|] eqn:E; [left; exists w; split; [reflexivity|apply words_third, E]|right]. split; [reflexivity|]. intros w T. apply words_third in T. congruence. }
  split.
  - intros s. cbn [old_version]. destruct (W s) as [(w & -> & T)|(-> & N)]; split; [eauto|eauto|intros (b & H); discriminate|intros (w & T); destruct (N w T)].
  - intros v e. destruct v as [|z|s|]; cbn [old_version].
    + split; [intros H; left; split; congruence|]. intros [(_ & ->)|[(H & _)|(s & H & _)]]; [reflexivity|discriminate|discriminate].
    + split; [discriminate|]. intros [(H & _)|[(H & _)|(s & H & _)]]; discriminate.
    + destruct (W s) as [(w & -> & T)|(-> & N)].
      * split; [discriminate|]. intros [(H & _)|[(H & _)|(s' & H & _ & H')]]; [discriminate|discriminate|]. assert (s' = s) by congruence. subst s'. destruct (H' w T).
      * split; [intros H; right; right; exists s; split; [reflexivity|]; split; [congruence|exact N]|]. intros [(H & _)|[(H & _)|(s' & _ & -> & _)]]; [discriminate|discriminate|reflexivity].
    + split; [intros H; right; left; split; congruence|]. intros [(H & _)|[(_ & ->)|(s & H & _)]]; [discriminate|reflexivity|discriminate].
Qed.
(** With new software the backscatter is multiplied by the factor, by default 3e-12. *)
Theorem C128_lufft_new : forall power factor range f beta,
  old_version (l_version f) = Ok false -> variable_of (l_images f) "beta_raw" "beta_att" beta ->
  exists out, lufft_beta power factor range f = Ok (out, given (3 # 1000000000000) factor, false) /\ same_shape beta out /\
    forall i j, pixel_times (pixel beta i j) (pixel out i j) (given (3 # 1000000000000) factor).
Proof.
  intros power factor range f beta O V. unfold lufft_beta. rewrite (proj2 (getvar_two _ _ _ _) V). cbn [bind]. rewrite O. cbn [bind].
  eexists. split; [reflexivity|]. split; [apply same_shape_map|]. intros i j. rewrite pixel_map. destruct (pixel beta i j) as [[q|]|]; cbn; [|exact I|exact I].
  destruct factor; reflexivity.
Qed.
(** With old software it is also multiplied by the standard deviation over the gain and
    by the square of the range. *)
Theorem C128_lufft_old : forall power factor range f out c,
  old_version (l_version f) = Ok true -> lufft_beta power factor range f = Ok (out, c, true) ->
  exists beta std nn1, variable_of (l_images f) "beta_raw" "beta_att" beta /\ lookup "stddev" (l_vectors f) = Some std /\
    variable_of (l_vectors f) "nn1" "NN1" nn1 /\ c = given (3 # 1000000000000) factor /\
    same_shape beta out /\ length std = length beta /\ 1 < length beta /\ (forall row, In row beta -> length row = length range) /\
    forall i j b s r, pixel beta i j = Some b -> nth_error std i = Some s -> nth_error range j = Some r ->
      exists g o, gain power nn1 (nth i nn1 None) g /\ pixel out i j = Some o /\ old_pixel b s g r c o.
Proof.
  intros power factor range f out c O H. unfold lufft_beta in H.
  destruct (getvar ["beta_raw"; "beta_att"] (l_images f)) as [beta|] eqn:EB; [|discriminate]. cbn [bind] in H. rewrite O in H. cbn [bind] in H.
  destruct (getvar ["stddev"] (l_vectors f)) as [std|] eqn:ES; [|discriminate]. cbn [bind] in H.
  destruct (getvar ["nn1"; "NN1"] (l_vectors f)) as [nn1|] eqn:EN; [|discriminate]. cbn [bind] in H.
  destruct (std_column std (get_nn power nn1)) as [col|] eqn:EC; [|discriminate]. cbn [bind] in H.
  destruct (times_column beta col) as [b1|] eqn:E1; [|discriminate]. cbn [bind] in H.
  destruct (times_row b1 (map (fun x => (x * x)%Q) range)) as [b2|] eqn:E2; [|discriminate]. cbn [bind] in H.
  assert (c = given (3 # 1000000000000) factor) as EQc by (unfold given; destruct factor; congruence).
  assert (out = map (map (option_map (fun x => (x * c)%Q))) b2) as EQo by (destruct factor; injection H as <- <-; reflexivity).
  exists beta, std, nn1. split; [apply getvar_two, EB|]. split; [apply getvar_one, ES|]. split; [apply getvar_two, EN|]. split; [exact EQc|].
  destruct (std_column_spec _ _ _ _ EC) as (L1 & LC & HC). destruct (times_column_nth _ _ _ E1) as (LB & SH1 & P1). destruct (times_row_nth _ _ _ E2) as (LR & SH2 & P2).
  split; [rewrite EQo; eapply same_shape_trans; [exact SH1|]; eapply same_shape_trans; [exact SH2|apply same_shape_map]|].
  split; [congruence|]. split; [congruence|]. split.
  { intros row I. apply In_nth_error in I as (i & I). assert (X : exists row1, nth_error b1 i = Some row1 /\ length row1 = length row).
    { clear -SH1 I. revert i I. unfold same_shape in SH1. induction SH1 as [|a b l l' E SH IH]; intros [|i] I; cbn in *; try discriminate; [exists b; split; congruence|apply IH; exact I]. }
    destruct X as (row1 & I1 & <-). rewrite (LR row1 (nth_error_In _ _ I1)). apply map_length. }
  intros i j b s r B S R. destruct (HC i s S) as (g & o & G & Eo & HO).
  pose proof (P1 _ _ _ _ Eo B) as X1. assert (R' : nth_error (map (fun x => (x * x)%Q) range) j = Some (r * r)%Q) by (rewrite nth_error_map', R; reflexivity).
  pose proof (P2 _ _ _ _ R' X1) as X2. exists g. eexists. split; [exact G|]. split; [rewrite EQo, pixel_map, X2; reflexivity|]. clear -HO.
  destruct b as [b|], s as [s|], g as [g|]; cbn [old_pixel]; subst; try reflexivity.
  destruct HO as [(Z & ->)|(Z & q & -> & E)]; [left; split; [exact Z|reflexivity]|right; split; [exact Z|]]. cbn [mmul option_map]. eexists. split; [reflexivity|]. rewrite <- E. ring.
Qed.
(** CL61 and DA10: the backscatter is multiplied by the factor, by default one; without
    any value the file is refused. *)
Theorem C128_vaisala : forall factor beta,
  vaisala_beta factor None = Raise KeyError /\
  ((forall i j, pixel beta i j = None \/ pixel beta i j = Some None) /\ vaisala_beta factor (Some beta) = Raise LidarDataError \/
   (exists i j q, pixel beta i j = Some (Some q)) /\
   exists out, vaisala_beta factor (Some beta) = Ok (out, given 1 factor) /\ same_shape beta out /\
     forall i j, pixel_times (pixel beta i j) (pixel out i j) (given 1 factor)).
Proof.
  intros factor beta. split; [reflexivity|]. unfold vaisala_beta. destruct (forallb _ beta) eqn:F; [left|right].
  - split; [|reflexivity]. intros i j. unfold pixel. destruct (nth_error beta i) as [row|] eqn:R; [|left; reflexivity]. destruct (nth_error row j) as [x|] eqn:X; [|left; reflexivity].
    rewrite forallb_forall in F. specialize (F row (nth_error_In _ _ R)). rewrite forallb_forall in F. specialize (F x (nth_error_In _ _ X)). destruct x; [discriminate|right; reflexivity].
  - split.
    + apply forallb_false_exists in F as (row & I & F). apply forallb_false_exists in F as (x & J & F). destruct x as [q|]; [|discriminate].
      apply In_nth_error in I as (i & I). apply In_nth_error in J as (j & J). exists i, j, q. unfold pixel. rewrite I. exact J.
    + eexists. split; [reflexivity|]. split; [apply same_shape_map|]. intros i j. rewrite pixel_map. destruct (pixel beta i j) as [[q|]|]; cbn; [|exact I|exact I]. destruct factor; reflexivity.
Qed.
(** The depolarisation of CL61 is the quotient of the two polarisations. *)
Theorem C128_depolarisation : forall x_pol p_pol i j x p,
  pixel x_pol i j = Some x -> pixel p_pol i j = Some p ->
  exists d, pixel (cl61_depolarisation x_pol p_pol) i j = Some d /\ quotient x p d.
Proof.
  intros x_pol p_pol i j x p X P. exists (mdiv x p). unfold cl61_depolarisation, pixel in *. rewrite nth_error_map2.
  destruct (nth_error x_pol i) as [rx|]; [|discriminate]. destruct (nth_error p_pol i) as [rp|]; [|discriminate]. rewrite nth_error_map2, X, P. split; [reflexivity|].
  destruct x as [a|], p as [b|]; cbn [mdiv quotient]; try reflexivity. destruct (Qeq_bool b 0) eqn:Z.
  - left. split; [apply Qeq_bool_iff, Z|reflexivity].
  - right. assert (Z' : ~ (b == 0)%Q) by (intros Z'; apply Qeq_bool_iff in Z'; congruence). split; [exact Z'|]. eexists. split; [reflexivity|]. field. exact Z'.
Qed.
(** An old file with a gain. *)
Definition old_file : lufft :=
  {| l_images := [("beta_raw", [[Some 1%Q; Some 2%Q]; [None; Some 4%Q]])];
     l_vectors := [("stddev", [Some 6%Q; Some 8%Q]); ("nn1", [Some 140%Q; Some 150%Q])]; l_version := VInteger 59 |}.
Example C128_nonvacuous : old_version (VText "12.12.1 2.13 0.701") = Ok true /\ firmware_number "0.701" 701 /\
  middle_of_upper [10%Q; 20%Q; 30%Q] [5%Q; 15%Q; 25%Q] /\
  exists out c, lufft_beta (fun _ e => (2 + e)%Q) (Some 1%Q) [5%Q; 15%Q] old_file = Ok (out, c, true) /\ pixel out 1 0 = Some None /\ exists q, pixel out 0 0 = Some (Some q) /\ (q == 75)%Q.
Proof.
  split; [reflexivity|]. split.
  { exists "0", "701", 0%Z, 701%Z. split; [reflexivity|]. split; [apply decimal_iff; reflexivity|]. split; [apply decimal_iff; reflexivity|reflexivity]. }
  split.
  { split; [reflexivity|]. split; [|intros a b m A B M; cbn in *; injection A as <-; injection B as <-; injection M as <-; reflexivity].
    intros [|[|[|i]]] a b m A B M; cbn in *; try discriminate; injection A as <-; injection B as <-; injection M as <-; reflexivity. }
  do 2 eexists. split; [vm_compute; reflexivity|]. split; [reflexivity|]. eexists. split; [reflexivity|reflexivity].
Qed.
Print Assumptions C128_range. Print Assumptions C128_zenith. Print Assumptions C128_zenith_refuted. Print Assumptions C128_version.
Print Assumptions C128_lufft_new. Print Assumptions C128_lufft_old. Print Assumptions C128_vaisala. Print Assumptions C128_depolarisation.
