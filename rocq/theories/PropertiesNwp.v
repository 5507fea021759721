(** Properties of the weather model data (C107 to C109). *)
From Verif Require Import Base ArrayModel FillModel FillProofs TimeModel GridModel GridSpec GridProofs ImageModel ImageProofs OutputModel TelegramModel TelegramSpec TelegramProofs
  MpProofs SourceModel SourceSpec SourceProofs NwpModel NwpSpec NwpProofs.
From Coq Require Import Qabs String Lqa.
Open Scope string_scope.
Open Scope nat_scope.
Open Scope list_scope.
Local Notation length := List.length (only parsing).
Local Notation dict := OutputModel.dict (only parsing).

(** ** C107: type and heights of a model *)
(** The type is the first known name that occurs in the file name; the directory does
    not matter. *)
Theorem C107_type : forall path name k, file_of path name ->
  (find_model_type path = Ok k <->
   exists before after, known_models = before ++ k :: after /\ occurs k name /\ forall m, In m before -> ~ occurs m name).
Proof.
  intros path name k F. rewrite <- (file_of_unique path _ _ (file_of_basename path) F). unfold find_model_type. fold known_models.
  set (b := basename path). clearbody b. generalize known_models as l. induction l as [|m l IH]; cbn [find].
  - split; [discriminate|]. intros (x & y & E & _). destruct x; discriminate.
  - destruct (contains m b) eqn:C.
    + split.
      * intros H. exists [], l. assert (m = k) by congruence. subst m. split; [reflexivity|]. split; [apply contains_iff; exact C|intros ? []].
      * intros (x & y & E & O & N). destruct x as [|m' x]; cbn [app] in E; [congruence|]. exfalso. assert (m' = m) by congruence. subst m'.
        apply (N m (or_introl eq_refl)). apply contains_iff. exact C.
    + rewrite IH. split.
      * intros (x & y & E & O & N). exists (m :: x), y. split; [cbn [app]; congruence|]. split; [exact O|]. intros q [<-|I]; [|exact (N q I)].
        intros O'. apply contains_iff in O'. congruence.
      * intros (x & y & E & O & N). destruct x as [|m' x]; cbn [app] in E.
        -- assert (m = k) by congruence. subst m. apply contains_iff in O. congruence.
        -- exists x, y. split; [congruence|]. split; [exact O|]. intros q I. apply N. right. exact I.
Qed.
(** Without any known name the file is refused. *)
Theorem C107_unknown : forall path name, file_of path name ->
  (find_model_type path = Raise ValueError <-> forall m, In m known_models -> ~ occurs m name).
Proof.
  intros path name F. rewrite <- (file_of_unique path _ _ (file_of_basename path) F). unfold find_model_type. fold known_models.
  set (b := basename path). clearbody b. generalize known_models as l. induction l as [|m l IH]; cbn [find].
  - split; [intros _ ? []|reflexivity].
  - destruct (contains m b) eqn:C.
    + split; [discriminate|]. intros H. exfalso. apply (H m (or_introl eq_refl)). apply contains_iff. exact C.
    + rewrite IH. split; [intros H q [<-|I]; [intros O; apply contains_iff in O; congruence|exact (H q I)]|intros H q I; apply H; right; exact I].
Qed.

(** The heights above sea level: metres above the surface of the model if the file gives
    it, otherwise above the site. *)
Theorem C107_heights : forall f alt_site heights, model_heights f alt_site = Ok heights ->
  exists units h k, n_height f = Some (units, h) /\ metres units k /\ length heights = length h /\
  forall i j x, pixel h i j = Some x -> exists z, pixel heights i j = Some z /\
    match n_sfc_height f, n_sfc_geopotential f with
    | Some s, _ => exists a, nth_error s i = Some a /\ (z == x * k + a)%Q
    | None, Some g => exists p, nth_error g i = Some p /\ (z * (980665 # 100000) == x * k * (980665 # 100000) + p)%Q
    | None, None => (z == x * k + alt_site)%Q
    end.
Proof.
  intros f alt_site heights H. unfold model_heights in H. destruct (n_height f) as [[units h]|]; [|discriminate]. apply bind_ok in H as (k & K & H).
  apply to_m_factor_iff in K. exists units, h, k. split; [reflexivity|]. split; [exact K|]. set (s := surface_altitude f alt_site (length h)) in *.
  destruct (Nat.eqb_spec (length s) (length h)) as [L|L]; [|discriminate].
  assert (E : heights = map2 (fun row a => map (fun x => (x * k + a)%Q) row) h s) by congruence. subst heights. clear H.
  split; [apply map2_len; congruence|]. intros i j x P. unfold pixel in *. rewrite map2_nth. destruct (nth_error h i) as [row|] eqn:R; [|discriminate].
  assert (Li : i < length h) by (apply nth_error_Some; congruence). destruct (nth_error_lt_Some s i) as [a A]; [lia|]. rewrite A. rewrite nth_error_map', P. cbn [option_map].
  eexists. split; [reflexivity|]. unfold s, surface_altitude in A. destruct (n_sfc_height f) as [sh|]; [exists a; split; [exact A|reflexivity]|].
  destruct (n_sfc_geopotential f) as [g|].
  - rewrite nth_error_map' in A. destruct (nth_error g i) as [p|] eqn:G; [|discriminate]. cbn [option_map] in A. exists p. split; [reflexivity|].
    assert (a = (p / (980665 # 100000))%Q) by congruence. subst a. field.
  - assert (a = alt_site). { apply nth_error_In in A. apply repeat_spec in A. exact A. } subst a. reflexivity.
Qed.
(** The mean heights are the exact means over time. *)
Theorem C107_mean : forall heights n, heights <> [] -> (forall row, In row heights -> length row = n) ->
  length (mean_height heights n) = n /\
  forall j, j < n -> exists m col, nth_error (mean_height heights n) j = Some m /\
    Forall2 (fun row v => nth_error row j = Some v) heights col /\ is_mean m col.
Proof.
  intros heights n N R. unfold mean_height. split; [rewrite map_length, seq_length; reflexivity|]. intros j J.
  destruct (column_values heights j) as (col & F & E); [intros row I; rewrite (R row I); exact J|]. eexists. exists col.
  split; [rewrite nth_error_map', nth_error_seq0 by exact J; reflexivity|]. split; [exact F|]. rewrite E. apply mean_is_mean.
  destruct F; [congruence|discriminate].
Qed.
(** The errors: no heights, a strange unit, or a surface altitude for other times. *)
Theorem C107_errors : forall f alt_site,
  (n_height f = None -> model_heights f alt_site = Raise ModelDataError) /\
  (forall units h, n_height f = Some (units, h) ->
     ((forall k, ~ metres units k) -> model_heights f alt_site = Raise ValueError) /\
     ((exists k, metres units k) -> (forall s, n_sfc_height f = Some s -> length s = length h) ->
        (forall g, n_sfc_geopotential f = Some g -> length g = length h) -> exists heights, model_heights f alt_site = Ok heights)).
Proof.
  intros f alt_site. unfold model_heights. split; [intros ->; reflexivity|]. intros units h ->. split.
  - intros N. rewrite (to_m_factor_error units N). reflexivity.
  - intros [k K] S G. apply to_m_factor_iff in K. rewrite K. cbn [bind].
    assert (L : length (surface_altitude f alt_site (length h)) = length h).
    { unfold surface_altitude. destruct (n_sfc_height f) as [s|]; [apply S; reflexivity|]. destruct (n_sfc_geopotential f) as [g|]; [rewrite map_length; apply G; reflexivity|apply repeat_length]. }
    rewrite L, Nat.eqb_refl. eexists. reflexivity.
Qed.
Example C107_nonvacuous :
  find_model_type "/data/icon/20240101_hyytiala_ecmwf.nc" = Ok "ecmwf" /\
  match model_heights {| n_height := Some ("km", [[0; 1]; [0; 2]]%Q); n_sfc_height := None; n_sfc_geopotential := Some [980665 # 1000; 0]%Q |} 5 with
  | Ok h => forallb (fun p => Qeq_bool (fst p) (snd p)) (combine (List.concat h ++ mean_height h 2) [100; 1100; 0; 2000; 50; 1550]%Q) = true
  | Raise _ => False
  end.
Proof. split; [reflexivity|vm_compute; reflexivity]. Qed.
Print Assumptions C107_type.
Print Assumptions C107_unknown.
Print Assumptions C107_heights.
Print Assumptions C107_mean.
Print Assumptions C107_errors.

(** ** C108: model data at common heights *)
(** A profile without masked values is interpolated linearly between its levels, and
    continued beyond them; a masked profile stays masked. *)
Theorem C108_lines : forall mean_h heights data out, common_height mean_h heights data = Ok out ->
  length out = length data /\
  forall i alt prof, nth_error heights i = Some alt -> nth_error data i = Some prof ->
    exists row, nth_error out i = Some row /\ length row = length mean_h /\
    ((forall e, In e prof -> snd e = true) -> forall w, In w row -> w = None) /\
    (prof <> [] -> (forall e, In e prof -> snd e = false) -> all_different alt ->
       forall j m, nth_error mean_h j = Some m -> exists v, nth_error row j = Some (Some v) /\ extended_line (level alt (map fst prof)) m v).
Proof.
  intros mean_h heights data out H. apply common_height_rows in H as (_ & L & R). split; [exact L|]. intros i alt prof A P.
  destruct (R i alt prof A P) as (row & E & C). exists row. split; [exact E|]. apply (common_profile_line mean_h alt prof row C).
Qed.

(** So a quantity that changes linearly with height is exact at the common heights at
    every time, whatever the levels are. *)
Theorem C108_linear_exact : forall mean_h heights data out p q i alt prof row j m,
  common_height mean_h heights data = Ok out ->
  nth_error heights i = Some alt -> nth_error data i = Some prof -> nth_error out i = Some row -> nth_error mean_h j = Some m ->
  prof <> [] -> (forall e, In e prof -> snd e = false) -> all_different alt ->
  (forall k a e, nth_error alt k = Some a -> nth_error prof k = Some e -> (fst e == p * a + q)%Q) ->
  exists v, nth_error row j = Some (Some v) /\ (v == p * m + q)%Q.
Proof.
  intros mean_h heights data out p q i alt prof row j m H A P R M N V D Lin. destruct (C108_lines _ _ _ _ H) as [_ X].
  destruct (X i alt prof A P) as (row' & R' & _ & _ & Y). assert (row' = row) by congruence. subst row'.
  destruct (Y N V D j m M) as (v & W & E). exists v. split; [exact W|]. apply (line_affine (level alt (map fst prof))); [|exact E].
  intros a y (k & Ka & Ky). rewrite nth_error_map' in Ky. destruct (nth_error prof k) as [e|] eqn:Pe; [|discriminate]. cbn [option_map] in Ky.
  assert (y = fst e) by congruence. subst y. exact (Lin k a e Ka Pe).
Qed.

(** Where a level is at its common height, its value is unchanged. *)
Theorem C108_unchanged : forall mean_h heights data out i alt prof row j m e a,
  common_height mean_h heights data = Ok out ->
  nth_error heights i = Some alt -> nth_error data i = Some prof -> nth_error out i = Some row -> nth_error mean_h j = Some m ->
  (forall e, In e prof -> snd e = false) -> all_different alt ->
  nth_error alt j = Some a -> nth_error prof j = Some e -> (a == m)%Q ->
  exists v, nth_error row j = Some (Some v) /\ (v == fst e)%Q.
Proof.
  intros mean_h heights data out i alt prof row j m e a H A P R M V D Ea Ee E. destruct (C108_lines _ _ _ _ H) as [_ X].
  destruct (X i alt prof A P) as (row' & R' & _ & _ & Y). assert (row' = row) by congruence. subst row'.
  assert (N : prof <> []) by (intros ->; destruct j; discriminate). destruct (Y N V D j m M) as (v & W & L). exists v. split; [exact W|].
  apply (line_at (level alt (map fst prof)) m v (fst e)) with (c := a); [|exact L|exists j; split; [exact Ea|rewrite nth_error_map', Ee; reflexivity]|exact E].
  intros x y yx yy (k & K1 & K2) (l & L1 & L2) Q1. destruct (Nat.lt_trichotomy k l) as [Z|[Z|Z]].
  - exfalso. apply (D k l x y Z K1 L1 Q1).
  - subst l. congruence.
  - exfalso. apply (D l k y x Z L1 K1). symmetry. exact Q1.
Qed.

Theorem C108_succeeds_iff : forall mean_h heights data, (exists out, common_height mean_h heights data = Ok out) <->
  length heights = length data /\
  forall i alt prof, nth_error heights i = Some alt -> nth_error data i = Some prof ->
    (forall e, In e prof -> snd e = true) \/ (length alt = length prof /\ 2 <= length alt).
Proof.
  intros mean_h heights data. split; [|intros [L H]; exact (common_height_total mean_h heights data L H)].
  intros [out H]. apply common_height_rows in H as (L & _ & R). split; [exact L|]. intros i alt prof A P. destruct (R i alt prof A P) as (row & _ & C).
  unfold common_profile in C. destruct (forallb snd prof) eqn:E; [left; apply forallb_forall; exact E|right].
  destruct (negb (length alt =? length prof) || (length alt <? 2)) eqn:G; [discriminate|]. apply orb_false_iff in G as [G1 G2].
  apply negb_false_iff, Nat.eqb_eq in G1. apply Nat.ltb_ge in G2. auto.
Qed.

(** "Masked values have no influence" fails: in a profile that is masked in part, what is
    stored under the mask (often a huge fill value) is interpolated and is visible. *)
Theorem C108_masked_level_refuted : exists mean_h heights e e' out out' v v',
  snd e = true /\ snd e' = true /\
  common_height mean_h heights [[(280%Q, false); e]] = Ok out /\ common_height mean_h heights [[(280%Q, false); e']] = Ok out' /\
  pixel out 0 1 = Some (Some v) /\ pixel out' 0 1 = Some (Some v') /\ ~ (v == v')%Q.
Proof.
  exists [0; 100]%Q, [[0; 100]]%Q, (0%Q, true), (1000%Q, true). do 4 eexists. split; [reflexivity|]. split; [reflexivity|].
  split; [vm_compute; reflexivity|]. split; [vm_compute; reflexivity|]. split; [reflexivity|]. split; [reflexivity|]. intros E. apply Qeq_bool_iff in E. discriminate.
Qed.

(** "The attenuation belongs to the same heights as the temperature" fails: the
    attenuations are not interpolated to the common heights.  Even an attenuation equal
    to the temperature differs from it. *)
Theorem C108_attenuation_refuted : exists f heights temperature sparse i j t a,
  (forall x y z, f x y z = x) /\
  common_height (mean_height heights 2) heights (map (map (fun x => (x, false))) temperature) = Ok sparse /\
  pixel sparse i j = Some (Some t) /\ pixel (attenuation f temperature temperature temperature) i j = Some (Some a) /\ ~ (a == t)%Q.
Proof.
  exists (fun x _ _ => x), [[0; 1000]; [200; 1200]]%Q, [[300; 290]; [298; 288]]%Q. eexists. exists 0, 0. do 2 eexists. split; [reflexivity|].
  split; [vm_compute; reflexivity|]. split; [reflexivity|]. split; [reflexivity|]. intros E. apply Qeq_bool_iff in E. discriminate.
Qed.
(** The levels move with time, the temperature at a height does not. *)
Example C108_nonvacuous :
  match common_height [100; 1100]%Q [[0; 1000]; [200; 1200]; [0; 1]]%Q
    [[(300%Q, false); (290%Q, false)]; [(298%Q, false); (288%Q, false)]; [(0%Q, true); (0%Q, true)]] with
  | Ok [[Some a; Some b]; [Some c; Some d]; [None; None]] => forallb (fun p => Qeq_bool (fst p) (snd p)) (combine [a; b; c; d] [299; 289; 299; 289]%Q)
  | _ => false
  end = true.
Proof. vm_compute. reflexivity. Qed.
Print Assumptions C108_lines.
Print Assumptions C108_linear_exact.
Print Assumptions C108_unchanged.
Print Assumptions C108_succeeds_iff.
Print Assumptions C108_masked_level_refuted.
Print Assumptions C108_attenuation_refuted.

(** ** C109: model data on the dense grid *)
(** A pixel has the interpolated value, or the continuation of its row, if less than half
    of the data around it is masked. *)
Theorem C109_pixels : forall griddata x y z x_new y_new, StronglySorted Qlt x -> StronglySorted Qlt y -> 2 <= length x -> 2 <= length y ->
  length x = length z -> (forall row, In row z -> length row = length y) -> StronglySorted Qlt y_new ->
  exists out points, interpolate_2d_mask griddata x y z x_new y_new true = Ok out /\ visible_points x y z points /\
    length out = length x_new /\ (forall row, In row out -> length row = length y_new) /\
    forall i j xn yn, nth_error x_new i = Some xn -> nth_error y_new j = Some yn ->
      exists share w v, masked_share x y z xn yn share /\ pixel out i j = Some w /\ filled_row y_new (fun b => griddata points b xn) j v /\
        ((share < 1 # 2)%Q -> w = v) /\ ((1 # 2 <= share)%Q -> w = None).
Proof. exact interpolate_2d_mask_ok. Qed.

(** At a point of the model grid a masked value stays masked, and a visible one is not
    masked by its neighbours. *)
Theorem C109_nodes : forall griddata x y z x_new y_new out i j xn yn a b xa yb, StronglySorted Qlt x -> StronglySorted Qlt y -> 2 <= length x -> 2 <= length y ->
  length x = length z -> (forall row, In row z -> length row = length y) -> StronglySorted Qlt y_new ->
  interpolate_2d_mask griddata x y z x_new y_new true = Ok out ->
  nth_error x_new i = Some xn -> nth_error y_new j = Some yn -> nth_error x a = Some xa -> nth_error y b = Some yb -> (xn == xa)%Q -> (yn == yb)%Q ->
  (pixel z a b = Some None -> pixel out i j = Some None) /\
  (forall v g, pixel z a b = Some (Some v) -> (forall p, visible_points x y z p -> griddata p yn xn = Some g) -> pixel out i j = Some (Some g)).
Proof.
  intros griddata x y z x_new y_new out i j xn yn a b xa yb Sx Sy Lx Ly Lz Lr Sn H I J A B Ex Ey.
  destruct (interpolate_2d_mask_ok griddata x y z x_new y_new Sx Sy Lx Ly Lz Lr Sn) as (out' & points & E & Vp & _ & _ & P).
  assert (out' = out) by congruence. subst out'. destruct (P i j xn yn I J) as (share & w & v & M & W & F & V1 & V2).
  split.
  - intros Hz. assert (S : (share == 1)%Q) by (apply (node_share x y z xn yn share a b xa yb 1 Sx Sy A B Ex Ey); [left; auto|exact M]). rewrite W. f_equal. apply V2. lra.
  - intros v0 g Hz G. assert (S : (share == 0)%Q) by (apply (node_share x y z xn yn share a b xa yb 0 Sx Sy A B Ex Ey); [right; split; [exists v0; exact Hz|reflexivity]|exact M]).
    rewrite W. f_equal. rewrite (V1 ltac:(lra)). destruct F as (yy & Y & F). assert (yy = yn) by congruence. subst yy. rewrite (G points Vp) in F. exact F.
Qed.

(** All seven fields are on the grid: four at its heights, the attenuations at the
    middles between them.  The gaps are exactly the time steps without temperature. *)
Theorem C109_fields : forall griddata time mean_h alt_site sparse time_grid height_grid dense gaps,
  interpolate_to_grid griddata time mean_h alt_site sparse time_grid height_grid = Ok (dense, gaps) ->
  map fst dense = level_fields ++ path_fields /\
  (forall k, In k level_fields -> exists z d, lookup k sparse = Some z /\ two_profiles z /\ lookup k dense = Some d /\
     interpolate_2d_mask griddata time mean_h z time_grid height_grid true = Ok d) /\
  (forall k, In k path_fields -> exists z d half, lookup k sparse = Some z /\ two_profiles z /\ lookup k dense = Some d /\
     middles alt_site height_grid half /\ interpolate_2d_mask griddata time mean_h z time_grid half true = Ok d) /\
  exists t, lookup "temperature" dense = Some t /\ StronglySorted lt gaps /\
    forall i, In i gaps <-> exists row, nth_error t i = Some row /\ forall v, In v row -> v = None.
Proof.
  intros griddata time mean_h alt_site sparse time_grid height_grid dense gaps H. unfold interpolate_to_grid in H. apply bind_ok in H as (d & D & H).
  match type of D with sequence (map ?g _) = _ => set (f := g) in D end. apply sequence_iff in D. destruct (lookup "temperature" d) as [t|] eqn:T; [|discriminate]. assert (d = dense) by congruence. subst d.
  assert (G : gaps = where1 (map (forallb is_masked) t)) by congruence. clear H.
  assert (F : forall k kd, f k = Ok kd -> exists z d, kd = (k, d) /\ lookup k sparse = Some z /\ two_profiles z /\
    interpolate_2d_mask griddata time mean_h z time_grid (if contains "atten" k then half_heights alt_site height_grid else height_grid) true = Ok d).
  { intros k kd E. unfold f in E. destruct (lookup k sparse) as [z|]; [|discriminate]. destruct (Nat.ltb_spec (n_valid_profiles z) 2) as [L|L]; [discriminate|].
    apply bind_ok in E as (d & Ed & E). exists z, d. split; [congruence|]. split; [reflexivity|]. split; [apply two_profiles_iff; exact L|exact Ed]. }
  clearbody f. change (Forall2 (fun k kd => f k = Ok kd) (level_fields ++ path_fields) dense) in D.
  assert (K : forall keys l, Forall2 (fun k kd => f k = Ok kd) keys l -> map fst l = keys /\ forall k, In k keys -> exists d, lookup k l = Some d /\ f k = Ok (k, d)).
  { clear - F. induction 1 as [|k0 kd0 keys l E _ [IH1 IH2]]; [split; [reflexivity|intros k []]|]. destruct (F k0 kd0 E) as (z & d0 & -> & _). split; [cbn [map fst]; congruence|].
    intros k I. cbn [lookup]. destruct (String.eqb_spec k k0) as [->|N]; [exists d0; split; [reflexivity|exact E]|]. destruct I as [I|I]; [congruence|exact (IH2 k I)]. }
  destruct (K _ _ D) as [K1 K2]. clear K. split; [exact K1|]. split; [|split].
  - intros k I. destruct (K2 k) as (d & Ld & E); [apply in_or_app; left; exact I|]. destruct (F k _ E) as (z & d' & Ed & Z & Two & O). exists z, d.
    split; [exact Z|]. split; [exact Two|]. split; [exact Ld|]. assert (d' = d) by congruence. subst d'.
    assert (C : contains "atten" k = false) by (destruct I as [<-|[<-|[<-|[<-|[]]]]]; reflexivity). rewrite C in O. exact O.
  - intros k I. destruct (K2 k) as (d & Ld & E); [apply in_or_app; right; exact I|]. destruct (F k _ E) as (z & d' & Ed & Z & Two & O). exists z, d, (half_heights alt_site height_grid).
    split; [exact Z|]. split; [exact Two|]. split; [exact Ld|]. split; [apply half_heights_middles|]. assert (d' = d) by congruence. subst d'.
    assert (C : contains "atten" k = true) by (destruct I as [<-|[<-|[<-|[]]]]; reflexivity). rewrite C in O. exact O.
  - exists t. split; [exact T|]. subst gaps. split; [apply where1_sorted|]. intros i. rewrite where1_in, nth_error_map'.
    destruct (nth_error t i) as [row|]; cbn [option_map]; [|split; [discriminate|intros (r & X & _); discriminate]]. split.
    + intros X. exists row. split; [reflexivity|]. assert (Y : forallb is_masked row = true) by congruence. rewrite forallb_forall in Y. intros v V. specialize (Y v V). destruct v; [discriminate|reflexivity].
    + intros (r & R & X). assert (r = row) by congruence. subst r. f_equal. apply forallb_forall. intros v V. rewrite (X v V). reflexivity.
Qed.

(** With fields that fit their axes it succeeds exactly if each of the seven has at least
    two profiles with data; the only error says that the model data is not usable. *)
Theorem C109_succeeds_iff : forall griddata time mean_h alt_site (sparse : dict (image (masked Q))) time_grid height_grid,
  StronglySorted Qlt time -> StronglySorted Qlt mean_h -> 2 <= length time -> 2 <= length mean_h ->
  (forall k, In k (level_fields ++ path_fields) -> exists z : image (masked Q), lookup k sparse = Some z /\ length time = length z /\ forall row, In row z -> length row = length mean_h) ->
  ((exists r, interpolate_to_grid griddata time mean_h alt_site sparse time_grid height_grid = Ok r) <->
   (forall k (z : image (masked Q)), In k (level_fields ++ path_fields) -> lookup k sparse = Some z -> two_profiles z)) /\
  (forall e, interpolate_to_grid griddata time mean_h alt_site sparse time_grid height_grid = Raise e -> e = ModelDataError).
Proof.
  intros griddata time mean_h alt_site sparse time_grid height_grid St Sm Lt Lm Fit.
  assert (Ok2 : forall (z : image (masked Q)) ys, length time = length z -> (forall row, In row z -> length row = length mean_h) -> exists d, interpolate_2d_mask griddata time mean_h z time_grid ys true = Ok d).
  { intros z ys Lz Lr. unfold interpolate_2d_mask. apply strictly_up_iff in St as Ux. apply strictly_up_iff in Sm as Uy. rewrite Ux, Uy.
    apply Nat.leb_le in Lt as Bx. apply Nat.leb_le in Lm as By. rewrite Bx, By. cbn [andb negb]. rewrite Lz, Nat.eqb_refl.
    assert (Fr : forallb (fun row => length row =? length mean_h) z = true) by (apply forallb_forall; intros row I; apply Nat.eqb_eq, Lr, I). rewrite Fr. cbn [andb negb]. eexists. reflexivity. }
  unfold interpolate_to_grid.
  match goal with |- context[sequence (map ?g _)] => set (f := g) end.
  change ["temperature"; "pressure"; "rh"; "q"; "specific_gas_atten"; "specific_saturated_gas_atten"; "specific_liquid_atten"] with (level_fields ++ path_fields).
  assert (F : forall k (z : image (masked Q)), In k (level_fields ++ path_fields) -> lookup k sparse = Some z ->
    (two_profiles z -> exists d, f k = Ok (k, d)) /\ (~ two_profiles z -> f k = Raise ModelDataError)).
  { intros k z I Z. destruct (Fit k I) as (z' & Z' & L1 & L2). assert (z' = z) by congruence. subst z'. unfold f. cbv beta. rewrite Z. split.
    - intros T. apply two_profiles_iff in T. apply Nat.ltb_ge in T. rewrite T. destruct (Ok2 z (if contains "atten" k then half_heights alt_site height_grid else height_grid) L1 L2) as [d ->]. exists d. reflexivity.
    - intros T. assert (X : n_valid_profiles z < 2) by (destruct (Nat.lt_ge_cases (n_valid_profiles z) 2); [assumption|exfalso; apply T, two_profiles_iff; lia]).
      apply Nat.ltb_lt in X. rewrite X. reflexivity. }
  clearbody f. clear Ok2.
  assert (S : forall keys, (forall k, In k keys -> In k (level_fields ++ path_fields)) ->
    ((exists l, sequence (map f keys) = Ok l) <-> (forall k (z : image (masked Q)), In k keys -> lookup k sparse = Some z -> two_profiles z)) /\
    (forall e, sequence (map f keys) = Raise e -> e = ModelDataError) /\
    (forall l k, sequence (map f keys) = Ok l -> In k keys -> exists d, lookup k l = Some d)).
  { induction keys as [|k keys IH]; intros Sub; cbn [map sequence].
    - split; [split; [intros _ k z []|intros _; eexists; reflexivity]|]. split; [discriminate|intros l k _ []].
    - destruct IH as (I1 & I2 & I3); [intros k' I; apply Sub; right; exact I|]. destruct (Fit k (Sub k (or_introl eq_refl))) as (z & Z & _).
      destruct (F k z (Sub k (or_introl eq_refl)) Z) as [Y N].
      assert (Dec : two_profiles z \/ ~ two_profiles z) by (destruct (Nat.le_gt_cases 2 (n_valid_profiles z)) as [X|X]; [left; apply two_profiles_iff; exact X|right; intros T; apply two_profiles_iff in T; lia]).
      destruct Dec as [T|T].
      + destruct (Y T) as [d Ed]. rewrite Ed. cbn [bind]. split; [|split].
        * split.
          -- intros [l H]. apply bind_ok in H as (l' & H' & _). intros k' z' [<-|I] Z'; [assert (z' = z) by congruence; subst; exact T|]. apply (proj1 I1 (ex_intro _ l' H') k' z' I Z').
          -- intros H. destruct (proj2 I1) as [l ->]; [intros k' z' I; apply H; right; exact I|]. cbn [bind]. eexists. reflexivity.
        * intros e H. destruct (sequence (map f keys)) as [l|e']; cbn [bind] in H; [discriminate|]. apply I2. congruence.
        * intros l k' H I. apply bind_ok in H as (l' & H' & H). assert (l = (k, d) :: l') by congruence. subst l. cbn [lookup].
          destruct (String.eqb_spec k' k) as [->|Ne]; [exists d; reflexivity|]. destruct I as [I|I]; [congruence|exact (I3 l' k' H' I)].
      + rewrite (N T). cbn [bind]. split; [|split].
        * split; [intros [l H]; discriminate|]. intros H. exfalso. apply T. apply (H k z); [left; reflexivity|exact Z].
        * intros e H. congruence.
        * intros l k' H. discriminate. }
  destruct (S (level_fields ++ path_fields) (fun k I => I)) as (S1 & S2 & S3). clear S.
  assert (T : forall l, sequence (map f (level_fields ++ path_fields)) = Ok l -> exists t, lookup "temperature" l = Some t) by (intros l H; apply (S3 l "temperature" H); left; reflexivity).
  destruct (sequence (map f (level_fields ++ path_fields))) as [l|e0].
  - destruct (T l eq_refl) as [t Et]. cbn [bind]. rewrite Et. split; [|discriminate]. rewrite <- S1. split; [intros _; exists l; reflexivity|intros _; eexists; reflexivity].
  - cbn [bind]. split; [|intros e H; apply S2; congruence]. rewrite <- S1. split; intros [r H]; discriminate.
Qed.

(** A field with a masked profile, on a finer grid. *)
Example C109_nonvacuous :
  match interpolate_2d_mask (fun _ y x => if Qle_bool y 100 then Some (x + y)%Q else None) [0; 1; 2]%Q [0; 100]%Q
    [[Some 0%Q; Some 100%Q]; [Some 1%Q; Some 101%Q]; [None; None]] [0; 5 # 4; 7 # 4]%Q [0; 50; 200]%Q true with
  | Ok [[Some a; Some b; Some c]; [Some d; Some e; Some f]; [None; None; None]] => Qeq_bool b 50 && Qeq_bool c 200 && Qeq_bool f (200 + (5 # 4))
  | _ => false
  end = true.
Proof. vm_compute. reflexivity. Qed.
Print Assumptions C109_pixels.
Print Assumptions C109_nodes.
Print Assumptions C109_fields.
Print Assumptions C109_succeeds_iff.
