(** Properties of PollyXT files. *)
From Verif Require Import Base ArrayModel ArrayProofs TimeModel TimeSpec TimeProofs GridModel GridProofs OutputModel OutputProofs
  TelegramModel HatproSpec HatproProofs NcRadarModel NcRadarSpec NcRadarProofs LidarModel LidarSpec LidarProofs PollyModel PollySpec PollyProofs.
From Coq Require Import String Ascii Sorting.Sorted Lqa.
Open Scope string_scope.
Open Scope nat_scope.
Open Scope list_scope.
Local Notation length := List.length (only parsing).

(** ** C129: the files of PollyXT *)
(** Which files are read: the names with the keys, in alphabetical order; there must be
    as many of each kind. *)
Theorem C129_files : forall files att vol, picked_names "_att" files att -> picked_names "_vol" files vol ->
  (forall r, find_files files = Ok r -> picked_names "_att" files (fst r) /\ picked_names "_vol" files (snd r)) /\
  ((exists r, find_files files = Ok r) <-> att <> [] /\ length att = length vol) /\
  (find_files files = Raise RuntimeError <-> forall s, In s files -> ~ named_like "_att" s) /\
  (find_files files = Raise InconsistentDataError <-> att <> [] /\ length att <> length vol).
Proof.
  intros files att vol PA PV. pose proof (picked_spec "_att" files) as SA. pose proof (picked_spec "_vol" files) as SV.
  pose proof (picked_same _ _ _ _ PA SA) as LA. pose proof (picked_same _ _ _ _ PV SV) as LV. unfold find_files.
  set (a := sort_names (filter (fnmatch "_att") files)) in *. set (v := sort_names (filter (fnmatch "_vol") files)) in *.
  assert (NE : a = [] <-> forall s, In s files -> ~ named_like "_att" s).
  { split.
    - intros E s I N. pose proof (proj1 (proj2 SA s) N) as C. rewrite E in C. apply (count_occ_In string_dec) in I. cbn in C. lia.
    - intros H. destruct a as [|s r] eqn:E; [reflexivity|]. exfalso. destruct (fnmatch "_att" s) eqn:F.
      + apply fnmatch_iff in F. assert (I : In s files); [|exact (H s I F)]. apply (count_occ_In string_dec). rewrite <- (proj1 (proj2 SA s) F). cbn [count_occ]. destruct (string_dec s s); [lia|congruence].
      + assert (N : ~ named_like "_att" s) by (rewrite <- fnmatch_iff, F; discriminate). apply (proj2 (proj2 SA s) N). left. reflexivity. }
  assert (ZA : att = [] <-> a = []) by (split; intros E; apply length_zero_iff_nil; rewrite E in *; cbn in *; lia).
  split; [|split; [|split]].
  - intros r. destruct a as [|s a'] eqn:E; [discriminate|]. destruct (length (s :: a') =? length v); [|discriminate]. intros H. injection H as <-. split; [exact SA|exact SV].
  - rewrite LA, LV. destruct a as [|s r] eqn:E.
    + split; [intros (x & X); discriminate|]. intros (H & _). destruct H. apply ZA. reflexivity.
    + destruct (Nat.eqb_spec (length (s :: r)) (length v)) as [L|L]; split; intros H.
      * split; [|exact L]. intros H'. apply ZA in H'. discriminate.
      * eexists. reflexivity.
      * destruct H as (x & X). discriminate.
      * destruct H; contradiction.
  - rewrite <- NE. destruct a as [|s r]; [split; reflexivity|]. destruct (length (s :: r) =? length v); split; discriminate.
  - rewrite LA, LV. destruct a as [|s r] eqn:E.
    + split; [discriminate|]. intros (H & _). destruct H. apply ZA. reflexivity.
    + destruct (Nat.eqb_spec (length (s :: r)) (length v)) as [L|L]; split; intros H; try reflexivity; try discriminate; [destruct H; contradiction|].
      split; [|exact L]. intros H'. apply ZA in H'. discriminate.
Qed.
(** Only pairs are kept where both files have the most frequent sum of heights. *)
Theorem C129_range : forall pairs,
  (exists s, prevailing s (all_heights pairs) /\ those (fun p => height_total (b_height (fst p)) s /\ height_total (d_height (snd p)) s) pairs (same_range pairs)) \/
  ((forall h s, In h (all_heights pairs) -> ~ height_total h s) /\ same_range pairs = []).
Proof. exact same_range_spec. Qed.
(** The channel is the first one, of 1064, 532 and 355 nm, that is alive in some file. *)
Theorem C129_channel : forall files wavelength,
  (forall c, (exists w, beta_channel files wavelength = Ok (c, w)) <->
     exists pre post, polly_channels = pre ++ c :: post /\ Forall (fun x => Forall (dead x) files) pre /\ works_in c files) /\
  (beta_channel files wavelength = Raise ValidTimeStampError <-> Forall (fun x => Forall (dead x) files) polly_channels).
Proof.
  intros files wavelength. split; [|apply valid_channel_none]. intros c. unfold beta_channel. split.
  - intros (w & H). apply valid_channel_iff in H as (H & _). exact H.
  - intros H. eexists. apply valid_channel_iff. split; [exact H|reflexivity].
Qed.
(** In a new process the wavelength of the product is that of the channel. *)
Theorem C129_wavelength : forall files c w, beta_channel files "1064" = Ok (c, w) -> w = c.
Proof.
  intros files c w H. apply valid_channel_iff in H as (_ & ->). destruct (String.eqb_spec c "1064") as [E|E]; [symmetry; exact E|reflexivity].
Qed.
(** Times, profiles and calibration constants are those of the usable pairs, in order. *)
Theorem C129_data : forall bsc depol wavelength files y range epoch c w,
  fetch_data bsc depol wavelength files = Ok (y, range, epoch, c, w) ->
  exists att vol kept used pieces,
    find_files files = Ok (att, vol) /\ kept = same_range (combine (map bsc att) (map depol vol)) /\
    (exists first rest, kept = first :: rest /\ range = b_height (fst first)) /\
    beta_channel (map fst kept) wavelength = Ok (c, w) /\
    those (usable c) kept used /\ used <> [] /\ Forall2 (piece_of c) used pieces /\
    y_time y = List.concat (map e_time pieces) /\ y_beta y = List.concat (map e_beta pieces) /\
    y_depol y = List.concat (map e_depol pieces) /\ y_snr y = List.concat (map e_snr pieces) /\
    y_factors y = List.concat (map (fun e => repeat (e_factor e) (length (e_time e))) pieces).
Proof.
  intros bsc depol wavelength files y range epoch c w H. unfold fetch_data in H. destruct (find_files files) as [[att vol]|] eqn:F; [|discriminate]. cbn [bind fst snd] in H.
  set (kept := same_range (combine (map bsc att) (map depol vol))) in *. destruct kept as [|first rest] eqn:K; [discriminate|]. rewrite <- K in H.
  destruct (beta_channel (map fst kept) wavelength) as [[c' w']|] eqn:B; [|discriminate]. cbn [bind fst snd] in H.
  destruct (add_pairs c' kept None) as [data|] eqn:A; [|discriminate]. cbn [bind] in H. destruct data as [y'|]; [|discriminate].
  assert (c' = c) by congruence. assert (w' = w) by congruence. assert (y' = y) by congruence. subst c' w' y'.
  destruct (add_pairs_spec c kept None (Some y) A) as (pieces & P & T & Bt & D & S & Fa & Z & _). cbn [content app] in *.
  exists att, vol, kept, (filter (usable_bool c) kept), pieces. split; [reflexivity|]. split; [unfold kept in K |- *; reflexivity|].
  split; [exists first, rest; split; [exact K|congruence]|]. split; [exact B|]. split; [apply those_filter; intros p; apply usable_iff|].
  split; [|auto 10]. intros E. rewrite E in P. inversion P; subst. specialize (Z eq_refl). discriminate.
Qed.
(** If in every file the images have as many profiles as times, every profile of the
    product comes with the time, the ratio and the constant of its own pair of files. *)
Theorem C129_rows : forall bsc depol wavelength files y range epoch c w,
  fetch_data bsc depol wavelength files = Ok (y, range, epoch, c, w) ->
  (forall a v, complete c (bsc a, depol v)) ->
  length (y_beta y) = length (y_time y) /\ length (y_depol y) = length (y_time y) /\ length (y_snr y) = length (y_time y) /\ length (y_factors y) = length (y_time y) /\
  forall i t, nth_error (y_time y) i = Some t -> exists a v e k,
    usable c (bsc a, depol v) /\ piece_of c (bsc a, depol v) e /\ nth_error (e_time e) k = Some t /\
    nth_error (y_beta y) i = nth_error (e_beta e) k /\ nth_error (y_depol y) i = nth_error (e_depol e) k /\
    nth_error (y_snr y) i = nth_error (e_snr e) k /\ nth_error (y_factors y) i = Some (e_factor e).
Proof.
  intros bsc depol wavelength files y range epoch c w H CO.
  destruct (C129_data _ _ _ _ _ _ _ _ _ H) as (att & vol & kept & used & pieces & _ & K & _ & _ & TH & _ & P & T & B & D & S & F).
  assert (IN : forall p, In p used -> usable c p /\ exists a v, p = (bsc a, depol v)).
  { intros p I. apply (those_in _ _ _ TH) in I as (I & U). split; [exact U|]. rewrite K in I.
    assert (J : In p (combine (map bsc att) (map depol vol))).
    { destruct (same_range_spec (combine (map bsc att) (map depol vol))) as [(s & _ & X)|(_ & X)]; [apply (those_in _ _ _ X), I|rewrite X in I; destruct I]. }
    destruct p as [p q]. pose proof (in_combine_l _ _ _ _ J) as JL. pose proof (in_combine_r _ _ _ _ J) as JR.
    apply in_map_iff in JL as (a & <- & _). apply in_map_iff in JR as (v & <- & _). exists a, v. reflexivity. }
  assert (X : forall e, In e pieces -> exists p, In p used /\ piece_of c p e).
  { intros e I. clear -P I. induction P as [|p x ps xs PO P IH]; [destruct I|]. destruct I as [<-|I]; [exists p; split; [left; reflexivity|exact PO]|]. destruct (IH I) as (q & IQ & PQ). exists q. split; [right; exact IQ|exact PQ]. }
  assert (CE : forall e, In e pieces -> length (e_beta e) = length (e_time e) /\ length (e_depol e) = length (e_time e) /\ length (e_snr e) = length (e_time e)).
  { intros e I. destruct (X e I) as (p & IP & PO). destruct (IN p IP) as (_ & a & v & ->). exact (CO a v e PO). }
  rewrite T, B, D, S, F. split; [apply concat_align; intros e I; apply (CE e I)|]. split; [apply concat_align; intros e I; apply (CE e I)|]. split; [apply concat_align; intros e I; apply (CE e I)|].
  split; [apply concat_align; intros e I; apply repeat_length|]. intros i t E. destruct (concat_row pieces CE i t E) as (e & k & I & Et & Eb & Ed & Es & Ef).
  destruct (X e I) as (p & IP & PO). destruct (IN p IP) as (U & a & v & ->). exists a, v, e, k. auto 10.
Qed.
(** If no pair can be used, ValidTimeStampError. *)
Theorem C129_unusable : forall bsc depol wavelength files att vol c w kept,
  find_files files = Ok (att, vol) -> kept = same_range (combine (map bsc att) (map depol vol)) -> kept <> [] ->
  beta_channel (map fst kept) wavelength = Ok (c, w) ->
  (forall p, In p kept -> ~ usable c p) -> (forall p, In p kept -> lookup c (b_beta (fst p)) <> None /\ d_ratio (snd p) <> None) ->
  fetch_data bsc depol wavelength files = Raise ValidTimeStampError.
Proof.
  intros bsc depol wavelength files att vol c w kept F K NE B U P. unfold fetch_data. rewrite F. cbn [bind fst snd]. rewrite <- K. destruct kept as [|first rest] eqn:E; [contradiction|]. rewrite <- E in *.
  rewrite B. cbn [bind fst snd]. rewrite (add_pairs_none c kept U P). reflexivity.
Qed.

Definition x_bsc (height : list (masked Q)) (time : list Q) (epoch : Z) (value : Q) : bsc_file :=
  {| b_height := height; b_time := time; b_epoch := epoch;
     b_beta := [("1064", ([[(Some value, false); (Some 1%Q, true)]], 7%Q)); ("532", ([[(Some 3%Q, false); (Some 1%Q, false)]], 8%Q)); ("355", ([[(Some 4%Q, false); (Some 1%Q, false)]], 9%Q))];
     b_snr := [("1064", [[(Some 5%Q, false); (Some 5%Q, false)]]); ("532", [[(Some 6%Q, false); (Some 6%Q, false)]])] |}.
Definition x_depol (height : list (masked Q)) (time : list Q) : depol_file :=
  {| d_height := height; d_time := time; d_ratio := Some [[(Some (1 # 2)%Q, false); (Some 2%Q, false)]] |}.
Example C129_nonvacuous :
  let hs := [Some 100%Q; Some 300%Q] in
  let bsc s := if (s =? "x1_att_b.nc")%string then x_bsc hs [1%Q] 0 5 else x_bsc hs [2%Q] 0 6 in
  let depol s := if (s =? "x1_vol_b.nc")%string then x_depol hs [1%Q] else x_depol hs [2%Q] in
  exists y, fetch_data bsc depol "1064" ["x2_vol_b.nc"; "x1_vol_b.nc"; "x2_att_b.nc"; "x_att_b.nc"; "x1_att_b.nc"] = Ok (y, hs, 0%Z, "1064", "1064") /\
    y_time y = [1%Q; 2%Q] /\ y_factors y = [7%Q; 7%Q] /\ (forall a v, complete "1064" (bsc a, depol v)).
Proof.
  eexists. split; [vm_compute; reflexivity|]. split; [reflexivity|]. split; [reflexivity|]. intros a v e (T & B & D & S). cbn [fst snd] in *.
  destruct (a =? "x1_att_b.nc")%string; destruct (v =? "x1_vol_b.nc")%string; cbn in T, B, D, S; rewrite T; injection B as B _; injection D as D; injection S as S; rewrite <- B, <- D, <- S; auto.
Qed.

(** Files with different heights are joined if the heights have the same sum; the product
    has the heights of the first. *)
Theorem C129_heights_refuted : exists bsc depol files y range epoch c w,
  fetch_data bsc depol "1064" files = Ok (y, range, epoch, c, w) /\
  exists a, In a files /\ named_like "_att" a /\ b_height (bsc a) <> range /\ In 2%Q (y_time y) /\ b_time (bsc a) = [2%Q] /\ forall b, In b files -> b <> a -> b_time (bsc b) = [1%Q].
Proof.
  exists (fun s => if (s =? "x1_att.nc")%string then x_bsc [Some 200%Q; Some 200%Q] [2%Q] 0 5 else x_bsc [Some 100%Q; Some 300%Q] [1%Q] 0 6),
    (fun s => if (s =? "x1_vol.nc")%string then x_depol [Some 200%Q; Some 200%Q] [2%Q] else x_depol [Some 100%Q; Some 300%Q] [1%Q]), ["x0_att.nc"; "x1_att.nc"; "x0_vol.nc"; "x1_vol.nc"].
  do 5 eexists. split; [vm_compute; reflexivity|]. exists "x1_att.nc". split; [cbn; auto|]. split; [apply fnmatch_iff; reflexivity|]. split; [discriminate|]. split; [right; left; reflexivity|]. split; [reflexivity|].
  intros b I N. cbn [b_time]. destruct (String.eqb_spec b "x1_att.nc") as [E|E]; [contradiction|reflexivity].
Qed.
(** The times of all files are counted from the epoch of the last one, even if they count
    from different days. *)
Theorem C129_epoch_refuted : exists bsc depol files y range epoch c w,
  fetch_data bsc depol "1064" files = Ok (y, range, epoch, c, w) /\
  exists a, In a files /\ b_time (bsc a) = [2%Q] /\ In 2%Q (y_time y) /\ b_epoch (bsc a) <> epoch /\ forall b, In b files -> b <> a -> b_time (bsc b) = [1%Q].
Proof.
  set (hs := [Some 100%Q; Some 300%Q]).
  exists (fun s => if (s =? "x1_att.nc")%string then x_bsc hs [2%Q] 0 5 else x_bsc hs [1%Q] 86400 6),
    (fun s => if (s =? "x1_vol.nc")%string then x_depol hs [2%Q] else x_depol hs [1%Q]), ["x1_att.nc"; "x2_att.nc"; "x1_vol.nc"; "x2_vol.nc"].
  do 5 eexists. split; [vm_compute; reflexivity|]. exists "x1_att.nc". split; [cbn; auto|]. split; [reflexivity|]. split; [left; reflexivity|]. split; [discriminate|].
  intros b I N. cbn [b_time]. destruct (String.eqb_spec b "x1_att.nc") as [E|E]; [contradiction|reflexivity].
Qed.
(** The wavelength is kept from one conversion to the next: after one at 532 nm, a product
    with data of the 1064 nm channel says 532 nm. *)
Theorem C129_wavelength_refuted : exists files1 files2 c1 w1 c2 w2,
  beta_channel files1 "1064" = Ok (c1, w1) /\ beta_channel files2 w1 = Ok (c2, w2) /\ w2 <> c2.
Proof.
  exists [x_bsc [] [1%Q] 0 0], [x_bsc [] [1%Q] 0 5]. do 4 eexists. split; [reflexivity|]. split; [reflexivity|]. discriminate.
Qed.
(** A channel whose values add up to zero is taken for one without data. *)
Theorem C129_zero_sum_refuted : exists f c w beta k,
  lookup "1064" (b_beta f) = Some (beta, k) /\ (exists x, In (Some x, false) (List.concat beta) /\ ~ (x == 0)%Q) /\ beta_channel [f] "1064" = Ok (c, w) /\ c <> "1064".
Proof.
  exists {| b_height := []; b_time := [1%Q]; b_epoch := 0; b_beta := [("1064", ([[(Some 1%Q, false); (Some (- (1))%Q, false)]], 1%Q)); ("532", ([[(Some 3%Q, false)]], 1%Q))]; b_snr := [] |}.
  do 4 eexists. split; [reflexivity|]. split; [exists 1%Q; split; [left; reflexivity|discriminate]|]. split; [reflexivity|discriminate].
Qed.
Print Assumptions C129_files.
Print Assumptions C129_range.
Print Assumptions C129_channel.
Print Assumptions C129_wavelength.
Print Assumptions C129_data.
Print Assumptions C129_rows.
Print Assumptions C129_unusable.
Print Assumptions C129_heights_refuted.
Print Assumptions C129_epoch_refuted.
Print Assumptions C129_wavelength_refuted.
Print Assumptions C129_zero_sum_refuted.

(** ** C130: the masks of PollyXT *)
(** Backscatter is shown exactly where it and the ratio were given, the ratio is not below
    the limit, and the value is a number that is not negative. *)
Theorem C130_beta : forall limit snr raw i j s x, pixel snr i j = Some s -> pixel raw i j = Some x ->
  exists y, pixel (mask_nan (screened_beta limit snr raw)) i j = Some y /\
    (snd y = false <-> snd x = false /\ snd s = false /\ (forall r, fst s = Some r -> (limit <= r)%Q) /\ exists v, fst x = Some v /\ (0 <= v)%Q) /\
    (snd y = false -> y = x).
Proof.
  intros limit snr raw i j [s ms] [x mx] S X. unfold mask_nan, screened_beta. rewrite !pixel_imap, (pixel_below _ _ _ _ _ _ _ S X).
  eexists. split; [reflexivity|]. unfold mask_infinite, hide, test, hidden, number. cbn [fst snd].
  rewrite !orb_false_iff. split.
  - split.
    + intros (((A & B & C) & D) & E). split; [exact A|]. split; [exact B|]. split.
      * intros r ->. apply qlt_false, C.
      * destruct x as [v|]; [|discriminate]. exists v. split; [reflexivity|apply qlt_false, D].
    + intros (A & B & C & v & -> & V). split; [|reflexivity]. split; [|apply qlt_false, V]. split; [exact A|]. split; [exact B|].
      destruct s as [r|]; [|reflexivity]. apply qlt_false, C. reflexivity.
  - intros (((A & B & C) & D) & E). rewrite A, B, C, D, E. reflexivity.
Qed.
(** The depolarisation ratio likewise; it must also not be above one. *)
Theorem C130_depol : forall limit snr raw i j s x, pixel snr i j = Some s -> pixel raw i j = Some x ->
  exists y, pixel (mask_nan (screened_depol limit snr raw)) i j = Some y /\
    (snd y = false <-> snd x = false /\ snd s = false /\ (forall r, fst s = Some r -> (limit <= r)%Q) /\ exists v, fst x = Some v /\ (0 <= v <= 1)%Q) /\
    (snd y = false -> y = x).
Proof.
  intros limit snr raw i j [s ms] [x mx] S X. unfold mask_nan, screened_depol. rewrite !pixel_imap, (pixel_below _ _ _ _ _ _ _ S X).
  eexists. split; [reflexivity|]. unfold mask_infinite, hide, test, hidden, number. cbn [fst snd].
  rewrite !orb_false_iff. split.
  - split.
    + intros ((((A & B & C) & F) & D) & E). split; [exact A|]. split; [exact B|]. split.
      * intros r ->. apply qlt_false, C.
      * destruct x as [v|]; [|discriminate]. exists v. split; [reflexivity|]. split; [apply qlt_false, D|apply qlt_false, F].
    + intros (A & B & C & v & -> & V & W). split; [|reflexivity]. split; [|apply qlt_false, V]. split; [|apply qlt_false, W]. split; [exact A|]. split; [exact B|].
      destruct s as [r|]; [|reflexivity]. apply qlt_false, C. reflexivity.
  - intros ((((A & B & C) & F) & D) & E). rewrite A, B, C, F, D, E. reflexivity.
Qed.
(** The limit is that of the site, or 2. *)
Theorem C130_limit : forall site,
  (forall q, lookup "snr_limit" site = Some q -> polly_limit site = q) /\ (lookup "snr_limit" site = None -> (polly_limit site == 2)%Q).
Proof. intros site. unfold polly_limit. split; [intros q ->|intros ->]; reflexivity. Qed.
(** Profiles without a visible backscatter value are removed from all arrays with one row
    per profile; the others are left as they are. *)
Theorem C130_profiles : forall data m out, lookup "beta_raw" data = Some (P2 m) -> screen_profiles data = Ok out ->
  map fst out = map fst data /\
  forall k a, lookup k data = Some a -> exists b, lookup k out = Some b /\
    keeps_rows (fun i => exists row, nth_error m i = Some row /\ visible_pixel row) (length m) a b.
Proof.
  intros data m out L H. unfold screen_profiles in H. change (@lookup parray "beta_raw" data = Some (P2 m)) in L. rewrite L in H.
  set (valid := map (fun row => negb (forallb hidden row)) m) in *. assert (O : out = map (fun kv : string * parray => (fst kv, screen_array valid (snd kv))) data) by congruence. subst out. clear H.
  split; [rewrite map_map; reflexivity|]. intros k a LA. exists (screen_array valid a). split.
  - clear L. induction data as [|[k0 a0] d IH]; [discriminate|]. cbn [lookup map fst snd] in *. destruct (k =? k0)%string; [congruence|apply IH, LA].
  - assert (LV : length valid = length m) by apply map_length.
    assert (I : forall i, In i (where1 valid) <-> i < length m /\ exists row, nth_error m i = Some row /\ visible_pixel row).
    { intros i. unfold valid. rewrite (where1_map _ visible_pixel) by (intros row; apply all_hidden_iff). split; [intros (row & E & V)|intros (_ & X); exact X]. split; [apply nth_error_Some; congruence|eauto]. }
    destruct a as [l|l]; cbn [screen_array keeps_rows]; rewrite LV; destruct (Nat.eqb_spec (length l) (length m)) as [E|E]; try reflexivity;
      exists (where1 valid); (split; [apply where1_sorted|]); (split; [exact I|]); apply rows_where_rows; lia.
Qed.
Example C130_nonvacuous :
  exists out, screen_profiles [("beta_raw", P2 [[(Some 1%Q, false)]; [(Some 1%Q, true)]]); ("time", P1 [1%Q; 2%Q]); ("range", P1 [100%Q])] = Ok out /\
    lookup "time" out = Some (P1 [1%Q]) /\ lookup "range" out = Some (P1 [100%Q]) /\
    mask_nan (screened_beta 2 [[(Some 3%Q, false); (Some 1%Q, false); (Some 3%Q, false)]] [[(Some 1%Q, false); (Some 1%Q, false); (None, false)]])
      = [[(Some 1%Q, false); (Some 1%Q, true); (None, true)]].
Proof. eexists. split; [reflexivity|]. repeat split. Qed.
(** Pixels whose signal-to-noise ratio is not a number are kept. *)
Theorem C130_nan_snr_refuted : exists limit snr raw i j b, pixel snr i j = Some (None, false) /\
  pixel (mask_nan (screened_beta limit snr raw)) i j = Some (Some b, false) /\ pixel (mask_nan (screened_depol limit snr raw)) i j = Some (Some b, false).
Proof. exists 2%Q, [[(None, false)]], [[(Some (1 # 2)%Q, false)]], 0, 0, (1 # 2)%Q. repeat split. Qed.
(** If there are as many gates as profiles, gates are removed from the range, but not from
    the images. *)
Theorem C130_range_refuted : exists data out m m' r, lookup "beta_raw" data = Some (P2 m) /\ lookup "range" data = Some (P1 [100%Q; 200%Q]) /\
  screen_profiles data = Ok out /\ lookup "beta_raw" out = Some (P2 m') /\ lookup "range" out = Some (P1 r) /\
  exists row, In row m' /\ length row <> length r.
Proof.
  exists [("beta_raw", P2 [[(Some 1%Q, false); (Some 1%Q, false)]; [(Some 1%Q, true); (Some 1%Q, true)]]); ("range", P1 [100%Q; 200%Q])].
  do 4 eexists. split; [reflexivity|]. split; [reflexivity|]. split; [reflexivity|]. split; [reflexivity|]. split; [reflexivity|]. eexists. split; [left; reflexivity|discriminate].
Qed.
(** The zenith angle of the site is not used. *)
Theorem C130_zenith_refuted : exists site z, lookup "zenith_angle" site = Some z /\ ~ (polly_zenith site == z)%Q.
Proof. exists [("zenith_angle", 0%Q)], 0%Q. split; [reflexivity|discriminate]. Qed.
Print Assumptions C130_beta.
Print Assumptions C130_depol.
Print Assumptions C130_limit.
Print Assumptions C130_profiles.
Print Assumptions C130_nan_snr_refuted.
Print Assumptions C130_range_refuted.
Print Assumptions C130_zenith_refuted.
