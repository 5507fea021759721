(** Properties C182-C185: what a figure shows. *)
From Verif Require Import Base GridModel DropletModel DropletSpec DropletProofs SiteSpec SiteProofs RadErrSpec RadErrProofs GridProofs FreezeProofs FigModel FigSpec FigProofs.
From Coq Require Import String Ascii Lqa.
Open Scope string_scope.
Open Scope nat_scope.
Open Scope list_scope.
Local Notation length := List.length (only parsing).

(** ** C182: the variables of a figure *)

Theorem C182_panels : forall variables requested l,
  get_valid variables requested = Done l <-> panels variables requested l /\ l <> [].
Proof.
  intros vs req l. unfold get_valid. pose proof (collect_iff vs req) as C. destruct (collect vs req) as [[|x r]|].
  - split; [discriminate|]. intros [P N]. apply C in P. congruence.
  - split; [intros H; assert (l = x :: r) by congruence; subst; split; [apply C; reflexivity|discriminate]|]. intros [P _]. apply C in P. congruence.
  - split; [discriminate|]. intros [P _]. apply C in P. discriminate.
Qed.
Print Assumptions C182_panels.

Theorem C182_nothing_to_show : forall variables requested,
  get_valid variables requested = PlottingError <-> panels variables requested [].
Proof.
  intros vs req. unfold get_valid. pose proof (collect_iff vs req []) as C. destruct (collect vs req) as [[|x r]|]; rewrite <- C; split; congruence.
Qed.
Print Assumptions C182_nothing_to_show.

Theorem C182_bad_channel : forall variables requested e,
  get_valid variables requested = Other e <-> e = ValueError /\ exists name, In name requested /\ bad_field name.
Proof.
  intros vs req e. unfold get_valid. pose proof (collect_none vs req) as C. destruct (collect vs req) as [[|x r]|]; rewrite <- C; split.
  - discriminate.
  - intros [_ H]; discriminate.
  - discriminate.
  - intros [_ H]; discriminate.
  - intros H. split; [congruence|reflexivity].
  - intros [-> _]. reflexivity.
Qed.
Print Assumptions C182_bad_channel.

(** The panels are unique, never more than was asked for, and all in the file. *)
Theorem C182_of_the_file : forall variables requested l, get_valid variables requested = Done l ->
  length l <= length requested /\ Forall (fun p => In (fst p) variables) l.
Proof.
  intros vs req l H. apply C182_panels in H as [H _]. induction H as [|name x i r l A I P [L F]|name x i r l A N P [L F]]; cbn [length]; [split; [lia|constructor]| |].
  - split; [lia|]. constructor; assumption.
  - split; [lia|exact F].
Qed.
Print Assumptions C182_of_the_file.

(** Variables that the file does not have are left out, but not if they are called like
    a channel: one such name and there is no figure. *)
Theorem C182_missing_left_out_refuted : exists variables requested name,
  get_valid variables requested = Done [("lwp", None)] /\ ~ In name variables /\
  get_valid variables (requested ++ [name]) = Other ValueError.
Proof.
  exists ["lwp"], ["lwp"], "tb_spectrum". split; [reflexivity|]. split; [|reflexivity]. intros [H|[]]. discriminate.
Qed.
Print Assumptions C182_missing_left_out_refuted.

(** A variable of the file can be shown by its name: not if it is called like a
    channel. *)
Theorem C182_every_variable_refuted : exists variables name, In name variables /\ forall l, get_valid variables [name] <> Done l.
Proof. exists ["irt_quality_flag"], "irt_quality_flag". split; [left; reflexivity|]. intros l. vm_compute. discriminate. Qed.
Print Assumptions C182_every_variable_refuted.

Example C182_nonvacuous :
  panels ["tb"; "lwp"] ["lwp"; "tb_12_x"; "rain"] [("lwp", None); ("tb", Some 12%Z)] /\
  panels ["tb"] ["lwp"] [] /\ bad_field "tb_x".
Proof.
  split; [apply collect_iff; reflexivity|]. split; [apply collect_iff; reflexivity|apply extract_none; reflexivity].
Qed.

(** ** C183: the height axis *)

(** The axis above ground lies below the one above sea by the altitude of the site. *)
Theorem C183_above_ground : forall file_type n f h alt m,
  (file_type = "cpr-simulation" /\ var_1d f "height_sat" = Some h \/
   file_type <> "cpr-simulation" /\ file_type <> "model" /\ var_1d f "height" = Some h) ->
  var_1d f "altitude" = Some alt -> is_median (unmasked alt) m ->
  exists a g, y_axis file_type false n f = Ok (Some a) /\ y_axis file_type true n f = Ok (Some g) /\
    Forall2 (fun x y => match x with Some v => exists w, y = Some w /\ (w * 1000 == v)%Q | None => y = None end) h a /\
    exists m', (m' == m)%Q /\
    Forall2 (fun x y => match x with Some v => exists w, y = Some w /\ (w * 1000 == v - m')%Q | None => y = None end) h g.
Proof.
  intros ft n f h alt m H A M. assert (Md : exists m', altitude_median alt = Some m' /\ (m' == m)%Q).
  { unfold altitude_median. pose proof (median_iff (unmasked alt)) as I. destruct (median (unmasked alt)) as [m'|].
    - exists m'. split; [reflexivity|]. exact (FreezeProofs.median_unique _ _ _ I M).
    - exfalso. rewrite I in M. destruct M as (s & a & b & Pm & _ & X & _). apply Permutation_nil in Pm. subst s. discriminate. }
  destruct Md as (m' & Em & Eq).
  exists (map (scale (1 # 1000)) h), (map (fun x => scale (1 # 1000) (FigModel.shift (altitude_median alt) x)) h).
  assert (E : y_axis ft false n f = Ok (Some (map (scale (1 # 1000)) h)) /\ y_axis ft true n f = Ok (Some (map (fun x => scale (1 # 1000) (FigModel.shift (altitude_median alt) x)) h))).
  { unfold y_axis. destruct H as [[-> H]|(N1 & N2 & H)].
    - cbn [String.eqb]. rewrite H, A. split; reflexivity.
    - apply String.eqb_neq in N1, N2. rewrite N1, N2, H, A. split; reflexivity. }
  destruct E as [E1 E2]. split; [exact E1|]. split; [exact E2|]. rewrite Em. clear - Eq. split.
  - induction h as [|[v|] h IH]; cbn [map]; constructor; try exact IH; [|reflexivity]. cbn. eexists. split; [reflexivity|]. lra.
  - exists m'. split; [exact Eq|]. clear. induction h as [|[v|] h IH]; cbn [map]; constructor; try exact IH; [|reflexivity]. cbn. eexists. split; [reflexivity|]. lra.
Qed.
Print Assumptions C183_above_ground.

(** If all altitudes are masked, so are all heights above ground. *)
Theorem C183_masked_altitude : forall file_type n f h alt,
  (file_type = "cpr-simulation" /\ var_1d f "height_sat" = Some h \/
   file_type <> "cpr-simulation" /\ file_type <> "model" /\ var_1d f "height" = Some h) ->
  var_1d f "altitude" = Some alt -> (forall v, ~ In (Some v) alt) ->
  exists g, y_axis file_type true n f = Ok (Some g) /\ length g = length h /\ forall x, In x g -> x = None.
Proof.
  intros ft n f h alt H A M. exists (map (fun x => scale (1 # 1000) (FigModel.shift (altitude_median alt) x)) h).
  split; [|split; [apply map_length|]].
  - unfold y_axis. destruct H as [[-> H]|(N1 & N2 & H)].
    + cbn [String.eqb]. rewrite H, A. reflexivity.
    + apply String.eqb_neq in N1, N2. rewrite N1, N2, H, A. reflexivity.
  - assert (U : unmasked alt = []).
    { clear - M. induction alt as [|[v|] l IH]; [reflexivity|exfalso; apply (M v); left; reflexivity|]. apply IH. intros v I. apply (M v). right. exact I. }
    intros x I. apply in_map_iff in I as (y & <- & _). unfold altitude_median. rewrite U. destruct y; reflexivity.
Qed.
Print Assumptions C183_masked_altitude.
Example C183_masked_altitude_nonvacuous :
  y_axis "lidar" true 0 {| var_1d := fun k => if String.eqb k "height" then Some [Some 100%Q; None] else if String.eqb k "altitude" then Some [None] else None;
    model_height := []; ground := 0 |} = Ok (Some [None; None]).
Proof. reflexivity. Qed.

(** Model files: the mean height of every level, above sea with the altitude of the
    ground. *)
Theorem C183_model : forall above_ground n f, exists a, y_axis "model" above_ground n f = Ok (Some a) /\ length a = n /\
  forall j l, j < n -> gate_values j (fun _ => True) 0 (model_height f) l ->
    (l = [] -> nth_error a j = Some None) /\
    (l <> [] -> exists v, nth_error a j = Some (Some v) /\
       ((v * 1000 - (if above_ground then 0 else ground f)) * inject_Z (Z.of_nat (length l)) == sum l)%Q).
Proof.
  intros ag n f. unfold y_axis. cbn [String.eqb Ascii.eqb Bool.eqb]. eexists. split; [reflexivity|]. split; [destruct ag; rewrite !map_length; apply seq_length|].
  intros j l J G. pose proof (gate_unique _ _ _ _ _ G _ (gate_column j (model_height f) 0)) as ->.
  assert (S : nth_error (seq 0 n) j = Some j) by (rewrite (nth_error_nth' _ 0) by (rewrite seq_length; exact J); rewrite seq_nth by exact J; reflexivity).
  assert (N : nth_error (map (scale (1 # 1000)) (if ag then map (fun j => ma_stat mean (column (model_height f) j)) (seq 0 n)
      else map (option_map (fun x => x + ground f)%Q) (map (fun j => ma_stat mean (column (model_height f) j)) (seq 0 n)))) j =
    Some (scale (1 # 1000) (option_map (fun x => x + (if ag then 0 else ground f))%Q (ma_stat mean (column (model_height f) j)))) \/
    (ag = true /\ nth_error (map (scale (1 # 1000)) (map (fun j => ma_stat mean (column (model_height f) j)) (seq 0 n))) j = Some (scale (1 # 1000) (ma_stat mean (column (model_height f) j))))).
  { destruct ag; [right; split; [reflexivity|]|left]; rewrite !nth_error_map', S; reflexivity. }
  unfold ma_stat in *. set (u := unmasked (column (model_height f) j)) in *. split.
  - intros E. rewrite E in N. destruct N as [N|[-> N]]; rewrite N; reflexivity.
  - intros Ne. assert (Mn : (mean u * inject_Z (Z.of_nat (length u)) == sum u)%Q).
    { rewrite sum_fold. unfold mean. assert (Nz : ~ (inject_Z (Z.of_nat (length u)) == 0)%Q) by (change 0%Q with (inject_Z 0); rewrite inject_Z_injective; destruct u; [congruence|cbn; lia]). field. exact Nz. }
    destruct u as [|x u]; [congruence|]. destruct N as [N|[-> N]]; rewrite N; eexists; (split; [reflexivity|]); rewrite <- Mn; ring.
Qed.
Print Assumptions C183_model.

(** Without heights the range or the diameter is shown, whatever was asked for. *)
Theorem C183_without_height : forall file_type above_ground n f, file_type <> "cpr-simulation" -> file_type <> "model" -> var_1d f "height" = None ->
  (forall r, var_1d f "range" = Some r -> exists a, y_axis file_type above_ground n f = Ok (Some a) /\
     Forall2 (fun x y => match x with Some v => exists w, y = Some w /\ (w * 1000 == v)%Q | None => y = None end) r a) /\
  (forall d, var_1d f "range" = None -> var_1d f "diameter" = Some d -> exists a, y_axis file_type above_ground n f = Ok (Some a) /\
     Forall2 (fun x y => match x with Some v => exists w, y = Some w /\ (w == v * 1000)%Q | None => y = None end) d a) /\
  (y_axis file_type above_ground n f = Ok None <-> var_1d f "range" = None /\ var_1d f "diameter" = None).
Proof.
  intros ft ag n f N1 N2 H. apply String.eqb_neq in N1, N2. unfold y_axis. rewrite N1, N2, H.
  split; [|split].
  - intros r R. rewrite R. eexists. split; [reflexivity|]. clear. induction r as [|[v|] r IH]; cbn [map]; constructor; try exact IH; [|reflexivity]. cbn. eexists. split; [reflexivity|]. lra.
  - intros d R D. rewrite R, D. eexists. split; [reflexivity|]. clear. induction d as [|[v|] d IH]; cbn [map]; constructor; try exact IH; [|reflexivity]. cbn. eexists. split; [reflexivity|]. lra.
  - destruct (var_1d f "range") as [r|]; [split; [discriminate|intros [X _]; discriminate]|]. destruct (var_1d f "diameter") as [d|]; [split; [discriminate|intros [_ X]; discriminate]|]. split; auto.
Qed.
Print Assumptions C183_without_height.

Theorem C183_errors : forall file_type above_ground n f e, y_axis file_type above_ground n f = Raise e <->
  (e = KeyError /\ file_type = "cpr-simulation" /\
     (var_1d f "height_sat" = None \/ above_ground = true /\ var_1d f "altitude" = None)) \/
  (e = ValueError /\ file_type <> "cpr-simulation" /\ file_type <> "model" /\ above_ground = true /\
     var_1d f "height" <> None /\ var_1d f "altitude" = None).
Proof.
  intros ft ag n f e. unfold y_axis. destruct (String.eqb ft "cpr-simulation") eqn:E1.
  - apply String.eqb_eq in E1. split.
    + destruct (var_1d f "height_sat") as [h|]; [|intros H; left; split; [congruence|auto]]. destruct ag; [|discriminate]. destruct (var_1d f "altitude"); [discriminate|]. intros H. left. split; [congruence|auto].
    + intros [(-> & _ & [H|[-> H]])|(_ & N & _)]; [rewrite H; reflexivity| |contradiction]. rewrite H. destruct (var_1d f "height_sat"); reflexivity.
  - apply String.eqb_neq in E1. destruct (String.eqb ft "model") eqn:E2.
    + apply String.eqb_eq in E2. split; [discriminate|]. intros [(_ & X & _)|(_ & _ & X & _)]; contradiction.
    + apply String.eqb_neq in E2. split.
      * destruct (var_1d f "height") as [h|].
        -- destruct ag; [|discriminate]. destruct (var_1d f "altitude"); [discriminate|]. intros H. right. split; [congruence|]. repeat (split; [assumption || reflexivity || discriminate|]). reflexivity.
        -- destruct (var_1d f "range"); [discriminate|]. destruct (var_1d f "diameter"); discriminate.
      * intros [(_ & X & _)|(-> & _ & _ & -> & H & A)]; [contradiction|]. destruct (var_1d f "height"); [|congruence]. rewrite A. reflexivity.
Qed.
Print Assumptions C183_errors.

(** The label says that heights are above sea; a file with ranges only shows ranges
    under it, though the altitude of the site is known. *)
Theorem C183_label_refuted : exists file_type f r alt x, var_1d f "range" = Some [Some r] /\ var_1d f "altitude" = Some [Some alt] /\
  y_label false = "Height (km AMSL)" /\ y_axis file_type false 0 f = Ok (Some [Some x]) /\ (x * 1000 + 500 <= r + alt)%Q.
Proof.
  exists "radar", {| var_1d := fun k => if String.eqb k "range" then Some [Some 100%Q] else if String.eqb k "altitude" then Some [Some 500%Q] else None; model_height := []; ground := 0 |}, 100%Q, 500%Q.
  eexists. split; [reflexivity|]. split; [reflexivity|]. split; [reflexivity|]. split; [reflexivity|]. vm_compute. discriminate.
Qed.
Print Assumptions C183_label_refuted.

Definition c183_file : contents :=
  {| var_1d := fun k => if String.eqb k "height" then Some [Some 600; None]%Q else if String.eqb k "altitude" then Some [Some 100; None; Some 200]%Q else None;
     model_height := [[Some 10; None]; [Some 20; None]]%Q; ground := 30 |}.
Example C183_nonvacuous :
  is_median [100; 200]%Q 150 /\
  option_map (map (option_map Qred)) (match y_axis "radar" true 0 c183_file with Ok a => a | Raise _ => None end) = Some [Some (9 # 20)%Q; None] /\
  option_map (map (option_map Qred)) (match y_axis "model" false 2 c183_file with Ok a => a | Raise _ => None end) = Some [Some (9 # 200)%Q; None] /\
  gate_values 0 (fun _ => True) 0 (model_height c183_file) [10; 20]%Q.
Proof.
  split; [|split; [reflexivity|split; [reflexivity|exact (gate_column 0 (model_height c183_file) 0)]]].
  exists [100; 200]%Q, 100%Q, 200%Q. split; [apply Permutation_refl|]. split; [|repeat split].
  intros [|[|i]] [|[|j]] x y L X Y; cbn in X, Y; try lia; try (destruct i; discriminate); try (destruct j; discriminate);
    assert (Ex : x = _) by (symmetry; apply (f_equal (fun o => match o with Some q => q | None => 0%Q end) X)); assert (Ey : y = _) by (symmetry; apply (f_equal (fun o => match o with Some q => q | None => 0%Q end) Y)); cbn in Ex, Ey; subst; lra.
Qed.

(** ** C184: brightness temperatures *)

Definition shapes {A} (data : image A) (time : list Q) (pointing : option (list Z)) (zenith : option (list Q)) (f : image Z) : Prop :=
  length data = length time /\ length f = length time /\
  (forall fl, pointing = Some fl -> length fl = length time) /\ (forall an, zenith = Some an -> length an = length time).

Theorem C184_shown : forall raise_on_empty n data time pointing zenith vars f ind shown flagged,
  shapes data time pointing zenith f -> flags_of vars f -> (0 <= ind)%Z ->
  plot_tb raise_on_empty n data time pointing zenith vars ind = Done (shown, flagged) ->
  (ind < Z.of_nat n)%Z /\ length shown = length time /\
  (forall k v, nth_error shown k = Some (Some v) <-> pixel data k (Z.to_nat ind) = Some (Some v) /\ ~ off_zenith pointing zenith k) /\
  exists ks, StronglySorted lt ks /\
    (forall k, In k ks <-> ~ off_zenith pointing zenith k /\ exists v, pixel f k (Z.to_nat ind) = Some v /\ (0 < v)%Z) /\
    Forall2 (fun k p => nth_error time k = Some (fst p) /\ nth_error shown k = Some (snd p)) ks flagged.
Proof.
  intros re n data time pt zen vars f ind shown flagged (Ld & Lf & Lp & Lz) Fl P H. unfold plot_tb, column_index in H.
  destruct (Z.leb_spec (Z.of_nat n) ind) as [C|C]; [discriminate|]. destruct (Z.leb_spec 0 ind) as [_|X]; [|lia]. set (j := Z.to_nat ind) in *.
  destruct (all_masked (column data j) && re); [discriminate|]. destruct (bad_zenith (length time) pt zen) as [bad|e] eqn:B; [|discriminate].
  apply flags_iff in Fl. rewrite Fl in H. destruct (all_masked (mask_where bad (column data j)) && re); [discriminate|].
  assert (shown = mask_where bad (column data j)) by congruence. assert (flagged = points time (mask_where bad (column data j)) (and_not (flag_column f j) bad)) by congruence. subst shown flagged. clear H.
  destruct (bad_iff _ _ _ _ B Lp Lz) as [Lb Ib]. assert (Lc : length (column data j) = length time) by (unfold column; rewrite map_length; exact Ld).
  assert (Lfc : length (flag_column f j) = length time) by (unfold flag_column; rewrite map_length; exact Lf).
  assert (Bad : forall k, k < length time -> (nth_error bad k = Some false <-> ~ off_zenith pt zen k)).
  { intros k K. rewrite <- (Ib k K). destruct (nth_error bad k) as [[|]|] eqn:E; split; intros X; try congruence. apply nth_error_None in E. lia. }
  split; [exact C|]. split; [rewrite mask_where_length; exact Lc|]. split.
  - intros k v. rewrite mask_where_nth by lia. rewrite <- column_nth. split.
    + intros H. assert (K : k < length time). { destruct (Nat.lt_ge_cases k (length time)) as [K|K]; [exact K|]. rewrite (proj2 (nth_error_None bad k)) in H by lia. rewrite (proj2 (nth_error_None (column data j) k)) in H by lia. discriminate. }
      rewrite <- (Bad k K). destruct (nth_error bad k) as [[|]|] eqn:E; [discriminate|auto|]. apply nth_error_None in E. lia.
    + intros [H N]. assert (K : k < length time) by (apply nth_error_Some_lt in H; lia). apply Bad in N; [|exact K]. rewrite N. exact H.
  - exists (places 0 (and_not (flag_column f j) bad)). split; [apply places_sorted|]. split.
    + intros k. rewrite places_in, Nat.sub_0_r, and_not_nth by lia. rewrite flag_nth. split.
      * intros (_ & F & N). assert (K : k < length time) by (apply nth_error_Some_lt in N; lia). split; [apply Bad; assumption|exact F].
      * intros [N F]. split; [lia|]. split; [exact F|]. assert (K : k < length time). { destruct F as (v & F & _). unfold pixel in F. destruct (nth_error f k) eqn:E; [|discriminate]. apply nth_error_Some_lt in E. lia. } apply Bad; assumption.
    + apply points_places; [rewrite and_not_length by lia; lia|rewrite and_not_length by lia; rewrite mask_where_length; lia| |]; intros k; reflexivity.
Qed.
Print Assumptions C184_shown.

(** A channel of the data with something to show is drawn. *)
Theorem C184_accepted : forall raise_on_empty n data time pointing zenith vars f ind,
  shapes data time pointing zenith f -> flags_of vars f -> (0 <= ind < Z.of_nat n)%Z -> (pointing = None \/ zenith <> None) ->
  (raise_on_empty = false \/ exists k v, pixel data k (Z.to_nat ind) = Some (Some v) /\ ~ off_zenith pointing zenith k) ->
  exists shown flagged, plot_tb raise_on_empty n data time pointing zenith vars ind = Done (shown, flagged).
Proof.
  intros re n data time pt zen vars f ind (Ld & Lf & Lp & Lz) Fl P Z V. unfold plot_tb, column_index.
  destruct (Z.leb_spec (Z.of_nat n) ind) as [C|C]; [lia|]. destruct (Z.leb_spec 0 ind) as [_|X]; [|lia]. set (j := Z.to_nat ind) in *.
  assert (B : exists bad, bad_zenith (length time) pt zen = Ok bad). { unfold bad_zenith. destruct pt; [|eexists; reflexivity]. destruct zen; [eexists; reflexivity|]. destruct Z as [Z|Z]; congruence. }
  destruct B as (bad & B). rewrite B. apply flags_iff in Fl. rewrite Fl. destruct V as [->|(k & v & V & N)].
  - rewrite !andb_false_r. eexists. eexists. reflexivity.
  - destruct (bad_iff _ _ _ _ B Lp Lz) as [Lb Ib]. apply column_nth in V. assert (Lc : length (column data j) = length time) by (unfold column; rewrite map_length; exact Ld).
    assert (K : k < length time) by (apply nth_error_Some_lt in V; lia).
    rewrite (proj2 (all_masked_iff (column data j))) by (exists k, v; exact V). cbn [andb].
    assert (S : nth_error (mask_where bad (column data j)) k = Some (Some v)). { rewrite mask_where_nth by lia. destruct (nth_error bad k) as [[|]|] eqn:E; try exact V. exfalso. apply N, Ib; assumption. }
    rewrite (proj2 (all_masked_iff (mask_where bad (column data j)))) by (exists k, v; exact S). cbn [andb]. eexists. eexists. reflexivity.
Qed.
Print Assumptions C184_accepted.

(** No such channel, or an empty figure that is not wanted. *)
Theorem C184_plotting_error : forall raise_on_empty n data time pointing zenith vars f ind,
  shapes data time pointing zenith f -> flags_of vars f -> (0 <= ind)%Z -> (pointing = None \/ zenith <> None) ->
  (plot_tb raise_on_empty n data time pointing zenith vars ind = PlottingError <->
   (Z.of_nat n <= ind)%Z \/
   (raise_on_empty = true /\ forall k v, pixel data k (Z.to_nat ind) = Some (Some v) -> off_zenith pointing zenith k)).
Proof.
  intros re n data time pt zen vars f ind Sh Fl P Z. split.
  - intros H. destruct (Z.lt_ge_cases ind (Z.of_nat n)) as [C|C]; [|left; exact C]. right.
    assert (E : forall k v, pixel data k (Z.to_nat ind) = Some (Some v) -> re = true -> off_zenith pt zen k).
    { intros k v V Re. destruct Sh as (Ld & Lf & Lp & Lz). assert (B : exists bad, bad_zenith (length time) pt zen = Ok bad). { unfold bad_zenith. destruct pt; [|eexists; reflexivity]. destruct zen; [eexists; reflexivity|]. destruct Z as [Z|Z]; congruence. }
      destruct B as (bad & B). destruct (bad_iff _ _ _ _ B Lp Lz) as [Lb Ib]. assert (K : k < length time). { unfold pixel in V. destruct (nth_error data k) eqn:X; [|discriminate]. apply nth_error_Some_lt in X. lia. }
      apply Ib; [exact K|]. destruct (nth_error bad k) as [[|]|] eqn:X; [reflexivity| |apply nth_error_None in X; lia]. exfalso.
      assert (N : ~ off_zenith pt zen k) by (rewrite <- (Ib k K); congruence).
      destruct (C184_accepted re n data time pt zen vars f ind) as (s & fl & D); [repeat split; assumption|exact Fl|lia|exact Z|right; exists k, v; split; assumption|]. congruence. }
    destruct re; [split; [reflexivity|intros k v V; exact (E k v V eq_refl)]|]. exfalso.
    destruct (C184_accepted false n data time pt zen vars f ind) as (s & fl & D); [exact Sh|exact Fl|lia|exact Z|left; reflexivity|]. congruence.
  - intros [C|[-> V]].
    + unfold plot_tb, column_index. destruct (Z.leb_spec (Z.of_nat n) ind); [reflexivity|lia].
    + destruct (plot_tb true n data time pt zen vars ind) as [[s fl]| |e] eqn:D; [|reflexivity|].
      * exfalso. pose proof (C184_shown _ _ _ _ _ _ _ _ _ _ _ Sh Fl P D) as (_ & _ & Sw & _).
        unfold plot_tb in D. destruct (column_index n ind) as [j| |e]; try discriminate. destruct (all_masked (column data j) && true); [discriminate|]. destruct (bad_zenith (length time) pt zen) as [bad|e]; [|discriminate].
        destruct (read_flags vars) as [f'|]; [|discriminate]. destruct (all_masked (mask_where bad (column data j))) eqn:A; [discriminate|]. cbn [andb] in D. assert (s = mask_where bad (column data j)) by congruence. subst s.
        apply all_masked_iff in A as (k & v & A). apply Sw in A as [A N]. exact (N (V k v A)).
      * exfalso. unfold plot_tb, column_index in D. destruct (Z.of_nat n <=? ind)%Z; [discriminate|]. destruct (Z.leb_spec 0 ind) as [_|X]; [|lia]. destruct (all_masked (column data (Z.to_nat ind)) && true); [discriminate|].
        destruct (bad_zenith (length time) pt zen) as [bad|e'] eqn:B.
        -- apply flags_iff in Fl. rewrite Fl in D. destruct (all_masked (mask_where bad (column data (Z.to_nat ind))) && true); discriminate.
        -- unfold bad_zenith in B. destruct pt; [|discriminate]. destruct zen; [discriminate|]. destruct Z; congruence.
Qed.
Print Assumptions C184_plotting_error.

(** Files without any quality flag cannot be drawn. *)
Theorem C184_no_flags_refuted : exists data time, length data = length time /\ pixel data 0 0 = Some (Some 250%Q) /\
  plot_tb true 1 data time None None (fun _ => None) 0 = Other IndexError.
Proof. exists [[Some 250%Q]], [0%Q]. repeat split. Qed.
Print Assumptions C184_no_flags_refuted.

(** A channel that the data do not have is PlottingError: a negative number shows
    another channel instead, with the wrong number in the title, or is IndexError. *)
Theorem C184_negative_refuted : exists data time vars shown,
  plot_tb true 3 data time None None vars (-1) = Done (shown, []) /\ nth_error shown 0 = pixel data 0 2 /\
  channel_in_title "tb" (Some (-1)%Z) = Some 0%Z /\
  plot_tb true 3 data time None None vars (-4) = Other IndexError.
Proof.
  exists [[Some 250; Some 251; Some 252]]%Q, [0%Q], (fun k => if String.eqb k "quality_flag" then Some [[0; 0; 0]%Z] else None). eexists.
  split; [reflexivity|]. repeat split.
Qed.
Print Assumptions C184_negative_refuted.

Definition c184_vars (k : string) : option (image Z) := if String.eqb k "quality_flag" then Some [[0; 1]; [0; 2]; [1; 1]; [0; 0]]%Z else None.
Definition c184_data : image (masked Q) := [[Some 1; Some 11]; [Some 2; Some 12]; [Some 3; None]; [None; Some 14]]%Q.
Example C184_nonvacuous :
  shapes c184_data [0; 1; 2; 3]%Q (Some [0; 1; 0; 0]%Z) (Some [0; 0; -4; 6]%Q) [[0; 1]; [0; 2]; [1; 1]; [0; 0]]%Z /\
  flags_of c184_vars [[0; 1]; [0; 2]; [1; 1]; [0; 0]]%Z /\
  plot_tb true 2 c184_data [0; 1; 2; 3]%Q (Some [0; 1; 0; 0]%Z) (Some [0; 0; -4; 6]%Q) c184_vars 1 =
    Done ([Some 11; None; None; None]%Q, [(0, Some 11); (2, None)]%Q).
Proof.
  split; [|split; [apply flags_iff; reflexivity|reflexivity]]. split; [reflexivity|]. split; [reflexivity|].
  split; [intros fl E; assert (fl = [0; 1; 0; 0]%Z) by congruence; subst; reflexivity|intros an E; assert (an = [0; 0; -4; 6]%Q) by congruence; subst; reflexivity].
Qed.

(** ** C185: units in figures *)

Theorem C185_values : forall name data, 
  Forall2 (fun x y => match x with Some v => exists w, y = Some w /\ displayed name v w | None => y = None end) data (convert_units name data).
Proof.
  intros name data. assert (D : forall x, displayed name x (let (m, c) := conversion_of name conversions in if m then x * c else x + c)%Q) by (intros x; apply conversion_iff; reflexivity).
  unfold convert_units. destruct (conversion_of name conversions) as [m c]. induction data as [|[v|] data IH]; cbn [map]; constructor; try exact IH; [|reflexivity]. cbn. eexists. split; [reflexivity|apply D].
Qed.
Print Assumptions C185_values.

(** The shown value is determined, and larger values are shown as larger. *)
Theorem C185_order : forall name x x' y y', displayed name x y -> displayed name x' y' -> ((x < x')%Q <-> (y < y')%Q).
Proof.
  intros name x x' y y' A B. apply conversion_iff in A, B. assert (P : forall l, Forall (fun e => fst (snd e) = true -> (0 < snd (snd e))%Q) l -> (fst (conversion_of name l) = true -> 0 < snd (conversion_of name l))%Q).
  { induction l as [|[k v] l IH]; intros F; cbn [conversion_of]; [intros _; reflexivity|]. inversion F; subst. destruct (String.eqb name k); [assumption|apply IH; assumption]. }
  assert (Q : (fst (conversion_of name conversions) = true -> 0 < snd (conversion_of name conversions))%Q) by (apply P; repeat constructor; cbn; intros E; discriminate).
  destruct (conversion_of name conversions) as [[|] c]; cbn [fst snd] in Q; rewrite A, B.
  - specialize (Q eq_refl). split; [intros L; apply Qmult_lt_compat_r; assumption|]. intros L. apply Qmult_lt_r in L; assumption.
  - split; intros L; lra.
Qed.
Print Assumptions C185_order.

(** Units: every exponent behind a letter is marked as a whole, nothing else is
    changed. *)
Theorem C185_marked : forall units text, units <> "1" -> (reformat_units units = text <-> marked units text).
Proof. intros u t N. unfold reformat_units. apply String.eqb_neq in N. rewrite N. apply superscript_marked. lia. Qed.
Print Assumptions C185_marked.

Theorem C185_unmarked : forall units, units <> "1" -> without "$" units -> unmarked (reformat_units units) units.
Proof. intros u N W. unfold reformat_units. apply String.eqb_neq in N. rewrite N. apply superscript_unmarked; [lia|exact W]. Qed.
Print Assumptions C185_unmarked.

Theorem C185_all_marked : forall units, no_exponent (reformat_units units).
Proof. intros u. unfold reformat_units. destruct (String.eqb u "1"); [apply no_exponent_nil|apply superscript_plain; lia]. Qed.
Print Assumptions C185_all_marked.

Theorem C185_unchanged : forall units, (reformat_units units = units <-> units <> "1" /\ no_exponent units) /\
  (units = "1" <-> reformat_units units = "" /\ units <> "").
Proof.
  intros u. unfold reformat_units. destruct (String.eqb u "1") eqn:E.
  - apply String.eqb_eq in E. subst u. split; split; try discriminate; try (intros [X _]; congruence); auto. intros _. split; [reflexivity|discriminate].
  - apply String.eqb_neq in E. split; split.
    + intros H. split; [exact E|]. rewrite <- H. apply superscript_plain. lia.
    + intros [_ H]. apply superscript_same, H.
    + intros X. contradiction.
    + intros [H N]. exfalso. destruct u as [|c u]; [congruence|]. destruct (superscript_head (String.length (String c u)) (String c u)) as (r & X). congruence.
Qed.
Print Assumptions C185_unchanged.

Example C185_nonvacuous :
  reformat_units "m2 s-1" = "m$^{2}$ s$^{-1}$" /\ without "$" "m2 s-1" /\ ~ no_exponent "m2 s-1" /\ no_exponent "dB" /\
  displayed "rainfall_rate" (1 # 3600000) 1 /\ displayed "temperature" (27415 # 100) 1 /\ displayed "Z" 5 5.
Proof.
  split; [reflexivity|]. split; [repeat (apply without_cons; split; [discriminate|]); intros (a & b & E); destruct a; discriminate|].
  split; [intros H; apply (H "" "m"%char "2 s-1" eq_refl); [right; cbn; lia|left; exists "2"%char, " s-1"; split; [reflexivity|unfold figure_0_9; cbn; lia]]|].
  split; [apply (C185_unchanged "dB"); reflexivity|]. repeat split; apply conversion_iff; reflexivity.
Qed.
