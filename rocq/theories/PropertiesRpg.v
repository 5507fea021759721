(** Properties of the files of RPG cloud radars (C110 to C113). *)
From Verif Require Import Base GridModel GridSpec TimeModel TimeSpec OutputModel InstrumentModel InstrumentSpec DropletSpec FreezeProofs RadarModel RpgModel RpgSpec RpgProofs.
From Coq Require Import Qabs Qround String Lqa.
Open Scope string_scope.
Open Scope nat_scope.
Open Scope list_scope.
Local Notation length := List.length (only parsing).
Local Notation dict := OutputModel.dict (only parsing).

(** ** C110: files of the day *)
(** Exactly the files that can be read and whose time stamps are all on the day are
    used, in their order; without any the product is not made. *)
Theorem C110_files : forall epoch expected files, readable files ->
  exists used, picked (of_day epoch expected) files used /\
    (used = [] -> day_record epoch expected files = Raise ValidTimeStampError) /\
    forall r names, day_record epoch expected files = Ok (r, names) -> used <> [] /\ names = map fst used.
Proof.
  intros epoch expected files R. destruct (read_files_spec epoch expected files R) as (used & E & P). exists used. split; [exact P|]. split.
  - intros ->. unfold day_record. rewrite E. reflexivity.
  - intros r names D. destruct (day_record_inv _ _ _ _ _ R D) as (used' & target & n_max & objs & P' & Ne & En & _).
    assert (used' = used) by apply (picked_fun _ _ _ _ P' P). subst used'. split; assumption.
Qed.
(** A variable with one value per profile has the values of all files one after the
    other; only missing temperatures and pressures are hidden. *)
Theorem C110_series : forall epoch expected files r names used k es, readable files ->
  day_record epoch expected files = Ok (r, names) -> picked (of_day epoch expected) files used -> Forall well_named (map snd used) ->
  ~ internal k -> Forall2 (series k) (map snd used) es ->
  exists l, lookup k r = Some (RData (D1 l)) /\
    Forall2 (hides_if_missing k) (List.concat es) l.
Proof.
  intros epoch expected files r names used k es R D U W K S. rewrite (record_series _ _ _ _ _ _ R D U W k es K S).
  destruct (_ || _)%bool eqn:E; (eexists; split; [reflexivity|]).
  - generalize (List.concat es) as l. induction l as [|e l IH]; [apply Forall2_nil|apply Forall2_cons; [|exact IH]].
    destruct (mask_entry_hides e) as (H1 & H2). split; [exact H1|]. rewrite H2. apply orb_true_iff in E. rewrite !String.eqb_eq in E.
    split; intros [X|X]; [left; exact X|right; split; assumption|left; exact X|right; apply X].
  - generalize (List.concat es) as l. induction l as [|e l IH]; [apply Forall2_nil|apply Forall2_cons; [|exact IH]].
    split; [reflexivity|]. apply orb_false_iff in E. destruct E as (E1 & E2). rewrite String.eqb_neq in E1, E2.
    split; [intros X; left; exact X|intros [X|([X|X] & _)]; [exact X|contradiction|contradiction]].
Qed.
(** A number or text of the header is repeated for each profile of its file. *)
Theorem C110_header : forall epoch expected files r names used k vs ts, readable files ->
  day_record epoch expected files = Ok (r, names) -> picked (of_day epoch expected) files used -> Forall well_named (map snd used) ->
  ~ internal k -> k <> "range" -> k <> "chirp_start_indices" -> ~ In k fixed_names ->
  Forall2 (fun f v => lookup k (f_header f) = Some v /\ plain_value v) (map snd used) vs -> Forall2 stamps (map snd used) ts ->
  lookup k r = Some (RHead (PerTime (for_each_profile vs ts))).
Proof.
  intros epoch expected files r names used k vs ts R D U W K K1 K2 K3 V T.
  destruct (header_values _ _ _ _ _ _ R D U W k vs ts K K1 K2 V T) as (_ & _ & _ & _ & S). unfold settle in S.
  destruct (existsb (String.eqb k) constant_keys) eqn:E; [exfalso; apply K3, fixed_constant, E|]. exact S.
Qed.
(** Properties of the instrument are the same in all files and have one value; the
    name of the customer does not get out. *)
Theorem C110_constant : forall epoch expected files r names used k vs ts, readable files ->
  day_record epoch expected files = Ok (r, names) -> picked (of_day epoch expected) files used -> Forall well_named (map snd used) ->
  In k fixed_names ->
  Forall2 (fun f v => lookup k (f_header f) = Some v /\ plain_value v) (map snd used) vs -> Forall2 stamps (map snd used) ts ->
  exists a, (forall i v t, nth_error vs i = Some v -> nth_error ts i = Some t -> t <> [] -> same_value a v) /\
    lookup k r = if (k =? "customer_name")%string then None else Some (RConst a).
Proof.
  intros epoch expected files r names used k vs ts R D U W K V T.
  assert (K0 : ~ internal k). { intros (s & ->). cbn in K. repeat (destruct K as [K|K]; [discriminate|]). exact K. }
  assert (K1 : k <> "range"). { intros ->. cbn in K. repeat (destruct K as [K|K]; [discriminate|]). exact K. }
  assert (K2 : k <> "chirp_start_indices"). { intros ->. cbn in K. repeat (destruct K as [K|K]; [discriminate|]). exact K. }
  destruct (header_values _ _ _ _ _ _ R D U W k vs ts K0 K1 K2 V T) as (_ & _ & _ & _ & S).
  assert (Pv : Forall plain_value vs). { clear - V. induction V as [|? ? ? ? (_ & P) V IH]; constructor; assumption. }
  pose proof (settle_fixed k vs ts K Pv) as F. destruct (settle (k, PerTime (for_each_profile vs ts))) as [o|]; [|contradiction].
  destruct F as (a & A & F1 & F2). exists a. split; [exact A|]. destruct (String.eqb_spec k "customer_name") as [E|E].
  - rewrite (F2 E) in S. exact S.
  - rewrite (F1 E) in S. exact S.
Qed.
(** Files of different instruments are refused. *)
Theorem C110_differ : forall epoch expected files used k vs ts i j v w t u, readable files ->
  picked (of_day epoch expected) files used -> Forall well_named (map snd used) -> In k fixed_names ->
  Forall2 (fun f v => lookup k (f_header f) = Some v /\ plain_value v) (map snd used) vs -> Forall2 stamps (map snd used) ts ->
  nth_error vs i = Some v -> nth_error vs j = Some w -> nth_error ts i = Some t -> nth_error ts j = Some u -> t <> [] -> u <> [] ->
  ~ same_value v w -> exists e, day_record epoch expected files = Raise e.
Proof.
  intros epoch expected files used k vs ts i j v w t u R U W K V T V1 V2 T1 T2 N1 N2 Ns.
  destruct (day_record epoch expected files) as [[r names]|e] eqn:D; [|exists e; reflexivity]. exfalso.
  destruct (C110_constant _ _ _ _ _ _ k vs ts R D U W K V T) as (a & A & _). apply Ns.
  apply (same_value_trans _ a); [apply same_value_sym|]; eapply A; eassumption.
Qed.

(** Two files of one day, the second with more and higher gates. *)
Definition ex_file (t : Q) (gates : list Q) (starts nyq : list Q) (extra : dict dval) : rpg_file :=
  {| f_header := [("range", HVec (map Some gates)); ("chirp_start_indices", HVec (map Some starts));
                  ("nyquist_velocity", HVec (map Some nyq)); ("radar_frequency", HNum 94); ("customer_name", HStr "me")];
     f_data := ("time", D1 [(t, false); (t + 5, false)%Q]) ::
               ("Zh", D2 (length gates) [map (fun h => ((h / 100)%Q, false)) gates; map (fun h => ((h / 50)%Q, false)) gates]) :: extra |}.
Definition ex_a := ex_file 100 [100; 200; 300; 350]%Q [0; 2]%Q [8; 4]%Q [("wind_speed", D1 [(3%Q, false); (4%Q, false)])].
Definition ex_b := ex_file 200 [110; 210; 310; 410]%Q [0; 1; 3]%Q [9; 6; 3]%Q [].
Definition ex_c := ex_file 200 [110; 210; 310; 410]%Q [0; 1; 3]%Q [9; 6; 3]%Q [("wind_speed", D1 [((-999)%Q, false); (6%Q, false)])].
Definition ex_files (l : list rpg_file) : list (string * result rpg_file) :=
  ("broken", Raise ValueError) :: map (fun f => ("file", Ok f)) l.
(** A variable that a file does not have: the values of the other files are put
    together, and belong to other profiles than their positions say. *)
Theorem C110_missing_refuted : exists files r names time wind,
  readable files /\ day_record 978307200000000 (Some 11323%Z) files = Ok (r, names) /\
  lookup "time" r = Some (RData (D1 time)) /\ lookup "wind_speed" r = Some (RData (D1 wind)) /\ length wind <> length time.
Proof.
  exists (ex_files [ex_a; ex_b]). eexists. eexists. eexists. eexists. split.
  { intros name x [E|[E|[E|[]]]]; (assert (x = _) by (symmetry; exact (f_equal snd E))); subst x; cbn [snd].
    - right; left; reflexivity.
    - eexists. eexists. split; reflexivity.
    - eexists. eexists. split; reflexivity. }
  split; [vm_compute; reflexivity|]. split; [reflexivity|]. split; [reflexivity|]. cbn. discriminate.
Qed.

Print Assumptions C110_files.
Print Assumptions C110_series.
Print Assumptions C110_header.
Print Assumptions C110_constant.
Print Assumptions C110_differ.
Print Assumptions C110_missing_refuted.
Lemma ex_readable l : Forall (fun f => exists t, stamps f t) l -> readable (ex_files l).
Proof.
  intros F name x [E|I].
  - assert (x = Raise ValueError) by congruence. subst x. right; left; reflexivity.
  - apply in_map_iff in I. destruct I as (f & E & I). rewrite Forall_forall in F. destruct (F f I) as (t & T). assert (x = Ok f) by congruence. subst x. exists t. exact T.
Qed.
Lemma ex_stamps t g s n e : stamps (ex_file t g s n e) [t; (t + 5)%Q].
Proof. eexists. split; reflexivity. Qed.
Lemma ex_named t g s n e : (e = [] \/ exists v, e = [("wind_speed", v)]) -> well_named (ex_file t g s n e).
Proof.
  intros He. destruct He as [->|(v & ->)].
  all: split; [|split].
  all: try (cbn [f_data f_header ex_file map fst]; repeat (constructor; [cbn; intros X; repeat (destruct X as [X|X]; [discriminate|]); exact X|]); constructor).
  all: intros k I J; cbn in I, J; repeat (destruct I as [<-|I]; [repeat (destruct J as [J|J]; [discriminate|]); exact J|]); exact I.
Qed.
(** Two files of the second of January 2001 make a record of four profiles. *)
Example C110_nonvacuous : readable (ex_files [ex_a; ex_c]) /\
  picked (of_day 978307200000000 (Some 11323%Z)) (ex_files [ex_a; ex_c]) [("file", ex_a); ("file", ex_c)] /\
  Forall well_named [ex_a; ex_c] /\
  match day_record 978307200000000 (Some 11323%Z) (ex_files [ex_a; ex_c]) with
  | Ok (r, names) => names = ["file"; "file"] /\
      lookup "time" r = Some (RData (D1 [(100%Q, false); ((100 + 5)%Q, false); (200%Q, false); ((200 + 5)%Q, false)])) /\
      lookup "radar_frequency" r = Some (RConst (HNum 94)) /\ lookup "customer_name" r = None
  | Raise _ => False
  end.
Proof.
  split; [apply ex_readable; constructor; [eexists; apply ex_stamps|constructor; [eexists; apply ex_stamps|constructor]]|].
  split.
  { apply picked_skip; [intros f E; discriminate|]. apply picked_take; [|apply picked_take; [|apply picked_none]]; eexists; (split; [apply ex_stamps|]).
    - constructor; [|constructor; [|constructor]]; (apply TimeProofs.day_of_iff; vm_compute; reflexivity).
    - constructor; [|constructor; [|constructor]]; (apply TimeProofs.day_of_iff; vm_compute; reflexivity). }
  split; [constructor; [apply ex_named; right; eexists; reflexivity|constructor; [apply ex_named; right; eexists; reflexivity|constructor]]|].
  vm_compute. repeat split.
Qed.

(** ** C111: common heights *)
(** The heights of the record are those of a file that reaches highest. *)
Theorem C111_target : forall epoch expected files r names used n ls, readable files ->
  day_record epoch expected files = Ok (r, names) -> picked (of_day epoch expected) files used -> Forall well_named (map snd used) ->
  Forall2 laid_out (map snd used) ls -> Forall (sound_layout n) ls ->
  exists rng, lookup "range" r = Some (RHead (Plain (map Some rng))) /\
    (exists a, In a ls /\ Forall2 Qeq (l_gates a) rng) /\
    (forall a t u, In a ls -> highest_gate (l_gates a) u -> highest_gate rng t -> (u <= t)%Q).
Proof. intros epoch expected files r names used n ls R D U W LO SL. exact (layout_range _ _ _ _ _ _ R D U W n ls LO SL). Qed.
(** Every value comes from the nearest gate of its own profile, and nothing is made up
    outside the range of the file. *)
Theorem C111_fields : forall epoch expected files r names used n k ps rng, readable files ->
  day_record epoch expected files = Ok (r, names) -> picked (of_day epoch expected) files used -> Forall well_named (map snd used) ->
  Forall (sound_layout n) (map fst ps) -> ~ internal k -> lookup "range" r = Some (RHead (Plain (map Some rng))) ->
  Forall2 (fun f (p : layout * image entry) => laid_out f (fst p) /\ field k f (length (l_gates (fst p))) (snd p) /\
     Forall (fun row => length row = length (l_gates (fst p))) (snd p)) (map snd used) ps ->
  exists outs, lookup k r = Some (RData (D2 (length rng) (List.concat outs))) /\
    Forall2 (fun (p : layout * image entry) out => resampled (l_gates (fst p)) rng (snd p) out) ps outs.
Proof.
  intros epoch expected files r names used n k ps rng R D U W S K L F.
  assert (Ep : combine (map fst ps) (map snd ps) = ps). { clear. induction ps as [|[a b] ps IH]; [reflexivity|]. cbn. rewrite IH. reflexivity. }
  rewrite <- Ep. apply (layout_fields _ _ _ _ _ _ R D U W n (map fst ps)); [|exact S|exact K|exact L| |rewrite !map_length; reflexivity].
  - clear - F. induction F as [|f p fs ps (A & _) F IH]; [apply Forall2_nil|apply Forall2_cons; assumption].
  - rewrite Ep. clear - F. induction F as [|f p fs ps (_ & A) F IH]; [apply Forall2_nil|apply Forall2_cons; assumption].
Qed.
(** Every gate of every profile gets the maximum velocity of its chirp, where the
    chirps begin at the gates nearest to where they began in the file.  Missing: days
    with a single chirp in all files, see below; the claim is the same without the last
    hypothesis. *)
Theorem C111_chirps_partial : forall epoch expected files r names used n ls rng, readable files ->
  day_record epoch expected files = Ok (r, names) -> picked (of_day epoch expected) files used -> Forall well_named (map snd used) ->
  Forall2 laid_out (map snd used) ls -> Forall (sound_layout n) ls -> lookup "range" r = Some (RHead (Plain (map Some rng))) ->
  Exists (fun a => 2 <= length (l_starts a)) ls ->
  exists outs, record_nyquist r = Ok (List.concat outs) /\ Forall2 (chirp_speeds rng) ls outs.
Proof.
  intros epoch expected files r names used n ls rng R D U W LO SL Hr N2.
  exact (layout_speeds _ _ _ _ _ _ R D U W n ls LO SL rng Hr N2).
Qed.
(** A radar with a single chirp is not accepted. *)
Definition ex_single := ex_file 100 [100; 200; 300; 350]%Q [0]%Q [8]%Q [].
Theorem C111_single_chirp_refuted : exists files r names,
  readable files /\ day_record 978307200000000 (Some 11323%Z) files = Ok (r, names) /\
  (exists a, laid_out ex_single a /\ sound_layout 2 a /\ files = [("file", Ok ex_single)]) /\
  record_nyquist r = Raise AttributeError.
Proof.
  exists [("file", Ok ex_single)]. eexists. eexists. split.
  { intros name x [E|[]]. assert (x = Ok ex_single) by congruence. subst x. eexists. apply ex_stamps. }
  split; [vm_compute; reflexivity|]. split; [|vm_compute; reflexivity].
  exists {| l_gates := [100; 200; 300; 350]%Q; l_starts := [0]; l_speeds := [8%Q]; l_times := [100; 100 + 5]%Q |}.
  split; [split; [reflexivity|split; [split; [reflexivity|split; reflexivity]|apply ex_stamps]]|]. split; [|reflexivity].
  split; [|split].
  - repeat (constructor; [|repeat (constructor; [reflexivity|]); constructor]). constructor.
  - split; [exists []; reflexivity|]. split; [repeat constructor|]. constructor; [cbn; lia|constructor].
  - cbn. lia.
Qed.
Print Assumptions C111_target.
Print Assumptions C111_fields.
Print Assumptions C111_chirps_partial.
Print Assumptions C111_single_chirp_refuted.
Definition ex_la := {| l_gates := [100; 200; 300; 350]%Q; l_starts := [0; 2]; l_speeds := [8; 4]%Q; l_times := [100; 100 + 5]%Q |}.
Definition ex_lc := {| l_gates := [110; 210; 310; 410]%Q; l_starts := [0; 1; 3]; l_speeds := [9; 6; 3]%Q; l_times := [200; 200 + 5]%Q |}.
(** The first file is moved to the gates of the second one. *)
Example C111_nonvacuous : laid_out ex_a ex_la /\ laid_out ex_c ex_lc /\ sound_layout 4 ex_la /\ sound_layout 4 ex_lc /\
  match day_record 978307200000000 (Some 11323%Z) (ex_files [ex_a; ex_c]) with
  | Ok (r, _) =>
      lookup "range" r = Some (RHead (Plain (map Some [110; 210; 310; 410]%Q))) /\
      record_nyquist r = Ok [[8; 8; 4; 4]; [8; 8; 4; 4]; [9; 6; 6; 3]; [9; 6; 6; 3]]%Q /\
      match lookup "Zh" r with
      | Some (RData (D2 4 rows)) => map (map snd) rows = [[false; false; false; true]; [false; false; false; true];
          [false; false; false; false]; [false; false; false; false]]
      | _ => False
      end
  | Raise _ => False
  end.
Proof.
  split; [split; [reflexivity|split; [split; [reflexivity|split; reflexivity]|apply ex_stamps]]|].
  split; [split; [reflexivity|split; [split; [reflexivity|split; reflexivity]|apply ex_stamps]]|].
  assert (Sq : forall l, (fix go (l : list Q) := match l with a :: (b :: _) as r => qlt a b && go r | _ => true end)%bool l = true -> StronglySorted Qlt l).
  { intros l H. apply Sorted_StronglySorted; [intros x y z; apply Qlt_trans|]. induction l as [|a l IH]; [constructor|].
    destruct l as [|b l]; [constructor; constructor|]. apply andb_true_iff in H. destruct H as (H1 & H2). constructor; [apply IH, H2|]. constructor. apply GridProofs.qlt_iff, H1. }
  split; [split; [apply Sq; reflexivity|split; [|cbn; lia]]|].
  { split; [exists [2]; reflexivity|]. split; [repeat (constructor; [|repeat (constructor; [unfold Nat.le; lia|]); constructor]); constructor|].
    repeat (constructor; [cbn; lia|]). constructor. }
  split; [split; [apply Sq; reflexivity|split; [|cbn; lia]]|].
  { split; [exists [1; 3]; reflexivity|]. split; [repeat (constructor; [|repeat (constructor; [unfold Nat.le; lia|]); constructor]); constructor|].
    repeat (constructor; [cbn; lia|]). constructor. }
  vm_compute. repeat split.
Qed.

(** ** C112: what is hidden *)
(** Exactly the missing values are hidden, the depolarisation ratios in the noise, and
    the moments of spectra narrower than 0.005 m/s. *)
Theorem C112_exact : forall d k img w, lookup k d = Some img -> lookup "width" d = Some w ->
  exists out img', screen_fields d = Ok out /\ lookup k out = Some img' /\
    forall i j e u, pixel img i j = Some e -> pixel w i j = Some u ->
      exists e', pixel img' i j = Some e' /\
        hides_if (missing (fst e) \/ no_depolarisation k (fst e) \/ (spectral k /\ (fst u < 5 # 1000)%Q)) e e'.
Proof. exact screen_fields_spec. Qed.
Theorem C112_no_width : forall d, lookup "width" d = None -> screen_fields d = Raise KeyError.
Proof. exact screen_fields_no_width. Qed.
(** A good measurement of zero velocity is hidden. *)
Theorem C112_zero_velocity_refuted : exists d out z v w,
  screen_fields d = Ok out /\ lookup "v" d = Some [[(0%Q, false)]] /\
  lookup "Zh" out = Some [[(z, false)]] /\ lookup "width" out = Some [[(w, false)]] /\ lookup "v" out = Some [[(v, true)]].
Proof.
  exists [("Zh", [[(1%Q, false)]]); ("v", [[(0%Q, false)]]); ("width", [[(1 # 10, false)]])]. repeat eexists; vm_compute; reflexivity.
Qed.
(** So is a reflectivity fifty times the value that marks missing data. *)
Theorem C112_tolerance_refuted : exists d out x,
  screen_fields d = Ok out /\ (x == 50 * (1 # 10000000000))%Q /\ lookup "Zh" d = Some [[(x, false)]] /\ lookup "Zh" out = Some [[(x, true)]].
Proof.
  exists [("Zh", [[(50 # 10000000000, false)]]); ("width", [[(1 # 10, false)]])]. eexists. exists (50 # 10000000000).
  split; [vm_compute; reflexivity|]. split; [reflexivity|]. split; reflexivity.
Qed.
(** Missing values of variables with one value per profile are not hidden. *)
Theorem C112_series_refuted : exists files r names l,
  readable files /\ day_record 978307200000000 (Some 11323%Z) files = Ok (r, names) /\
  lookup "wind_speed" r = Some (RData (D1 l)) /\ In ((-999)%Q, false) l.
Proof.
  exists (ex_files [ex_a; ex_c]). eexists. eexists. eexists.
  split; [apply ex_readable; constructor; [eexists; apply ex_stamps|constructor; [eexists; apply ex_stamps|constructor]]|].
  split; [vm_compute; reflexivity|]. split; [reflexivity|]. right; right; left. reflexivity.
Qed.
Print Assumptions C112_exact.
Print Assumptions C112_no_width.
Print Assumptions C112_zero_velocity_refuted.
Print Assumptions C112_tolerance_refuted.
Print Assumptions C112_series_refuted.
Example C112_nonvacuous :
  screen_fields [("Zh", [[(1%Q, false); (2%Q, false); ((-999)%Q, false)]]); ("ldr", [[((-36)%Q, false); ((-34)%Q, false); ((-20)%Q, false)]]);
                 ("width", [[(1 # 10, false); (1 # 1000, false); (1 # 10, false)]])] =
  Ok [("Zh", [[(1%Q, false); (2%Q, true); ((-999)%Q, true)]]); ("ldr", [[((-36)%Q, true); ((-34)%Q, true); ((-20)%Q, false)]]);
      ("width", [[(1 # 10, false); (1 # 1000, true); (1 # 10, false)]])].
Proof. vm_compute. reflexivity. Qed.

(** ** C113: zenith angle, units, instrument *)
(** The profiles kept are exactly those whose zenith angle agrees with the median of
    the angles close to zenith; without any the product is not made. *)
Theorem C113_zenith : forall elevation, exists near, near_angles (map (option_map (fun e => (90 - e)%Q)) elevation) near /\
  match zenith_profiles elevation with
  | Ok kept => kept <> [] /\ StronglySorted lt (map fst kept) /\ exists m, is_median near m /\
      forall i z, In (i, z) kept <-> exists e, nth_error elevation i = Some (Some e) /\ z = Some (90 - e)%Q /\ stable m (90 - e)
  | Raise e => e = ValidTimeStampError /\
      forall m i e, is_median near m -> nth_error elevation i = Some (Some e) -> ~ stable m (90 - e)
  end.
Proof. exact zenith_spec. Qed.
(** A radar that was half of the time at zenith and half at ten degrees loses all its
    profiles, also those at zenith. *)
Theorem C113_two_angles_refuted : exists elevation,
  (forall e, In e elevation -> e = Some 90%Q \/ e = Some 80%Q) /\ In (Some 90%Q) elevation /\
  zenith_profiles elevation = Raise ValidTimeStampError.
Proof.
  exists [Some 90; Some 90; Some 80; Some 80]%Q. split; [|split; [left; reflexivity|vm_compute; reflexivity]].
  intros e [<-|[<-|[<-|[<-|[]]]]]; auto.
Qed.
(** Variables are converted to SI units, the others stay as they are. *)
Theorem C113_units : forall d, (forall k c, si_unit k c -> lookup k d <> None) ->
  exists out, convert_units d = Ok out /\
    forall k l, lookup k d = Some l ->
      (forall c, si_unit k c -> exists l', lookup k out = Some l' /\ length l' = length l /\
         forall i, match nth_error l i, nth_error l' i with
                   | Some (Some x), Some (Some y) => (y == x * c)%Q
                   | Some None, Some None => True
                   | None, None => True
                   | _, _ => False
                   end) /\
      ((forall c, ~ si_unit k c) -> lookup k out = Some l).
Proof. exact convert_units_spec. Qed.
Theorem C113_units_missing : forall d k c, si_unit k c -> lookup k d = None -> convert_units d = Raise KeyError.
Proof. intros d k c S N. apply (convert_all_missing unit_factors d k); [apply unit_listed; exists c; exact S|exact N]. Qed.
(** The frequency decides the model of the radar. *)
Theorem C113_instrument : forall f, match rpg_model f with
  | Ok s => (s = "RPG-FMCW-35" /\ 35 - (1 # 10) <= f /\ f <= 35 + (1 # 10))%Q \/ (s = "RPG-FMCW-94" /\ 94 - (1 # 10) <= f /\ f <= 94 + (1 # 10))%Q
  | Raise e => e = RuntimeError /\ (~ (35 - (1 # 10) <= f /\ f <= 35 + (1 # 10)) /\ ~ (94 - (1 # 10) <= f /\ f <= 94 + (1 # 10)))%Q
  end.
Proof. exact rpg_model_spec. Qed.
Print Assumptions C113_zenith.
Print Assumptions C113_two_angles_refuted.
Print Assumptions C113_units.
Print Assumptions C113_units_missing.
Print Assumptions C113_instrument.
Example C113_nonvacuous :
  zenith_profiles [Some 90; Some (899 # 10); None; Some 45; Some 80; Some 90]%Q =
    Ok [(0, Some (90 - 90)%Q); (1, Some (90 - (899 # 10))%Q); (5, Some (90 - 90)%Q)] /\
  rpg_model (9405 # 100) = Ok "RPG-FMCW-94" /\ rpg_model 36 = Raise RuntimeError /\
  (exists out, convert_units (map (fun k => (k, [Some 36%Q; None])) ["rainfall_rate"; "lwp"; "relative_humidity"; "air_pressure"; "wind_speed"; "x"]) = Ok out /\
     match lookup "wind_speed" out with Some [Some x; None] => (x == 10)%Q | _ => False end).
Proof. split; [vm_compute; reflexivity|]. split; [vm_compute; reflexivity|]. split; [vm_compute; reflexivity|]. eexists. split; [reflexivity|]. vm_compute. reflexivity. Qed.
