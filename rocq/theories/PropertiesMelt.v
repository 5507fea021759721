(** Properties C80-C83: melting layer, its smoothing, freezing level, freezing
    region. *)
From Verif Require Import Base ArrayModel FillModel FillProofs TimeModel GridModel GridProofs ImageModel ImageProofs DropletModel DropletSpec DropletProofs
  MeltModel MeltSpec MeltProofs MeltImageProofs FreezeProofs.
From Coq Require Import Lqa Qabs String.
Open Scope nat_scope.
Open Scope list_scope.
Local Notation length := List.length (only parsing).

(** Equations between entries of literal lists. *)
Ltac literal H := let E := fresh "E" in
  assert (E := f_equal (fun o => match o with Some x => x | None => 0%Q end) H); cbn in E; subst.
Ltac gate k := destruct k as [|[|[|[|[|[|[|k]]]]]]].

(** ** C80: melting layer *)
(** The temperature range depends on the model only through its name. *)
Definition search_range (model : string) (cold warm : Q) : Prop :=
  (occurs_any_case "gdas1" model /\ cold = (- (8))%Q /\ warm = 6%Q) \/
  (~ occurs_any_case "gdas1" model /\ cold = (- (4))%Q /\ warm = 3%Q).
Lemma range_of model cold warm : search_range model cold warm -> find_model_temperature_range model = (cold, warm).
Proof. intros [(H & -> & ->)|(H & -> & ->)]; apply temperature_range_spec; exact H. Qed.

(** Exact, without smoothing, for images in which no two neighbouring velocities in
    the range are equal and, with depolarisation, the range ends below the top. *)
Theorem C80_exact : forall o cold warm w, well_formed o -> search_range (mo_model_type o) cold warm ->
  (forall i tw a b, nth_error (mo_tw o) i = Some tw -> spans (warm_between cold warm tw) a b -> a < b -> mo_ldr o <> None ->
     S b < length (mo_height o)) ->
  (forall i tw v a b, nth_error (mo_tw o) i = Some tw -> nth_error (mo_v o) i = Some v -> spans (warm_between cold warm tw) a b ->
     nonflat (within a b (nth_error (map data v)))) ->
  exists out, find_melting_layer w false o = Ok out /\ shaped (length (mo_tw o)) (length (mo_height o)) out /\
    forall i j, pixel out i j = Some true <-> layer_gate o cold warm i j.
Proof. intros o cold warm w W R. exact (find_melting_exact o cold warm W (range_of _ _ _ R) w). Qed.
(** A melting gate lies between two gates of the temperature range. *)
Theorem C80_within_range : forall o cold warm i j, layer_gate o cold warm i j ->
  exists tw a b, nth_error (mo_tw o) i = Some tw /\ warm_between cold warm tw a /\ warm_between cold warm tw b /\ a <= j <= b.
Proof.
  intros o cold warm i j (tw & z & v & ldr & width & Et & _ & _ & _ & _ & M). exists tw.
  destruct (melting_gate_range _ _ _ _ _ _ _ _ _ _ M) as (a & b & H). exists a, b. auto.
Qed.
(** At or below it, in the range, particles fall at more than 1.5 m/s. *)
Theorem C80_falling : forall o cold warm i j, layer_gate o cold warm i j ->
  exists tw v k x, nth_error (mo_tw o) i = Some tw /\ nth_error (mo_v o) i = Some v /\ k <= j /\
    nth_error (map visible v) k = Some (Some x) /\ (x < - (3 # 2))%Q.
Proof.
  intros o cold warm i j (tw & z & v & ldr & width & Et & _ & Ev & _ & _ & M). exists tw, v.
  destruct (melting_gate_falling _ _ _ _ _ _ _ _ _ _ M) as (k & x & a & b & _ & Ex & Hx & L). exists k, x. auto.
Qed.
(** With depolarisation, the search fails as soon as the range of one profile reaches
    the top gate. *)
Theorem C80_top_gate : forall o cold warm w sm i tw a b, well_formed o -> search_range (mo_model_type o) cold warm ->
  nth_error (mo_tw o) i = Some tw -> spans (warm_between cold warm tw) a b -> a < b ->
  S b = length (mo_height o) -> mo_ldr o <> None -> exists e, find_melting_layer w sm o = Raise e.
Proof. intros o cold warm w sm i tw a b W R. exact (find_melting_top o cold warm W (range_of _ _ _ R) w sm i tw a b). Qed.
Print Assumptions C80_exact.
Print Assumptions C80_within_range.
Print Assumptions C80_falling.
Print Assumptions C80_top_gate.

(** Observations of one profile. *)
Definition seen (q : Q) : element := {| data := q; hidden := false |}.
Definition one_profile (tw : Q) (v : list Q) (height : list Q) : melt_obs :=
  {| mo_tw := [map (fun _ => tw) height]; mo_z := [map (fun _ => Some 0%Q) height]; mo_v := [map seen v];
     mo_ldr := None; mo_width := None; mo_height := height; mo_model_type := "ecmwf" |}.
Definition ldr_profile (top : Q) : melt_obs :=
  {| mo_tw := [[275; 274; 27350 # 100; 273; 27250 # 100; 272; top]];
     mo_z := [[Some 10; Some 10; Some 10; Some 10; Some 5; Some 5; Some 5]];
     mo_v := [map seen [- (42 # 10); - (4); - (39 # 10); - (3); - (2); - (1); - (9 # 10)]];
     mo_ldr := Some [[Some (- (25)); Some (- (25)); Some (- (24)); Some (- (15)); Some (- (24)); Some (- (25)); None]];
     mo_width := None; mo_height := [100; 200; 300; 400; 500; 600; 700]; mo_model_type := "ecmwf" |}%Q.
Lemma ecmwf_range : search_range "ecmwf" (- (4)) 3.
Proof.
  right. split; [|auto]. intros (b & m & a & E & S).
  destruct m as [|m1 [|m2 [|m3 [|m4 [|m5 [|? ?]]]]]]; cbn in S; try tauto.
  assert (L := f_equal String.length E). destruct b as [|b1 b]; [destruct a as [|a1 a]|]; cbn in E, L.
  - injection E as <- <- <- <- <-. destruct S as [[S|(n & Hn & _ & S)] _]; [discriminate|].
    apply (f_equal Ascii.nat_of_ascii) in S. rewrite Ascii.nat_ascii_embedding in S by lia. cbn in S. lia.
  - discriminate.
  - exfalso. assert (X : forall s t : string, String.length (s ++ t)%string = String.length s + String.length t).
    { induction s as [|c s IH]; intros t; cbn; [reflexivity|rewrite IH; reflexivity]. }
    rewrite X in L. cbn in L. lia.
Qed.
Lemma ldr_profile_formed top : well_formed (ldr_profile top).
Proof.
  split; cbn [ldr_profile mo_tw mo_z mo_v mo_ldr mo_width mo_height].
  1-3: split; [reflexivity|]; intros [|[|i]] row H; cbn in H; try discriminate; injection H as <-; reflexivity.
  - intros m [= <-]. split; [reflexivity|]. intros [|[|i]] row H; cbn in H; try discriminate; injection H as <-; reflexivity.
  - discriminate.
Qed.
(** A bright band at 400 m: the gates from half way up to its top. *)
Example C80_nonvacuous : well_formed (ldr_profile 266) /\ search_range (mo_model_type (ldr_profile 266)) (- (4)) 3 /\
  (forall i tw a b, nth_error (mo_tw (ldr_profile 266)) i = Some tw -> spans (warm_between (- (4)) 3 tw) a b -> a < b ->
     mo_ldr (ldr_profile 266) <> None -> S b < length (mo_height (ldr_profile 266))) /\
  (forall i tw v a b, nth_error (mo_tw (ldr_profile 266)) i = Some tw -> nth_error (mo_v (ldr_profile 266)) i = Some v ->
     spans (warm_between (- (4)) 3 tw) a b -> nonflat (within a b (nth_error (map data v)))) /\
  find_melting_layer (fun _ => 0%Q) false (ldr_profile 266) = Ok [[false; false; true; true; false; false; false]].
Proof.
  split; [apply ldr_profile_formed|]. split; [exact ecmwf_range|]. split; [|split; [|reflexivity]].
  - intros [|[|i]] tw a b H; cbn in H; try discriminate. injection H as <-. intros (_ & (t & Et & Ht & _) & _) _ _.
    cbn [ldr_profile mo_height]. gate b; cbn [nth_error] in Et; try (cbn [length]; lia).
    + literal Et. lra.
    + destruct b; discriminate.
  - intros [|[|i]] tw v a b H H'; cbn in H, H'; try discriminate. injection H as <-. injection H' as <-. intros _ k x y Ex Ey E.
    unfold within in Ex, Ey. destruct ((a <=? k) && (k <=? b)); [|discriminate]. destruct ((a <=? S k) && (S k <=? b)); [|discriminate].
    gate k; cbn in Ex, Ey; try discriminate; try (destruct k; discriminate); literal Ex; literal Ey; revert E; discriminate.
Qed.

(** The claim "the search succeeds on every image" fails: the same profile with the
    top gate inside the range. *)
Theorem C80_top_gate_refuted : exists o, well_formed o /\ (exists out, find_melting_layer (fun _ => 0%Q) false (ldr_profile 266) = Ok out) /\
  o = ldr_profile (2715 # 10) /\ find_melting_layer (fun _ => 0%Q) false o = Raise IndexError.
Proof. eexists. split; [apply (ldr_profile_formed (2715 # 10))|]. split; [eexists; reflexivity|]. split; reflexivity. Qed.
Print Assumptions C80_top_gate_refuted.

(** The claim "exact for every image" fails: with two equal velocities below the
    layer nothing is found. *)
Definition flat_obs : melt_obs :=
  one_profile 273 [- (3); - (3); - (4); - (3); - (2); - (1 # 2); - (4 # 10)]%Q [100; 150; 200; 250; 300; 350; 400]%Q.
Theorem C80_flat_refuted : exists o, well_formed o /\ layer_gate o (- (4)) 3 0 3 /\ search_range (mo_model_type o) (- (4)) 3 /\
  exists out, find_melting_layer (fun _ => 0%Q) false o = Ok out /\ forall j, pixel out 0 j <> Some true.
Proof.
  exists flat_obs. split; [|split; [|split; [exact ecmwf_range|]]].
  - split; cbn [flat_obs one_profile mo_tw mo_z mo_v mo_ldr mo_width mo_height]; try discriminate.
    1-3: split; [reflexivity|]; intros [|[|i]] row H; cbn in H; try discriminate; injection H as <-; reflexivity.
  - eexists _, _, _, None, None. split; [reflexivity|]. split; [reflexivity|]. split; [reflexivity|]. split; [exact I|]. split; [exact I|].
    assert (G : forall k, k <= 6 -> warm_between (- (4)) 3 [273; 273; 273; 273; 273; 273; 273]%Q k).
    { intros k Hk. exists 273%Q. gate k; try lia; cbn; (split; [reflexivity|split; reflexivity]). }
    exists 0, 6. split; [|split; [lia|split; [left; cbn; lia|]]].
    { split; [apply G; lia|]. split; [apply G; lia|]. intros k (t & Et & _). apply nth_error_Some_lt in Et. cbn in Et. lia. }
    right. split; [discriminate|].
    assert (LR : longest_rise (nth_error (map data (map seen [- (3); - (3); - (4); - (3); - (2); - (1 # 2); - (4 # 10)]%Q))) 0 6 1 5).
    { split; [lia|]. split; [lia|]. split; [lia|]. split; [exists (- (3))%Q, (- (4))%Q; repeat split|].
      split.
      - intros k H1 H2. gate k; try lia; cbn; (do 2 eexists; split; [reflexivity|split; reflexivity]).
      - intros s t _ Hst Ht Hr. enough (2 <= s) by lia. specialize (Hr s ltac:(lia) ltac:(lia)).
        destruct s as [|[|s]]; [| |lia]; destruct Hr as (x & y & Ex & Ey & L); cbn in Ex, Ey; literal Ex; literal Ey; exfalso; revert L; unfold Qlt; cbn; lia. }
    exists 1, 5, 3. split; [exact LR|]. split; [|split; [|lia]].
    + exists (- (3))%Q, (- (1 # 2))%Q, 150%Q, 350%Q. repeat split.
    + apply round_nearest.
  - eexists. split; [reflexivity|]. intros [|[|[|[|[|[|[|j]]]]]]]; cbn; try discriminate. destruct j; discriminate.
Qed.
Print Assumptions C80_flat_refuted.

(** The claim "the layer starts half way up the rise, rounded in the same way
    wherever the range begins" fails: one more gate below, in the range but outside
    the rise, makes the same layer twice as thick. *)
Theorem C80_position_refuted : exists v height v0 h0 n,
  find_melting_layer (fun _ => 0%Q) false (one_profile 273 v height) = Ok [repeat false n ++ [false; true; false; false]]%list /\
  find_melting_layer (fun _ => 0%Q) false (one_profile 273 (v0 :: v) (h0 :: height)) = Ok [false :: repeat false n ++ [true; true; false; false]]%list.
Proof. exists [- (7 # 2); - (4); - (3); - (1); - (2 # 10)]%Q, [100; 150; 200; 250; 300]%Q, (- (2))%Q, 50%Q, 1. split; reflexivity. Qed.
Print Assumptions C80_position_refuted.

(** ** C81: smoothing of the melting layer in time *)
(** Weights of the smoothing kernel: not negative, at most 8 profiles away. *)
Definition kernel (w : nat -> Q) : Prop := forall k, k <= 8 -> (0 <= w k)%Q.
(** Every smoothed gate has a detection at the same height at most 8 profiles away. *)
Theorem C81_near : forall w layer i j, kernel w -> pixel (smooth_layer w layer) i j = Some true ->
  exists i', (Z.abs (Z.of_nat i' - Z.of_nat i) <= 8)%Z /\ pixel layer i' j = Some true.
Proof. intros w layer i j K. exact (smooth_near w layer i j). Qed.
(** A detection in a single profile is removed (away from the ends). *)
Theorem C81_lone_removed : forall w layer i0 j, kernel w -> (forall k, k <= 8 -> (w k <= w 0%nat)%Q) -> (w 0%nat <= 1 # 5)%Q ->
  8 <= i0 -> i0 + 8 < length layer -> (forall i, pixel layer i j = Some true -> i = i0) ->
  forall i, pixel (smooth_layer w layer) i j <> Some true.
Proof. intros w layer i0 j K. exact (smooth_lone w layer K i0 j). Qed.
(** Two neighbouring detections are both kept. *)
Theorem C81_pair_kept : forall w layer i j, kernel w -> (1 # 5 < w 0%nat + w 1%nat)%Q ->
  pixel layer i j = Some true -> pixel layer (S i) j = Some true ->
  pixel (smooth_layer w layer) i j = Some true /\ pixel (smooth_layer w layer) (S i) j = Some true.
Proof.
  intros w layer i j K B P1 P2. assert (L : S i < length layer).
  { unfold pixel in P2. destruct (nth_error layer (S i)) eqn:E; [|discriminate]. exact (nth_error_Some_lt _ _ _ E). }
  split.
  - apply (smooth_two w layer K i j i (S i)); try lia; try congruence.
    replace (Z.abs_nat (Z.of_nat i - Z.of_nat i)) with 0 by lia. replace (Z.abs_nat (Z.of_nat (S i) - Z.of_nat i)) with 1 by lia. exact B.
  - apply (smooth_two w layer K (S i) j (S i) i); try lia; try congruence.
    replace (Z.abs_nat (Z.of_nat (S i) - Z.of_nat (S i))) with 0 by lia.
    replace (Z.abs_nat (Z.of_nat i - Z.of_nat (S i))) with 1 by lia. exact B.
Qed.
(** A gap of one profile between two detections is filled. *)
Theorem C81_gap_filled : forall w layer i j, kernel w -> (1 # 10 < w 1%nat)%Q ->
  pixel layer i j = Some true -> pixel layer (S i) j <> None -> pixel layer (S (S i)) j = Some true ->
  pixel (smooth_layer w layer) (S i) j = Some true.
Proof.
  intros w layer i j K B P1 N P2. assert (L : S (S i) < length layer).
  { unfold pixel in P2. destruct (nth_error layer (S (S i))) eqn:E; [|discriminate]. exact (nth_error_Some_lt _ _ _ E). }
  apply (smooth_two w layer K (S i) j i (S (S i))); try lia; try assumption.
  replace (Z.abs_nat (Z.of_nat i - Z.of_nat (S i))) with 1 by lia.
  replace (Z.abs_nat (Z.of_nat (S (S i)) - Z.of_nat (S i))) with 1 by lia. lra.
Qed.
Print Assumptions C81_near.
Print Assumptions C81_lone_removed.
Print Assumptions C81_pair_kept.
Print Assumptions C81_gap_filled.
(** Weights close to those of the Gaussian kernel with standard deviation 2. *)
Definition gauss (k : nat) : Q :=
  nth k [1995 # 10000; 1760 # 10000; 1210 # 10000; 648 # 10000; 270 # 10000; 88 # 10000; 22 # 10000; 4 # 10000; 1 # 10000] 0%Q.
Example C81_nonvacuous : kernel gauss /\ (forall k, k <= 8 -> (gauss k <= gauss 0%nat)%Q) /\ (gauss 0%nat <= 1 # 5)%Q /\
  (1 # 5 < gauss 0%nat + gauss 1%nat)%Q /\ (1 # 10 < gauss 1%nat)%Q /\
  smooth_layer gauss (repeat [false] 8 ++ [[true]] ++ repeat [false] 8) = repeat [false] 17 /\
  smooth_layer gauss ([[false]; [false]; [false]; [true]; [false]; [true]] ++ repeat [false] 5)
    = repeat [false] 2 ++ repeat [true] 5 ++ repeat [false] 4.
Proof.
  split; [intros k Hk; do 9 (destruct k as [|k]; [discriminate|]); lia|].
  split; [intros k Hk; do 9 (destruct k as [|k]; [discriminate|]); lia|].
  split; [discriminate|]. split; [reflexivity|]. split; [reflexivity|]. split; reflexivity.
Qed.
(** The claim "a detection in a single profile is removed" fails at the ends: the
    profile is reflected and counts twice. *)
Theorem C81_edge_refuted : exists layer, (forall i, pixel layer i 0 = Some true -> i = 0) /\ 17 < length layer /\
  forall w, kernel w -> (1 # 5 < w 0%nat + w 1%nat)%Q -> pixel (smooth_layer w layer) 0 0 = Some true.
Proof.
  exists ([true] :: repeat [false] 20). split; [|split; [cbn; lia|]].
  - intros [|i]; [reflexivity|]. cbn [pixel nth_error]. unfold pixel. cbn [nth_error]. intros H. exfalso.
    destruct (nth_error (repeat [false] 20) i) as [row|] eqn:E; [|discriminate].
    apply nth_error_In, repeat_spec in E. subst. discriminate.
  - intros w K S. apply (smooth_end w _ K); [discriminate|left; reflexivity|reflexivity|exact S].
Qed.
Print Assumptions C81_edge_refuted.

(** ** C82: freezing level of the model *)
(** Exact: the altitude of every profile where the temperature first falls below
    0 C; IndexError as soon as a profile has no gate below 0 C. *)
Theorem C82_exact : forall tw height n, shaped n (length height) tw ->
  ((forall row, In row tw -> exists k t, nth_error row k = Some t /\ (t < 27316 # 100)%Q) ->
     exists out, find_t0_alt tw height = Ok out /\ length out = n /\
       forall i row, nth_error tw i = Some row -> exists a, nth_error out i = Some a /\ freezing_level height row a) /\
  ((exists row, In row tw /\ forall k t, nth_error row k = Some t -> (27316 # 100 <= t)%Q) ->
     find_t0_alt tw height = Raise IndexError).
Proof.
  intros tw height n [Sn Sr]. assert (L : forall row, In row tw -> length row = length height).
  { intros row Hr. apply In_nth_error in Hr as [i Hi]. exact (Sr i row Hi). }
  split.
  - intros H. destruct (find_t0_alt_ok tw height) as (out & E & Lo & G); [intros row Hr; split; [apply L|apply H]; exact Hr|].
    exists out. split; [exact E|]. split; [lia|exact G].
  - intros (row & Hr & Hw). exact (find_t0_alt_warm tw height row L Hr Hw).
Qed.
(** There is one such altitude, and it lies above the gates that are still warm and
    not above the first cold one. *)
Theorem C82_unique : forall height row a a', freezing_level height row a -> freezing_level height row a' -> (a == a')%Q.
Proof. exact freezing_level_unique. Qed.
Theorem C82_between : forall height row a, rising height -> freezing_level height row a ->
  exists k h, nth_error height k = Some h /\ (a <= h)%Q /\ (exists t, nth_error row k = Some t /\ (t < 27316 # 100)%Q) /\
    forall j g s, j < k -> nth_error height j = Some g -> nth_error row j = Some s -> (g <= a /\ 27316 # 100 <= s)%Q.
Proof. exact freezing_level_between. Qed.
Print Assumptions C82_exact.
Print Assumptions C82_unique.
Print Assumptions C82_between.
Example C82_nonvacuous :
  exists a, find_t0_alt [[27416 # 100; 27216 # 100; 260]; [270; 265; 260]]%Q [1000; 2000; 3000]%Q = Ok [a; 1000]%Q /\ (a == 1500)%Q.
Proof. eexists. split; reflexivity. Qed.
(** The claim "every temperature profile has a freezing level" fails for a profile
    that is warm up to the top gate. *)
Theorem C82_warm_refuted : exists tw height, shaped 2 3 tw /\ rising height /\ length height = 3 /\ find_t0_alt tw height = Raise IndexError.
Proof.
  exists [[290; 280; 270]; [290; 285; 280]]%Q, [1000; 2000; 3000]%Q. split; [|split; [|split; reflexivity]].
  - split; [reflexivity|]. intros [|[|[|i]]] row H; cbn in H; try discriminate; injection H as <-; reflexivity.
  - intros i j a b L Ha Hb. destruct i as [|[|[|i]]], j as [|[|[|j]]]; try lia; cbn in Ha, Hb; try discriminate;
      try (destruct i; discriminate); try (destruct j; discriminate); literal Ha; literal Hb; reflexivity.
Qed.
Print Assumptions C82_warm_refuted.

(** ** C83: freezing region *)
(** Exact: the altitude of the region is the median altitude of the melting layer,
    the freezing level at the ends and in the middle of quiet four hour windows, and
    a straight line in time between these; the region begins 1 m lower. *)
Theorem C83_exact : forall tw time height melting n win,
  shaped n (length height) tw -> shaped n (length height) melting -> length time = n -> 2 <= n -> rising time ->
  (forall h, In h height -> (0 < h)%Q) -> four_hours time win -> 0 < win ->
  (forall i row, nth_error tw i = Some row -> exists k t, nth_error row k = Some t /\ (t < 27316 # 100)%Q) ->
  ((exists i m, melting_at height melting i m) \/
   (exists i a h0, nth_error height 0 = Some h0 /\ level_at tw height i a /\ (h0 < a)%Q)) ->
  exists out alt, find_freezing_region tw time height melting = Ok out /\ shaped n (length height) out /\
    (forall i a, anchor tw height melting win i a -> (alt i == a)%Q) /\
    (forall i k j a b ti tk tj, anchor tw height melting win i a -> anchor tw height melting win j b -> i < j -> i <= k -> k <= j ->
       (forall q x, i < q -> q < j -> ~ anchor tw height melting win q x) ->
       nth_error time i = Some ti -> nth_error time k = Some tk -> nth_error time j = Some tj ->
       (alt k == a + (b - a) * ((tk - ti) / (tj - ti)))%Q) /\
    (forall i j, pixel out i j = Some true <-> i < n /\ exists h, nth_error height j = Some h /\ (alt i < h + 1)%Q).
Proof.
  intros tw time height melting n win St Sm Lt Two Rt Ph Four Win Cold Warm.
  exact (region_exact tw time height melting n (length height) win St Sm eq_refl Cold Lt Two Rt Ph Four Win Warm).
Qed.
(** Nothing melts and every freezing level is at or below the lowest gate: all gates. *)
Theorem C83_all_cold : forall tw time height melting n h0, shaped n (length height) tw -> shaped n (length height) melting ->
  (forall i row, nth_error tw i = Some row -> exists k t, nth_error row k = Some t /\ (t < 27316 # 100)%Q) ->
  nth_error height 0 = Some h0 -> (forall i, i < n -> no_melting height melting i) ->
  (forall i a, level_at tw height i a -> (a <= h0)%Q) ->
  exists out, find_freezing_region tw time height melting = Ok out /\ shaped n (length height) out /\
    forall i j, i < n -> j < length height -> pixel out i j = Some true.
Proof.
  intros tw time height melting n h0 St Sm Cold Eh NM Lv. eexists.
  split; [exact (region_all_cold tw time height melting n (length height) St Sm eq_refl Cold h0 Eh NM Lv)|]. split.
  - destruct St as [S1 S2]. unfold imap. split; [rewrite map_length; exact S1|]. intros i row H. rewrite nth_error_map' in H.
    destruct (nth_error tw i) as [r|] eqn:E; [|discriminate]. cbn [option_map] in H. injection H as <-. rewrite map_length. exact (S2 i r E).
  - intros i j Hi Hj. rewrite pixel_imap. unfold pixel. destruct (nth_error_lt_Some tw i) as [row Er]; [rewrite (proj1 St); exact Hi|].
    rewrite Er. destruct (nth_error_lt_Some row j) as [t Et]; [rewrite (proj2 St i row Er); exact Hj|]. rewrite Et. reflexivity.
Qed.
(** Above a freezing gate everything freezes. *)
Theorem C83_upward : forall tw time height melting out n i j j', find_freezing_region tw time height melting = Ok out ->
  shaped n (length height) tw -> rising height -> pixel out i j = Some true -> j <= j' -> j' < length height ->
  pixel out i j' = Some true.
Proof. exact region_upward. Qed.
(** One warm profile stops the whole product, even where melting layers are known. *)
Theorem C83_warm : forall tw time height melting n, shaped n (length height) tw ->
  (exists row, In row tw /\ forall k t, nth_error row k = Some t -> (27316 # 100 <= t)%Q) ->
  find_freezing_region tw time height melting = Raise IndexError.
Proof.
  intros tw time height melting n [_ Sr] (row & Hr & Hw). apply (region_warm tw time height melting row); [|exact Hr|exact Hw].
  intros r Hin. apply In_nth_error in Hin as [i Hi]. exact (Sr i r Hi).
Qed.
Print Assumptions C83_exact.
Print Assumptions C83_all_cold.
Print Assumptions C83_upward.
Print Assumptions C83_warm.

Lemma six_rising : rising [0; 1; 2; 3; 4; 5]%Q.
Proof.
  intros i j a b L Ha Hb. destruct i as [|[|[|[|[|[|i]]]]]], j as [|[|[|[|[|[|j]]]]]]; try lia; cbn in Ha, Hb; try discriminate;
    try (destruct i; discriminate); try (destruct j; discriminate); literal Ha; literal Hb; reflexivity.
Qed.
Lemma six_window : four_hours [0; 1; 2; 3; 4; 5]%Q 4.
Proof.
  assert (E : n_elements [0; 1; 2; 3; 4; 5]%Q 240 true = Ok 4%Z) by reflexivity.
  apply n_elements_ok in E as (steps & d & S & M & D & N). exists steps, d. split; [exact S|]. split; [exact M|]. split; [|exact N].
  assert (B : (1 <= d /\ d <= 1)%Q); [|lra]. apply (is_median_between steps d 1 1 M). intros x Hx. apply In_nth_error in Hx as [k Hk].
  destruct (proj2 S k x Hk) as (a & b & Ha & Hb & Ex). destruct k as [|[|[|[|[|k]]]]]; cbn in Ha, Hb; try discriminate;
    try (destruct k; discriminate); literal Ha; literal Hb; lra.
Qed.
(** Hourly profiles: melting layers in the first two and the last; in between the
    altitude goes down in a straight line and up again. *)
Definition hourly (melting : image bool) : result (image bool) :=
  find_freezing_region (repeat [275; 272; 265]%Q 6) [0; 1; 2; 3; 4; 5]%Q [1000; 2000; 5000]%Q melting.
Definition early : image bool := repeat [false; false; true] 2 ++ repeat [false; false; false] 4.
Lemma hourly_shape : shaped 6 3 (repeat [275; 272; 265]%Q 6) /\ shaped 6 3 early.
Proof.
  split; (split; [reflexivity|]); intros i row H.
  - apply nth_error_In, repeat_spec in H. subst. reflexivity.
  - apply nth_error_In, in_app_or in H. destruct H as [H|H]; apply repeat_spec in H; subst; reflexivity.
Qed.
Lemma hourly_level : freezing_level [1000; 2000; 5000]%Q [275; 272; 265]%Q (1000 + 1000 * (184 # 300)).
Proof.
  exists 1, 272%Q, 2000%Q. split; [reflexivity|]. split; [reflexivity|]. split; [reflexivity|]. split.
  - intros [|j] s L H; [|lia]. cbn in H. literal H. discriminate.
  - exists 275%Q, 1000%Q. split; [reflexivity|]. split; reflexivity.
Qed.
Lemma one_median x : is_median [x] x.
Proof.
  exists [x], x, x. split; [apply Permutation_refl|]. split; [|split; [reflexivity|split; [reflexivity|ring]]].
  intros [|i] [|j] a b _ Ha Hb; cbn in Ha, Hb; try (destruct i; discriminate); try (destruct j; discriminate).
  assert (a = b) by congruence. subst. apply Qle_refl.
Qed.
Example C83_nonvacuous : shaped 6 3 (repeat [275; 272; 265]%Q 6) /\ shaped 6 3 early /\ rising [0; 1; 2; 3; 4; 5]%Q /\
  four_hours [0; 1; 2; 3; 4; 5]%Q 4 /\ melting_at [1000; 2000; 5000]%Q early 1 5000 /\
  anchor (repeat [275; 272; 265]%Q 6) [1000; 2000; 5000]%Q early 4 5 (1000 + 1000 * (184 # 300)) /\
  hourly early = Ok (repeat [false; false; true] 5 ++ [[false; true; true]]).
Proof.
  split; [apply hourly_shape|]. split; [apply hourly_shape|]. split; [exact six_rising|]. split; [exact six_window|]. split; [|split].
  - exists [false; false; true]. split; [reflexivity|apply one_median].
  - right. split; [exists [false; false; false]; split; reflexivity|]. split; [right; left; reflexivity|].
    exists [275; 272; 265]%Q. split; [reflexivity|exact hourly_level].
  - reflexivity.
Qed.
(** The claim "the freezing level is used in the middle of every four hour window
    without melting layer" fails for the last window. *)
Theorem C83_last_window_refuted : exists tw time height melting win k a h j out,
  four_hours time win /\ rising time /\ k + win = length time /\ (forall q, k <= q -> q < k + win -> no_melting height melting q) /\
  level_at tw height (k + win / 2) a /\ nth_error height j = Some h /\ (a < h)%Q /\
  find_freezing_region tw time height melting = Ok out /\ pixel out (k + win / 2) j = Some false.
Proof.
  exists (repeat [275; 272; 265]%Q 6), [0; 1; 2; 3; 4; 5]%Q, [1000; 2000; 5000]%Q, early, 4, 2, (1000 + 1000 * (184 # 300))%Q, 2000%Q, 1.
  eexists. split; [exact six_window|]. split; [exact six_rising|]. split; [reflexivity|]. split.
  { intros q H1 H2. exists [false; false; false]. split; [|reflexivity]. destruct q as [|[|[|[|[|[|q]]]]]]; try lia; reflexivity. }
  split; [exists [275; 272; 265]%Q; split; [reflexivity|exact hourly_level]|]. split; [reflexivity|]. split; [reflexivity|]. split; reflexivity.
Qed.
(** The claim of the documentation, "the region starts from the mean melting layer
    height", fails: it is the median. *)
Theorem C83_mean_refuted : exists tw time height melting out j h, shaped 2 4 tw /\ shaped 2 4 melting /\ rising time /\
  find_freezing_region tw time height melting = Ok out /\
  nth_error melting 0 = Some [true; true; true; false] /\ firstn 3 height = [1000; 1100; 1500]%Q /\
  nth_error height j = Some h /\ (h < (1000 + 1100 + 1500) / 3 - 1)%Q /\ pixel out 0 j = Some true.
Proof.
  exists (repeat [275; 275; 275; 272]%Q 2), [0; 1]%Q, [1000; 1100; 1500; 1600]%Q, (repeat [true; true; true; false] 2).
  eexists. exists 1, 1100%Q. split; [|split; [|split]].
  - split; [reflexivity|]. intros i row H. apply nth_error_In, repeat_spec in H. subst. reflexivity.
  - split; [reflexivity|]. intros i row H. apply nth_error_In, repeat_spec in H. subst. reflexivity.
  - intros i j a b L Ha Hb. destruct i as [|[|i]], j as [|[|j]]; try lia; cbn in Ha, Hb; try discriminate;
      try (destruct i; discriminate); try (destruct j; discriminate); literal Ha; literal Hb; reflexivity.
  - split; [reflexivity|]. split; [reflexivity|]. split; [reflexivity|]. split; [reflexivity|]. split; reflexivity.
Qed.
(** The claim "a melting layer in every profile is enough" fails: one profile that is
    warm up to the top gate. *)
Theorem C83_warm_refuted : exists tw time height melting, shaped 2 2 tw /\ shaped 2 2 melting /\
  (forall i, i < 2 -> exists m, melting_at height melting i m) /\ find_freezing_region tw time height melting = Raise IndexError.
Proof.
  exists [[280; 270]; [285; 280]]%Q, [0; 1]%Q, [1000; 2000]%Q, [[true; false]; [true; false]]. split; [|split; [|split; [|reflexivity]]].
  1-2: split; [reflexivity|]; intros [|[|[|i]]] row H; cbn in H; try discriminate; injection H as <-; reflexivity.
  intros i Hi. exists 1000%Q. exists [true; false]. split; [destruct i as [|[|i]]; try lia; reflexivity|apply one_median].
Qed.
Print Assumptions C83_last_window_refuted.
Print Assumptions C83_mean_refuted.
Print Assumptions C83_warm_refuted.
