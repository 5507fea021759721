(** Properties of the cleaning of radar data (C99 to C101). *)
From Verif Require Import Base ArrayModel FillModel GridModel ImageModel ImageProofs OutputModel LayerModel MeltModel MeltSpec
  MeltImageProofs TelegramModel MpProofs CleanModel CleanSpec CleanProofs.
From Coq Require Import Qround String Lqa.
Open Scope string_scope.
Open Scope nat_scope.
Open Scope list_scope.
Local Notation length := List.length (only parsing).
Local Notation dict := OutputModel.dict (only parsing).

(** ** C99: incomplete pixels *)
(** A pixel stays visible in a variable over time and height exactly if it was visible
    there and Z, v and, if there is one, width are visible; everything else is
    unchanged. *)
Theorem C99_pixels : forall d d', remove_incomplete_pixels d = Ok d' ->
  exists z v, lookup "Z" d = Some (Grid z) /\ lookup "v" d = Some (Grid v) /\ map fst d' = map fst d /\
  forall k, match lookup k d with
    | Some (Grid m) => exists m', lookup k d' = Some (Grid m') /\ alike z m /\
        masked_where (fun i j => ~ (shown z i j /\ shown v i j /\ forall w, lookup "width" d = Some (Grid w) -> shown w i j)) m m'
    | Some (Flat l) => lookup k d' = Some (Flat l)
    | None => lookup k d' = None
    end.
Proof. exact remove_incomplete_spec. Qed.

(** It succeeds exactly if Z and v are there and all arrays over time and height have
    the same shape. *)
Theorem C99_succeeds_iff : forall d, NoDup (map fst d) ->
  ((exists d', remove_incomplete_pixels d = Ok d') <->
   exists z v, lookup "Z" d = Some (Grid z) /\ lookup "v" d = Some (Grid v) /\
     (forall l, lookup "width" d <> Some (Flat l)) /\ forall k m, lookup k d = Some (Grid m) -> alike z m).
Proof.
  intros d N. split.
  - intros [d' H]. exact (remove_incomplete_inv d d' H).
  - intros (z & v & Z & V & NF & S). exact (remove_incomplete_total d z v N Z V NF S).
Qed.

(** After all cleaning steps of a categorize file no value is changed or added, and
    whatever is visible is visible in Z, v and width too. *)
Theorem C99_clean : forall source d d' z v,
  lookup "Z" d = Some (Grid z) -> lookup "v" d = Some (Grid v) -> clean source d = Ok d' ->
  map fst d' = map fst d /\
  (forall k l, lookup k d = Some (Flat l) -> lookup k d' = Some (Flat l)) /\
  (forall k m, lookup k d = Some (Grid m) -> exists m', lookup k d' = Some (Grid m') /\ thinned m m') /\
  forall k m' key, lookup k d' = Some (Grid m') -> In key ["Z"; "v"; "width"] -> forall y, lookup key d' = Some (Grid y) ->
    forall i j, shown m' i j -> shown y i j.
Proof.
  intros source d d' z v Z V H. destruct (clean_split source d d' z v Z V H) as (d1 & T & R).
  pose proof (thinner_trans _ _ _ T (remove_incomplete_thinner _ _ R)) as [K L].
  split; [exact K|]. split; [intros k l E; specialize (L k); rewrite E in L; exact L|].
  split; [intros k m E; specialize (L k); rewrite E in L; exact L|].
  intros k m' key E' I y Y i j Sh. destruct (remove_incomplete_spec _ _ R) as (z1 & v1 & Z1 & V1 & _ & P).
  assert (G : forall x x', lookup x d' = Some (Grid x') -> exists x1, lookup x d1 = Some (Grid x1) /\ masked_where (fun i j => ~ (shown z1 i j /\ shown v1 i j /\ forall w, lookup "width" d1 = Some (Grid w) -> shown w i j)) x1 x').
  { intros x x' X. specialize (P x). destruct (lookup x d1) as [[m|l]|]; [|congruence|congruence].
    destruct P as (x2 & E2 & _ & M). assert (x2 = x') by congruence. subst x2. eauto. }
  destruct (G _ _ E') as (m1 & M1 & [S M]). destruct (G _ _ Y) as (y1 & Y1 & [Sy My]).
  destruct Sh as [a A]. destruct (alike_pixel _ _ i j _ (alike_sym _ _ S) A) as [b B].
  assert (Good : shown y1 i j /\ ~ ~ (shown z1 i j /\ shown v1 i j /\ forall w, lookup "width" d1 = Some (Grid w) -> shown w i j)).
  { destruct (M i j b B) as [[_ C]|[C C']]; [congruence|]. split; [|exact C].
    destruct (shown_dec y1 i j) as [Hy|Hy]; [exact Hy|]. exfalso. apply C. intros (A1 & A2 & A3). apply Hy.
    cbn [In] in I. destruct I as [<-|[<-|[<-|[]]]].
    - assert (y1 = z1) by congruence. subst. exact A1.
    - assert (y1 = v1) by congruence. subst. exact A2.
    - apply A3. exact Y1. }
  destruct Good as [[e Ey] NN]. destruct (My i j _ Ey) as [[C _]|[_ C]]; [contradiction|]. exists e. exact C.
Qed.
(** It never fails for arrays of equal shape with at least one gate. *)
Theorem C99_clean_total : forall source d z v,
  NoDup (map fst d) -> lookup "Z" d = Some (Grid z) -> lookup "v" d = Some (Grid v) ->
  (forall k l, In k ["width"; "ldr"; "v_sigma"] -> lookup k d <> Some (Flat l)) ->
  (forall k m, lookup k d = Some (Grid m) -> alike z m) -> (forall row, In row z -> row <> []) ->
  exists d', clean source d = Ok d'.
Proof. exact clean_total. Qed.

Lemma rpg_lower : all_lower "rpg".
Proof. cbn. unfold lower_case. cbn. repeat split; lia. Qed.
Lemma basta_lower : all_lower "basta".
Proof. cbn. unfold lower_case. cbn. repeat split; lia. Qed.
Lemma rpg_example : occurs_any_case "rpg" "RPG-FMCW-94".
Proof. apply (contains_lower _ _ rpg_lower). reflexivity. Qed.
(** The speckle filter looks at each variable alone: a pixel without neighbours in time
    is left when variables overlap in that pixel only. *)
Definition ex_z : image (masked Q) := [[Some 1]; [Some 2]; [None]; [Some 3]; [Some 4]]%Q.
Definition ex_v : image (masked Q) := [[None]; [Some 5]; [Some 1]; [Some 1]; [Some 1]]%Q.
Definition ex_data : dict rvar := [("Z", Grid ex_z); ("v_sigma", Grid ex_v); ("v", Grid ex_v); ("rainfall_rate", Flat [Some 1; None]%Q)].
Definition ex_v2 : image (masked Q) := [[None]; [Some 2]; [Some 1]; [Some 1]; [Some 1]]%Q.
Definition ex_data2 : dict rvar := [("Z", Grid ex_z); ("v_sigma", Grid ex_v2); ("v", Grid ex_v2)].
Theorem C99_speckle_refuted : exists source d d' z', clean source d = Ok d' /\
  occurs_any_case "rpg" source /\ lookup "Z" d' = Some (Grid z') /\ exists i j, lone_in_time z' i j.
Proof.
  exists "RPG-FMCW-94", ex_data2. do 2 eexists. split; [cbv; reflexivity|].
  split; [apply rpg_example|]. split; [reflexivity|]. exists 1, 0.
  split; [exists 2%Q; reflexivity|]. split; [|right]; intros [x X]; discriminate X.
Qed.
Example C99_nonvacuous : NoDup (map fst ex_data) /\ alike ex_z ex_v /\ (forall row, In row ex_z -> row <> []) /\
  exists d', clean "mira" ex_data = Ok d' /\
    lookup "Z" d' = Some (Grid [[None]; [Some 2]; [None]; [Some 3]; [Some 4]]%Q) /\
    lookup "v" d' = Some (Grid [[None]; [Some 5]; [None]; [Some 1]; [Some 1]]%Q) /\
    lookup "rainfall_rate" d' = Some (Flat [Some 1; None]%Q).
Proof.
  split; [repeat (constructor; [cbn [In]; intros X; repeat (destruct X as [X|X]; [discriminate|]); exact X|]); constructor|].
  split; [apply same_lengths_iff; reflexivity|].
  split; [intros row I; cbn [ex_z In] in I; repeat (destruct I as [<-|I]; [discriminate|]); destruct I|].
  eexists. split; [cbv; reflexivity|]. auto.
Qed.
Print Assumptions C99_pixels.
Print Assumptions C99_succeeds_iff.
Print Assumptions C99_clean.
Print Assumptions C99_clean_total.
Print Assumptions C99_speckle_refuted.

(** ** C100: speckle and the first gate *)
(** Z, v, width, ldr and v_sigma each lose exactly their pixels without a neighbour in
    time. *)
Theorem C100_speckle : forall d d', filter_speckle_noise d = Ok d' ->
  map fst d' = map fst d /\
  (forall k m, In k ["Z"; "v"; "width"; "ldr"; "v_sigma"] -> lookup k d = Some (Grid m) ->
     exists m', lookup k d' = Some (Grid m') /\ masked_where (lone_in_time m) m m') /\
  (forall k, ~ In k ["Z"; "v"; "width"; "ldr"; "v_sigma"] -> lookup k d' = lookup k d) /\
  (forall k, lookup k d = None <-> lookup k d' = None).
Proof.
  intros d d' H. destruct (fold_keys _ _ speckle_keys _ _ H) as [K L]. split; [exact K|]. split.
  - intros k m I E. destruct (L k) as [A _]. rewrite (A I), E. cbn [option_map on_grid]. eexists. split; [reflexivity|]. apply vertical_masked.
  - split; [intros k N; exact (proj2 (L k) N)|]. intros k. destruct (L k) as [A B].
    destruct (in_dec string_dec k ["Z"; "v"; "width"; "ldr"; "v_sigma"]) as [I|I].
    + rewrite (A I). destruct (lookup k d); cbn [option_map]; split; congruence.
    + rewrite (B I). reflexivity.
Qed.
Theorem C100_speckle_total : forall d, (forall k l, In k ["Z"; "v"; "width"; "ldr"; "v_sigma"] -> lookup k d <> Some (Flat l)) ->
  exists d', filter_speckle_noise d = Ok d'.
Proof. intros d H. exact (fold_keys_total filter_vertical_stripes _ d H). Qed.

(** Velocities above 4 m/s in the first gate are masked, nothing else. *)
Theorem C100_first_gate : forall d d', filter_1st_gate_artifact d = Ok d' ->
  exists v v', lookup "v" d = Some (Grid v) /\ lookup "v" d' = Some (Grid v') /\ masked_where (fast_first_gate v) v v' /\
    map fst d' = map fst d /\ forall k, k <> "v" -> lookup k d' = lookup k d.
Proof.
  intros d d' H. apply first_gate_iff in H. destruct H as (v & V & _ & ->). exists v, (map mask_fast v).
  split; [exact V|]. split; [apply lookup_set_same|]. split; [apply mask_fast_masked|].
  split; [apply set_key_names; congruence|]. intros k N. apply lookup_set_other. exact N.
Qed.

Lemma stripes_short var d d' : (forall x, lookup var d = Some (Grid x) -> length x < 300) -> filter_stripes var d = Ok d' -> d' = d.
Proof.
  intros S. unfold filter_stripes. destruct (has var d); [|congruence]. rewrite bind_ok. intros (x & X & H).
  assert (Lx : length x < 300). { apply S. unfold grid_of in X. destruct (lookup var d) as [[m|l]|]; congruence. }
  cbv zeta in H. destruct (Nat.ltb_spec (length (filter (fun c => negb (c =? 0)) (count_axis Profiles x))) 300) as [C|C]; [congruence|].
  exfalso. assert (Ly : length (filter (fun c => negb (c =? 0)) (count_axis Profiles x)) <= length (count_axis Profiles x)).
  { generalize (count_axis Profiles x). intros l. induction l as [|a l IH]; cbn [filter length]; [lia|]. destruct (negb (a =? 0)); cbn [length]; lia. }
  assert (length (count_axis Profiles x) = length x) by (cbn [count_axis]; apply map_length). lia.
Qed.
(** For measurements with less than 300 profiles, where stripes are not looked for,
    radars called RPG or BASTA (in any case of letters) lose every pixel that is alone
    in time and every fast first gate, and other radars lose incomplete pixels only. *)
Theorem C100_sources : forall source d d' z v,
  lookup "Z" d = Some (Grid z) -> lookup "v" d = Some (Grid v) -> length z < 300 -> clean source d = Ok d' ->
  (occurs_any_case "rpg" source \/ occurs_any_case "basta" source ->
     forall k m' i j, lookup k d' = Some (Grid m') -> shown m' i j ->
       ~ lone_in_time z i j /\ ~ lone_in_time v i j /\ ~ fast_first_gate v i j) /\
  (~ occurs_any_case "rpg" source -> ~ occurs_any_case "basta" source ->
     forall k m, lookup k d = Some (Grid m) -> exists m', lookup k d' = Some (Grid m') /\
       masked_where (fun i j => ~ (shown z i j /\ shown v i j /\ forall w, lookup "width" d = Some (Grid w) -> shown w i j)) m m').
Proof.
  intros source d d' z v Z V L H.
  assert (Rpg : is_rpg source = true <-> occurs_any_case "rpg" source \/ occurs_any_case "basta" source).
  { unfold is_rpg. cbn [existsb]. rewrite orb_false_r, orb_true_iff.
    rewrite (contains_lower _ _ rpg_lower), (contains_lower _ _ basta_lower). reflexivity. }
  unfold clean in H. fold (is_rpg source) in H. apply bind_ok in H. destruct H as (d0 & H0 & H).
  apply bind_ok in H. destruct H as (d3 & H3 & H4). destruct (remove_incomplete_inv _ _ H4) as (z3 & v3 & Z3 & V3 & _ & S3).
  assert (T0 : thinner d d0).
  { destruct (is_rpg source); [|assert (d0 = d) by congruence; subst; apply thinner_refl].
    apply bind_ok in H0. destruct H0 as (da & A & B). eapply thinner_trans; [apply speckle_thinner; exact A|apply first_gate_thinner; exact B]. }
  assert (ZV : forall a b, thinner a b -> (exists z v, lookup "Z" a = Some (Grid z) /\ lookup "v" a = Some (Grid v)) ->
                exists z v, lookup "Z" b = Some (Grid z) /\ lookup "v" b = Some (Grid v)).
  { intros a b [_ T] (za & va & Za & Va). pose proof (T "Z") as TZ. pose proof (T "v") as TV. rewrite Za in TZ. rewrite Va in TV.
    destruct TZ as (zb & Zb & _). destruct TV as (vb & Vb & _). eauto. }
  assert (G0 := ZV _ _ T0 (ex_intro _ z (ex_intro _ v (conj Z V)))).
  cbn [fold_result] in H3. apply bind_ok in H3. destruct H3 as (d1 & S1 & H3). apply bind_ok in H3. destruct H3 as (d2 & S2 & H3).
  apply bind_ok in H3. destruct H3 as (d4 & S4 & H3). assert (d4 = d3) by congruence. subst d4. clear H3.
  assert (T1 : thinner d0 d1). { destruct G0 as (za & va & Za & Va). eapply stripes_thinner; [|exact Za|exact Va|exact S1]. discriminate. }
  assert (G1 := ZV _ _ T1 G0).
  assert (T2 : thinner d1 d2). { destruct G1 as (za & va & Za & Va). eapply stripes_thinner; [|exact Za|exact Va|exact S2]. discriminate. }
  assert (G2 := ZV _ _ T2 G1).
  assert (T3 : thinner d2 d3). { destruct G2 as (za & va & Za & Va). eapply stripes_thinner; [|exact Za|exact Va|exact S4]. discriminate. }
  assert (Z03 := thinner_trans _ _ _ T0 (thinner_trans _ _ _ T1 (thinner_trans _ _ _ T2 T3))).
  assert (Lz : length z3 < 300). { destruct (thinner_alike _ _ _ _ _ Z03 Z Z3) as [E _]. lia. }
  assert (Short : forall a, thinner a d3 -> forall k x, lookup k a = Some (Grid x) -> length x < 300).
  { intros a T k x X. pose proof (proj2 T k) as Y. rewrite X in Y. destruct Y as (y & Y & [[E _] _]).
    destruct (S3 k y Y) as [E' _]. lia. }
  assert (d1 = d0). { apply (stripes_short "v" d0 d1); [|exact S1]. apply (Short d0 (thinner_trans _ _ _ T1 (thinner_trans _ _ _ T2 T3))). }
  assert (d2 = d1). { apply (stripes_short "v_sigma" d1 d2); [|exact S2]. apply (Short d1 (thinner_trans _ _ _ T2 T3)). }
  assert (d3 = d2). { apply (stripes_short "ldr" d2 d3); [|exact S4]. apply (Short d2 T3). }
  assert (d3 = d0) by congruence. clear H H1 H2. subst d3. clear S1 S2 S4 T1 T2 T3 Z03 G1 G2 Short.
  destruct (remove_incomplete_spec _ _ H4) as (z' & v' & Z' & V' & _ & P).
  assert (z' = z3) by congruence. assert (v' = v3) by congruence. subst z' v'. split.
  - intros Yes. rewrite (proj2 Rpg Yes) in H0. apply bind_ok in H0. destruct H0 as (da & A & B).
    destruct (C100_speckle _ _ A) as (_ & Sp & _ & _).
    destruct (Sp "Z" z (or_introl eq_refl) Z) as (za & Za & Mz). destruct (Sp "v" v (or_intror (or_introl eq_refl)) V) as (va & Va & Mv).
    destruct (C100_first_gate _ _ B) as (v1 & v2 & V1 & V2 & Mf & _ & Ot).
    assert (v1 = va) by congruence. subst v1. assert (v2 = v3) by congruence. subst v2.
    assert (z3 = za). { rewrite (Ot "Z") in Z3 by discriminate. congruence. } subst z3.
    intros k m' i j E' Sh.
    assert (Sz : shown za i j /\ shown v3 i j).
    { specialize (P k). destruct (lookup k d0) as [[m|l]|]; [|congruence|congruence]. destruct P as (x & X & S & [SM M]).
      assert (x = m') by congruence. subst x. destruct (shown_dec za i j) as [Y|Y].
      - destruct (shown_dec v3 i j) as [Y'|Y']; [auto|]. exfalso. destruct Y as [a Y]. destruct (alike_pixel _ _ i j _ S Y) as [b Q].
        destruct (M i j b Q) as [[_ C]|[C _]]; [destruct Sh as [e Sh]; congruence|]. apply C. intros (_ & C' & _). contradiction.
      - exfalso. destruct Sh as [e Sh]. destruct (pixel m i j) as [b|] eqn:Q.
        + destruct (M i j b Q) as [[_ C]|[C _]]; [congruence|]. apply C. intros (C' & _ & _). contradiction.
        + destruct (alike_pixel _ _ i j _ (alike_sym _ _ SM) Sh) as [b Q']. congruence. }
    destruct Sz as [[a Sa] [b Sb]].
    assert (Pz : forall m ma p, masked_where p m ma -> forall x, pixel ma i j = Some (Some x) -> pixel m i j = Some (Some x) /\ ~ p i j).
    { intros m ma p [S M] x X. destruct (alike_pixel _ _ i j _ (alike_sym _ _ S) X) as [y Y]. destruct (M i j y Y) as [[_ C]|[C C']]; [congruence|].
      split; [congruence|exact C]. }
    destruct (Pz _ _ _ Mz _ Sa) as [Qz Nz]. destruct (Pz _ _ _ Mf _ Sb) as [Qf Nf]. destruct (Pz _ _ _ Mv _ Qf) as [Qv Nv].
    split; [exact Nz|]. split; [exact Nv|]. intros (J & x & X & F). apply Nf. split; [exact J|]. exists x. subst j. split; [congruence|exact F].
  - intros N1 N2. assert (N : is_rpg source = false). { destruct (is_rpg source) eqn:E; [|reflexivity]. exfalso. destruct (proj1 Rpg eq_refl); contradiction. }
    rewrite N in H0. assert (d0 = d) by congruence. subst d0. assert (z3 = z) by congruence. assert (v3 = v) by congruence. subst z3 v3.
    intros k m E. specialize (P k). rewrite E in P. destruct P as (m' & E' & _ & M). eauto.
Qed.
Lemma ex_key_z : In "Z" ["Z"; "v"; "width"; "ldr"; "v_sigma"].
Proof. left. reflexivity. Qed.
Example C100_nonvacuous : lookup "Z" ex_data = Some (Grid ex_z) /\ lookup "v" ex_data = Some (Grid ex_v) /\ length ex_z < 300 /\
  In "Z" ["Z"; "v"; "width"; "ldr"; "v_sigma"] /\
  occurs_any_case "basta" "BASTA" /\ ~ occurs_any_case "rpg" "mira" /\ ~ occurs_any_case "basta" "mira" /\
  fast_first_gate ex_v 1 0 /\ lone_in_time [[Some 1]; [None]; [Some 2]]%Q 2 0 /\
  exists d', clean "BASTA" ex_data = Ok d' /\
    lookup "Z" d' = Some (Grid [[None]; [None]; [None]; [Some 3]; [Some 4]]%Q) /\
    lookup "v" d' = Some (Grid [[None]; [None]; [None]; [Some 1]; [Some 1]]%Q).
Proof.
  split; [reflexivity|]. split; [reflexivity|]. split; [cbn; lia|]. split; [exact ex_key_z|].
  split; [apply (contains_lower _ _ basta_lower); reflexivity|].
  split; [rewrite <- (contains_lower _ _ rpg_lower); discriminate|].
  split; [rewrite <- (contains_lower _ _ basta_lower); discriminate|].
  split; [split; [reflexivity|]; exists 5%Q; split; reflexivity|].
  split; [split; [exists 2%Q; reflexivity|]; split; [|right]; intros [x X]; discriminate X|].
  eexists. split; [cbv; reflexivity|]. auto.
Qed.
Print Assumptions C100_speckle.
Print Assumptions C100_speckle_total.
Print Assumptions C100_first_gate.
Print Assumptions C100_sources.

(** ** C101: stripes *)
(** With fewer than 300 profiles with velocities nothing changes.  Otherwise the
    velocity loses the pixels of striped profiles, and then those of striped gates, in
    which the reflectivity has no neighbour outside the stripe. *)
Theorem C101_velocity : forall d d' z v n, lookup "Z" d = Some (Grid z) -> lookup "v" d = Some (Grid v) ->
  (forall i row, nth_error v i = Some row -> length row = n) -> filter_stripes "v" d = Ok d' ->
  (length (filter (Nat.ltb 0) (per_profile n v)) < 300 /\ d' = d) \/
  (300 <= length (filter (Nat.ltb 0) (per_profile n v)) /\
   map fst d' = map fst d /\ (forall k, k <> "v" -> lookup k d' = lookup k d) /\
   exists v1 v2, lookup "v" d' = Some (Grid v2) /\
     masked_where (in_striped_profile (per_profile n v) z) v v1 /\
     masked_where (in_striped_gate (per_gate n v) z) v1 v2).
Proof. exact stripes_v_spec. Qed.
(** Stripes found in another variable are removed from that variable and from the
    velocity. *)
Theorem C101_other : forall var d d' z v m n, var <> "v" -> var <> "Z" ->
  lookup "Z" d = Some (Grid z) -> lookup "v" d = Some (Grid v) -> lookup var d = Some (Grid m) ->
  (forall i row, nth_error m i = Some row -> length row = n) -> filter_stripes var d = Ok d' ->
  (length (filter (Nat.ltb 0) (per_profile n m)) < 300 /\ d' = d) \/
  (300 <= length (filter (Nat.ltb 0) (per_profile n m)) /\
   map fst d' = map fst d /\ (forall k, k <> "v" -> k <> var -> lookup k d' = lookup k d) /\
   exists v1 v2 m1 m2, lookup "v" d' = Some (Grid v2) /\ lookup var d' = Some (Grid m2) /\
     masked_where (in_striped_profile (per_profile n m) z) v v1 /\
     masked_where (in_striped_gate (per_gate n m) z) v1 v2 /\
     masked_where (in_striped_profile (per_profile n m) m) m m1 /\
     masked_where (in_striped_gate (per_gate n m) m1) m1 m2).
Proof. exact stripes_other_spec. Qed.
(** It always succeeds if Z and v are there, and ignores variables that are not. *)
Theorem C101_succeeds : forall var d z v, var <> "Z" -> lookup "Z" d = Some (Grid z) -> lookup "v" d = Some (Grid v) ->
  (forall l, lookup var d <> Some (Flat l)) ->
  (exists d', filter_stripes var d = Ok d') /\ (lookup var d = None -> filter_stripes var d = Ok d).
Proof. intros var d z v N Z V F. split; [exact (stripes_total var d z v N Z V F)|apply stripes_absent]. Qed.
(** In the whole cleaning of measurements with only velocities, velocity stripes are
    removed before incomplete pixels are masked everywhere. *)
Theorem C101_clean : forall source d d' z v n, ~ occurs_any_case "rpg" source -> ~ occurs_any_case "basta" source ->
  lookup "Z" d = Some (Grid z) -> lookup "v" d = Some (Grid v) -> lookup "v_sigma" d = None -> lookup "ldr" d = None ->
  (forall i row, nth_error v i = Some row -> length row = n) -> 300 <= length (filter (Nat.ltb 0) (per_profile n v)) ->
  clean source d = Ok d' ->
  forall k m i j, lookup k d' = Some (Grid m) -> shown m i j ->
    ~ in_striped_profile (per_profile n v) z i j /\ ~ in_striped_gate (per_gate n v) z i j.
Proof.
  intros source d d' z v n N1 N2 Z V NS NL R L H k m i j E Sh.
  assert (N : is_rpg source = false).
  { destruct (is_rpg source) eqn:X; [|reflexivity]. exfalso. unfold is_rpg in X. cbn [existsb] in X. rewrite orb_false_r, orb_true_iff in X.
    rewrite (contains_lower _ _ rpg_lower), (contains_lower _ _ basta_lower) in X. destruct X; contradiction. }
  unfold clean in H. fold (is_rpg source) in H. rewrite N in H. cbn [bind fold_result] in H. apply bind_ok in H. destruct H as (d3 & H3 & H4).
  apply bind_ok in H3. destruct H3 as (d1 & S1 & H3).
  destruct (stripes_v_spec _ _ _ _ _ Z V R S1) as [[C _]|(_ & K & O & v1 & v2 & V2 & M1 & M2)]; [lia|].
  rewrite (stripes_absent "v_sigma" d1) in H3 by (rewrite O by discriminate; exact NS). cbn [bind] in H3.
  rewrite (stripes_absent "ldr" d1) in H3 by (rewrite O by discriminate; exact NL). cbn [bind] in H3.
  assert (d3 = d1) by congruence. subst d3.
  destruct (remove_incomplete_spec _ _ H4) as (z' & v' & Z' & V' & _ & P). assert (v' = v2) by congruence. subst v'.
  specialize (P k). destruct (lookup k d1) as [[x|l]|]; [|congruence|congruence]. destruct P as (x' & X' & S & [SM M]).
  assert (x' = m) by congruence. subst x'. destruct Sh as [e Sh].
  destruct (alike_pixel _ _ i j _ (alike_sym _ _ SM) Sh) as [b B].
  assert (Sv : shown v2 i j).
  { destruct (shown_dec v2 i j) as [Y|Y]; [exact Y|]. exfalso. destruct (M i j b B) as [[_ C]|[C _]]; [congruence|]. apply C. intros (_ & C' & _). contradiction. }
  destruct Sv as [a A]. destruct M2 as [S2 M2]. destruct M1 as [S1' M1].
  destruct (alike_pixel _ _ i j _ (alike_sym _ _ S2) A) as [c C]. destruct (M2 i j c C) as [[_ D]|[D D']]; [congruence|].
  assert (C1 : pixel v1 i j = Some (Some a)) by congruence.
  destruct (alike_pixel _ _ i j _ (alike_sym _ _ S1') C1) as [f F]. destruct (M1 i j f F) as [[_ D1]|[D1 _]]; [congruence|]. auto.
Qed.

(** 300 profiles with data, then a profile with 21 visible gates between empty ones. *)
Definition ex_row : list (masked Q) := Some 1%Q :: repeat None 20.
Definition ex_image : image (masked Q) :=
  repeat ex_row 300 ++ repeat (repeat None 21) 5 ++ [repeat (Some 2%Q) 21] ++ repeat (repeat None 21) 5.
Definition ex_striped : dict rvar := [("Z", Grid ex_image); ("v", Grid ex_image)].
Definition pixel_after (r : result (dict rvar)) (key : string) (i j : nat) : option (masked Q) :=
  match r with Ok d' => match lookup key d' with Some (Grid m) => pixel m i j | _ => None end | Raise _ => None end.
Lemma ex_rows : forall i row, nth_error ex_image i = Some row -> length row = 21.
Proof.
  intros i row E. apply nth_error_In in E. unfold ex_image in E. rewrite !in_app_iff in E.
  destruct E as [E|[E|[E|E]]].
  - apply repeat_spec in E. subst row. reflexivity.
  - apply repeat_spec in E. subst row. reflexivity.
  - destruct E as [<-|[]]. reflexivity.
  - apply repeat_spec in E. subst row. reflexivity.
Qed.
Example C101_nonvacuous : lookup "Z" ex_striped = Some (Grid ex_image) /\ lookup "v" ex_striped = Some (Grid ex_image) /\
  lookup "ldr" ex_striped = None /\ (forall i row, nth_error ex_image i = Some row -> length row = 21) /\
  300 <=? length (filter (Nat.ltb 0) (per_profile 21 ex_image)) = true /\
  stripe [0; 1; 0; 1; 0; 30; 1; 1; 1; 0; 0] 5 /\
  pixel ex_image 305 7 = Some (Some 2%Q) /\
  pixel_after (filter_stripes "v" ex_striped) "v" 305 7 = Some None /\
  pixel_after (filter_stripes "v" ex_striped) "v" 7 0 = Some (Some 1%Q).
Proof.
  split; [reflexivity|]. split; [reflexivity|]. split; [reflexivity|]. split; [exact ex_rows|].
  split; [reflexivity|].
  split.
  { split; [lia|]. split; [cbn; lia|]. exists 0%Q, 1%Q. split.
    - exists 0, 0, 0, 0, 0, 1, 1, 1, 1, 1. split.
      + cbn. apply perm_skip. apply (Permutation_cons_app [0; 0; 0; 0]). cbn. apply perm_skip.
        apply (Permutation_cons_app [0; 0; 0]). cbn. apply perm_skip.
        apply (Permutation_cons_app [0; 0]). cbn. apply (Permutation_cons_app [0; 0]). cbn. apply (Permutation_cons_app [0; 0]). cbn. reflexivity.
      + repeat (split; [lia|]). split; reflexivity.
    - split; [intros [X _]; discriminate X|]. exists 30. split; [reflexivity|]. split; [lia|]. split; reflexivity. }
  split; [reflexivity|]. split; reflexivity.
Qed.
Print Assumptions C101_velocity.
Print Assumptions C101_other.
Print Assumptions C101_succeeds.
Print Assumptions C101_clean.
