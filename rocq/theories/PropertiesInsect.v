(** Property C84: insect detection from the radar variables.  The normal distribution
    function is any increasing function with values from 0 to 1 and 1/2 at 0. *)
From Verif Require Import Base ArrayModel FillModel FillProofs GridModel GridProofs InsectModel InsectSpec MeltSpec InsectProbProofs.
From Coq Require Import Lqa String.
Open Scope Q_scope.

(** The probabilities lie between 0 and 1; masked means 0; the flag is exactly a
    probability above the limit. *)
Theorem C84_probability : forall cdf lim radar pixels melt liq rain j f pr, distribution cdf -> 0 <= lim ->
  nth_error (find_insects cdf lim radar pixels melt liq rain) j = Some (f, pr) ->
  (forall x, pr = Some x -> 0 < x /\ x <= 1) /\ (f = true <-> exists x, pr = Some x /\ lim < x).
Proof.
  intros cdf lim radar pixels melt liq rain j f pr D L H.
  destruct (profile_value cdf lim radar pixels melt liq rain j f pr H) as (p & _ & V & F). split.
  - intros x Hx. destruct (V x Hx) as [-> N]. pose proof (probability_range cdf D radar p) as R. cbn zeta in R. split; [|lra].
    destruct (Qlt_le_dec 0 (fst (insect_probability cdf radar p))) as [X|X]; [exact X|]. exfalso. apply N. lra.
  - rewrite F. split.
    + intros X. destruct pr as [x|]; [exists x; auto|lra].
    + intros (x & -> & X). exact X.
Qed.
(** With a limit of one half or more (0.8 by default), an insect needs one of three
    signatures, and a dry profile without liquid at the gate and without melting layer
    at or below it. *)
Theorem C84_requires : forall cdf lim radar pixels melt liq rain j pr, distribution cdf -> 1 # 2 <= lim ->
  nth_error (find_insects cdf lim radar pixels melt liq rain) j = Some (true, pr) ->
  (exists p, nth_error pixels j = Some p /\ (by_others radar p \/ by_ldr p \/ by_sldr p)) /\
  rain = false /\ nth_error liq j = Some false /\ forall k, (k <= j)%nat -> nth_error melt k <> Some true.
Proof.
  intros cdf lim radar pixels melt liq rain j pr D L H.
  destruct (profile_value cdf lim radar pixels melt liq rain j true pr H) as (p & Ep & V & F).
  apply profile_flags, find_insects_screened in H; [|lra]. destruct H as (R & Lq & M & _). split; [|auto].
  exists p. split; [exact Ep|]. apply (probability_half cdf D). assert (X := proj1 F eq_refl). destruct pr as [x|]; [|lra].
  rewrite <- (proj1 (V x eq_refl)). lra.
Qed.
(** Clear cases are found, outside rain, liquid and melting layers and what is above
    them: by depolarisation [k] standard deviations beyond the limits, or by the other
    variables. *)
Definition unscreened (melt liq : list bool) (j : nat) : Prop :=
  nth_error liq j = Some false /\ (forall k, (k <= j)%nat -> nth_error melt k <> Some true) /\
  forall k, (k <= j)%nat -> nth_error liq k <> Some true.
Lemma flagged cdf lim radar pixels melt liq j p : distribution cdf -> 0 <= lim -> List.length pixels = List.length liq -> List.length melt = List.length liq ->
  unscreened melt liq j -> nth_error pixels j = Some p -> lim < fst (insect_probability cdf radar p) ->
  exists pr, nth_error (find_insects cdf lim radar pixels melt liq false) j = Some (true, pr).
Proof.
  intros D L L1 L2 (U1 & U2 & U3) Ep H.
  assert (F : nth_error (find_insects_row lim (map fst (map (insect_probability cdf radar) pixels)) (map snd (map (insect_probability cdf radar) pixels)) melt liq false) j = Some true).
  { apply (find_insects_complete lim _ _ melt liq j (fst (insect_probability cdf radar p)) (snd (insect_probability cdf radar p)));
      try assumption; rewrite ?map_length; try assumption.
    - rewrite !nth_error_map', Ep. reflexivity.
    - rewrite !nth_error_map', Ep. reflexivity.
    - right. exact U3. }
  unfold find_insects, find_insects_row in *. rewrite nth_error_map' in F. rewrite nth_error_map'.
  destruct (nth_error (screen_insects_row _ _ _ _ _) j) as [x|]; cbn [option_map] in *; [|discriminate].
  assert (E : qgt x lim = true) by congruence. rewrite E. eexists. reflexivity.
Qed.
Theorem C84_detects : forall cdf lim radar pixels melt liq j p k, distribution cdf -> 0 <= lim ->
  List.length pixels = List.length liq -> List.length melt = List.length liq -> unscreened melt liq j -> nth_error pixels j = Some p ->
  ((exists l, px_ldr p = Some l /\ at_least (-25 + k * 5) l /\ at_least (268 + k * 2) (px_tw p) /\ lim < cdf k * cdf k) \/
   (at_most (-20 - k * 8) (px_z p) /\ at_least (274 + k * 1) (px_tw p) /\ if_measured (at_most (1 - k * (3 # 10))) (px_width p) /\
    at_least (- (7 # 2) + k * 2) (px_v p) /\ px_lwp p <= (15 # 100) - k * (5 # 100) /\ lim < cdf k * cdf k * cdf k * cdf k * cdf k)) ->
  exists pr, nth_error (find_insects cdf lim radar pixels melt liq false) j = Some (true, pr).
Proof.
  intros cdf lim radar pixels melt liq j p k D L L1 L2 U Ep H. apply (flagged cdf lim radar pixels melt liq j p); try assumption.
  destruct H as [(l & El & A & B & C)|(A & B & C & E & F & G)].
  - apply (Qlt_le_trans _ _ _ C). exact (ldr_detects cdf D radar p l k El A B).
  - apply (Qlt_le_trans _ _ _ G). exact (others_detects cdf D radar p k A B C E F).
Qed.
(** A pixel without reflectivity, depolarisation and velocity variance is no insect. *)
Theorem C84_missing : forall cdf lim radar pixels melt liq rain j p f pr, distribution cdf -> 0 <= lim -> nth_error pixels j = Some p ->
  px_z p = None -> (forall y, px_ldr p = Some y -> y = None) -> (forall y, px_sldr p = Some y -> y = None) -> px_v_sigma p = None ->
  nth_error (find_insects cdf lim radar pixels melt liq rain) j = Some (f, pr) -> f = false /\ pr = None.
Proof.
  intros cdf lim radar pixels melt liq rain j p f pr D L Ep Z Ld Sl Vs H.
  destruct (profile_value cdf lim radar pixels melt liq rain j f pr H) as (p' & Ep' & V & F). assert (p' = p) by congruence. subst p'.
  assert (N : pr = None).
  { destruct pr as [x|]; [|reflexivity]. destruct (V x eq_refl) as [-> N]. exfalso. apply N. exact (nothing_measured cdf radar p Z Ld Sl Vs). }
  split; [|exact N]. subst pr. destruct f; [|reflexivity]. assert (X := proj1 F eq_refl). lra.
Qed.
(** Warming a pixel never removes an insect for limits up to 0.9, and without side
    looking depolarisation never lowers the probability. *)
Theorem C84_warmer : forall cdf radar p q, distribution cdf -> warmer p q ->
  (forall lim, lim <= 9 # 10 -> lim < fst (insect_probability cdf radar p) -> lim < fst (insect_probability cdf radar q)) /\
  (px_ldr p <> None \/ px_sldr p = None -> fst (insect_probability cdf radar p) <= fst (insect_probability cdf radar q)).
Proof.
  intros cdf radar p q D W. split.
  - intros lim. exact (flag_warmer cdf D radar p q W lim).
  - exact (probability_warmer cdf D radar p q W).
Qed.
Print Assumptions C84_probability.
Print Assumptions C84_requires.
Print Assumptions C84_detects.
Print Assumptions C84_missing.
Print Assumptions C84_warmer.

(** A distribution function: a ramp from -2 to 2. *)
Definition ramp (x : Q) : Q := if Qle_bool x (-2) then 0 else if Qle_bool 2 x then 1 else (x + 2) / 4.
Lemma ramp_distribution : distribution ramp.
Proof.
  assert (C : forall x, (x <= -2 /\ ramp x = 0) \/ (2 <= x /\ ramp x = 1) \/ (-2 < x /\ x < 2 /\ ramp x = (x + 2) / 4)).
  { intros x. unfold ramp. destruct (Qle_bool x (-2)) eqn:E1; [apply Qle_bool_iff in E1; auto|].
    assert (-2 < x) by (destruct (Qlt_le_dec (-2) x) as [X|X]; [exact X|apply Qle_bool_iff in X; congruence]).
    destruct (Qle_bool 2 x) eqn:E2; [apply Qle_bool_iff in E2; auto|].
    assert (x < 2) by (destruct (Qlt_le_dec x 2) as [X|X]; [exact X|apply Qle_bool_iff in X; congruence]). auto. }
  assert (B : forall x, (x + 2) / 4 == (x + 2) * (1 # 4)) by (intros x; field).
  split.
  - intros x y L. destruct (C x) as [[? ->]|[[? ->]|(? & ? & ->)]], (C y) as [[? ->]|[[? ->]|(? & ? & ->)]]; rewrite ?B; lra.
  - intros x. destruct (C x) as [[? ->]|[[? ->]|(? & ? & ->)]]; rewrite ?B; lra.
  - reflexivity.
Qed.
Definition pixel_of (z v v_sigma tw : masked Q) (ldr sldr : option (masked Q)) : insect_pixel :=
  {| px_z := z; px_v := v; px_width := None; px_v_sigma := v_sigma; px_ldr := ldr; px_sldr := sldr; px_tw := tw; px_lwp := 0 |}.
(** Four gates: an insect by depolarisation, one by the other variables, one too cold,
    one with nothing measured. *)
Example C84_nonvacuous : distribution ramp /\
  map fst (find_insects ramp (4 # 5) "MIRA-35"
    [pixel_of (Some (-10)) (Some 0) None (Some 280) (Some (Some (-10))) None;
     pixel_of (Some (-40)) (Some 1) None (Some 280) (Some None) None;
     pixel_of (Some (-40)) (Some 1) None (Some 267) (Some (Some (-10))) None;
     pixel_of None None None (Some 280) (Some None) None]
    [false; false; false; false] [false; false; false; false] false) = [true; true; false; false] /\
  4 # 5 < ramp 2 * ramp 2 /\ unscreened [false; false; false; false] [false; false; false; false] 0 /\
  warmer (pixel_of (Some (-40)) (Some 1) None (Some 267) (Some (Some (-10))) None) (pixel_of (Some (-40)) (Some 1) None (Some 280) (Some (Some (-10))) None).
Proof.
  split; [exact ramp_distribution|]. split; [reflexivity|]. split; [reflexivity|]. split.
  - split; [reflexivity|]. split; intros k Hk; replace k with 0%nat by lia; discriminate.
  - exists 267, 280. repeat split; discriminate.
Qed.
(** The claim "warming never lowers the probability" fails with side looking
    depolarisation: when the product of depolarisation and temperature passes 0.9 it
    replaces a higher value. *)
Theorem C84_sldr_refuted : exists cdf radar p q, distribution cdf /\ warmer p q /\
  fst (insect_probability cdf radar q) < fst (insect_probability cdf radar p).
Proof.
  exists ramp, "RPG-FMCW-94"%string,
    (pixel_of (Some (-40)) None (Some 1) (Some (2712 # 10)) None (Some (Some (-1525 # 100)))),
    (pixel_of (Some (-40)) None (Some 1) (Some (2715 # 10)) None (Some (Some (-1525 # 100)))).
  split; [exact ramp_distribution|]. split; [exists (2712 # 10), (2715 # 10); repeat split; discriminate|reflexivity].
Qed.
Print Assumptions C84_sldr_refuted.
