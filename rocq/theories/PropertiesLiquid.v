(** Properties C76-C79: distances in gates, peaks, gap filling of the liquid water
    path, liquid layers from the lidar. *)
From Verif Require Import Base ArrayModel FillModel TimeModel GridModel ImageModel DropletModel DropletSpec DropletProofs.
From Coq Require Import Lqa Qabs.
Open Scope nat_scope.

(** ** C76: number of elements that cover a distance *)
(** Exact: the nearest integer to the distance divided by the median step (and by
    60 when the array is in hours and the distance in minutes). *)
Theorem C76_nearest : forall array dist per_minute n, n_elements array dist per_minute = Ok n <->
  exists steps d, steps_of array steps /\ is_median steps d /\ ~ (d == 0)%Q /\
    nearest_integer (if per_minute then dist / d / 60 else dist / d)%Q n.
Proof. exact n_elements_ok. Qed.
(** The elements cover the distance to within half a step, the step being between
    the smallest and the largest step of the array. *)
Theorem C76_covers : forall array dist per_minute lo hi,
  2 <= length array -> (0 < lo)%Q -> spacing_within array lo hi ->
  exists n d, n_elements array dist per_minute = Ok n /\ (lo <= d /\ d <= hi)%Q /\
    (2 * Qabs (inject_Z n * d * (if per_minute then 60 else 1) - dist) <= d * (if per_minute then 60 else 1))%Q.
Proof. exact n_elements_covers. Qed.
(** A longer distance never needs fewer elements. *)
Theorem C76_monotone : forall array d1 d2 per_minute n1 n2 lo hi,
  (0 < lo)%Q -> spacing_within array lo hi -> (d1 <= d2)%Q ->
  n_elements array d1 per_minute = Ok n1 -> n_elements array d2 per_minute = Ok n2 -> (n1 <= n2)%Z.
Proof. exact n_elements_monotone. Qed.
(** Arrays without a step. *)
Theorem C76_errors : forall array dist per_minute,
  (length array < 2 -> n_elements array dist per_minute = Raise ValueError) /\
  (2 <= length array -> spacing_within array 0 0 -> n_elements array dist per_minute = Raise ZeroDivisionError).
Proof. intros. split; [apply n_elements_short|apply n_elements_flat]. Qed.
Print Assumptions C76_nearest.
Print Assumptions C76_covers.
Print Assumptions C76_monotone.
Print Assumptions C76_errors.
(** The examples of the documentation, and the 4 hour window of 30 s profiles. *)
Example C76_nonvacuous :
  n_elements [2; 4; 6; 8; 10]%Q 6 false = Ok 3%Z /\ n_elements [2; 4; 6; 8; 10]%Q (69 # 10) false = Ok 3%Z /\
  n_elements [2; 4; 6; 8; 10]%Q 7 false = Ok 4%Z /\
  n_elements [0; 1 # 120; 2 # 120; 3 # 120]%Q 240 true = Ok 480%Z /\
  spacing_within [2; 4; 6; 8; 10]%Q 2 2 /\ n_elements [5]%Q 1 false = Raise ValueError /\
  n_elements [5; 5]%Q 1 false = Raise ZeroDivisionError.
Proof.
  split; [reflexivity|split; [reflexivity|split; [reflexivity|split; [reflexivity|split; [|split; reflexivity]]]]].
  intros [|[|[|[|[|i]]]]] a b Ha Hb; cbn [nth_error] in *; try discriminate; try (destruct i; discriminate);
  assert (Ea := f_equal (fun o => match o with Some x => x | None => 0%Q end) Ha);
  assert (Eb := f_equal (fun o => match o with Some x => x | None => 0%Q end) Hb);
  cbn in Ea, Eb; subst a b; split; discriminate.
Qed.

(** ** C77: base and top of a peak *)
(** The base is the lowest of the examined gates whose step exceeds the steepest
    step divided by the limit. *)
Theorem C77_base : forall dprof peak dist lim b, (0 < lim)%Q ->
  ind_base dprof peak dist lim = Ok b <-> base_of (nth_error dprof) peak dist lim b.
Proof. exact ind_base_iff. Qed.
(** The top is just above the highest of the examined gates whose descent exceeds
    the steepest descent divided by the limit. *)
Theorem C77_top : forall dprof peak nprof dist lim t, (0 < lim)%Q ->
  ind_top dprof peak nprof dist lim = Ok t <-> top_of (nth_error dprof) peak nprof dist lim t.
Proof. exact ind_top_iff. Qed.
(** A base is found if and only if the signal rises somewhere in the window; an
    empty window is a ValueError, and no rise an IndexError. *)
Theorem C77_base_found : forall dprof peak dist lim, (1 < lim)%Q ->
  ((exists b, ind_base dprof peak dist lim = Ok b) <->
     exists k x, below_peak peak dist k /\ nth_error dprof k = Some x /\ (0 < x)%Q) /\
  (ind_base dprof peak dist lim = Raise ValueError <->
     forall k, below_peak peak dist k -> nth_error dprof k = None) /\
  (forall e, ind_base dprof peak dist lim = Raise e -> e = ValueError \/ e = IndexError).
Proof. exact ind_base_errors. Qed.
Theorem C77_top_found : forall dprof peak nprof dist lim, (1 < lim)%Q ->
  ((exists t, ind_top dprof peak nprof dist lim = Ok t) <->
     exists k x, above_peak peak dist nprof k /\ nth_error dprof k = Some x /\ (x < 0)%Q) /\
  (ind_top dprof peak nprof dist lim = Raise ValueError <->
     forall k, above_peak peak dist nprof k -> nth_error dprof k = None) /\
  (forall e, ind_top dprof peak nprof dist lim = Raise e -> e = ValueError \/ e = IndexError).
Proof. exact ind_top_errors. Qed.
Print Assumptions C77_base.
Print Assumptions C77_top.
Print Assumptions C77_base_found.
Print Assumptions C77_top_found.
(** The examples of the documentation. *)
Example C77_nonvacuous :
  ind_base [1 # 2; 1 # 2; 0; 0; 4; -(3)]%Q 5 4 2 = Ok 4 /\ ind_base [1 # 2; 1 # 2; 0; 0; 4; -(3)]%Q 5 4 10 = Ok 1 /\
  ind_top [4; -(3); 0; -(1); 2]%Q 1 6 4 4 = Ok 4 /\ ind_base [0; -(1)]%Q 2 4 2 = Raise IndexError /\
  ind_base [1; 1]%Q 0 4 2 = Raise ValueError.
Proof. vm_compute. auto. Qed.

(** ** C78: gap filling of the liquid water path *)
(** Full claim: measured values are kept, masked values are interpolated linearly.
    Proved for measured values that are not zero, in days whose measured values do
    not add up to zero; see the two refutations. *)
Theorem C78_measured_kept_partial : forall time lwp i t y, rising time ->
  ~ (fold_right Qplus 0 (unmasked lwp) == 0)%Q ->
  nth_error time i = Some t -> nth_error lwp i = Some (Some y) -> ~ (y == 0)%Q ->
  exists z, nth_error (interpolate_lwp time lwp) i = Some z /\ (z == y)%Q.
Proof. exact interpolate_lwp_measured. Qed.
(** Between two measured values with nothing but masked values (or zeros) in
    between, the result lies on the straight line. *)
Theorem C78_gaps_linear : forall time lwp i t ia ta ya ib tb yb, rising time ->
  ~ (fold_right Qplus 0 (unmasked lwp) == 0)%Q -> nth_error time i = Some t ->
  nth_error time ia = Some ta -> nth_error lwp ia = Some (Some ya) -> ~ (ya == 0)%Q ->
  nth_error time ib = Some tb -> nth_error lwp ib = Some (Some yb) -> ~ (yb == 0)%Q ->
  ia < i -> i < ib ->
  (forall k y, ia < k -> k < ib -> nth_error lwp k = Some (Some y) -> (y == 0)%Q) ->
  exists z, nth_error (interpolate_lwp time lwp) i = Some z /\ (z == ya + (yb - ya) * ((t - ta) / (tb - ta)))%Q.
Proof. exact interpolate_lwp_linear. Qed.
(** One value per profile, within the range of the measured values and zero. *)
Theorem C78_range : forall time lwp, length (interpolate_lwp time lwp) = length time /\
  forall m M, rising time -> length time = length lwp -> (m <= 0 /\ 0 <= M)%Q ->
  (forall i y, nth_error lwp i = Some (Some y) -> m <= y /\ y <= M)%Q ->
  forall z, In z (interpolate_lwp time lwp) -> (m <= z /\ z <= M)%Q.
Proof. intros. split; [apply interpolate_lwp_length|apply interpolate_lwp_range]. Qed.
(** Without any measured liquid water the result is zero. *)
Theorem C78_nothing_measured : forall time lwp, (forall i y, nth_error lwp i = Some (Some y) -> (y == 0)%Q) ->
  interpolate_lwp time lwp = map (fun _ => 0%Q) time.
Proof. exact interpolate_lwp_masked. Qed.
(** A measured zero between two positive values is overwritten: [ma.where(obs.lwp)]
    selects the non-zero values, not the unmasked ones. *)
Theorem C78_zero_refuted : exists time lwp i z,
  rising time /\ nth_error lwp i = Some (Some 0%Q) /\
  nth_error (interpolate_lwp time lwp) i = Some z /\ (z == 1 # 10)%Q.
Proof.
  exists [1; 2; 3]%Q, [Some (1 # 10); Some 0; Some (1 # 10)]%Q, 1. eexists. split; [|split; [reflexivity|split; [reflexivity|]]].
  - intros [|[|[|i]]] [|[|[|j]]] a b L Ha Hb; cbn [nth_error] in *; try lia; try discriminate;
    (injection Ha as <-; injection Hb as <-; lra) || (destruct i; discriminate) || (destruct j; discriminate).
  - vm_compute. reflexivity.
Qed.
(** Measured values that happen to add up to zero are all replaced by zero. *)
Theorem C78_sum_refuted : exists time lwp i y z,
  rising time /\ nth_error lwp i = Some (Some y) /\ (1 # 10 < y)%Q /\
  nth_error (interpolate_lwp time lwp) i = Some z /\ (z == 0)%Q.
Proof.
  exists [1; 2]%Q, [Some (1 # 5); Some (- (1 # 5))]%Q, 0. do 2 eexists. split; [|split; [reflexivity|split; [reflexivity|split; [reflexivity|reflexivity]]]].
  intros [|[|i]] [|[|j]] a b L Ha Hb; cbn [nth_error] in *; try lia; try discriminate;
    (injection Ha as <-; injection Hb as <-; lra) || (destruct i; discriminate) || (destruct j; discriminate).
Qed.
Print Assumptions C78_measured_kept_partial.
Print Assumptions C78_gaps_linear.
Print Assumptions C78_range.
Print Assumptions C78_nothing_measured.
Print Assumptions C78_zero_refuted.
Print Assumptions C78_sum_refuted.
Example C78_nonvacuous :
  map Qred (interpolate_lwp [1; 2; 3; 4; 5]%Q [None; Some (1 # 10); None; Some (3 # 10); None]%Q)
  = [1 # 10; 1 # 10; 1 # 5; 3 # 10; 3 # 10]%Q.
Proof. vm_compute. reflexivity. Qed.

(** ** C79: liquid layers from the lidar *)
(** Exact: a pixel is liquid if and only if it lies between base and top of a peak
    that meets all the documented conditions. *)
Theorem C79_exact : forall o time height lwp beta below above out,
  rising height -> rectangular beta height -> length time = length beta ->
  n_elements height 200 false = Ok below -> n_elements height 150 false = Ok above ->
  find_liquid o time height lwp beta = Ok out ->
  forall i j, pixel out i j = Some true <->
    exists row w p base top, nth_error beta i = Some row /\ nth_error (interpolate_lwp time lwp) i = Some w /\
      layer_of_peak (peak_amp o) (max_width o) (min_points o) (min_top_der o) (min_lwp o) (min_alt o)
        below above height w row p base top /\ base <= j <= top.
Proof. exact find_liquid_exact. Qed.
(** Every liquid pixel is close to a gate with strong backscatter, which lies at
    least the minimum altitude above the first gate, in a profile whose liquid water
    path is not below its limit. *)
Theorem C79_strong_signal : forall o time height lwp beta below above out i j h,
  rising height -> rectangular beta height -> length time = length beta ->
  n_elements height 200 false = Ok below -> n_elements height 150 false = Ok above -> (0 <= peak_amp o)%Q ->
  find_liquid o time height lwp beta = Ok out -> pixel out i j = Some true -> nth_error height j = Some h ->
  exists p x hp h0 w, pixel beta i p = Some (Some x) /\ (peak_amp o < x)%Q /\
    nth_error height p = Some hp /\ nth_error height 0 = Some h0 /\
    (h - hp < max_width o /\ hp - h < max_width o /\ min_alt o < hp - h0)%Q /\
    nth_error (interpolate_lwp time lwp) i = Some w /\ (min_lwp o <= w)%Q.
Proof.
  intros o time height lwp beta below above out i j h R Rect L Eb Ea P H T Hj.
  apply (find_liquid_exact o time height lwp beta below above out R Rect L Eb Ea H) in T.
  destruct T as (row & w & p & base & top & Hr & Hw & (SP & B & Tp & _ & Lw & h0 & hp & hb & ht & H0 & Hp & Hb & Ht & W & _ & A) & J).
  assert (Bp := base_in_range _ _ _ _ _ B). destruct (top_in_range _ _ _ _ _ _ Tp) as [_ Pt].
  destruct SP as [S _]. unfold signal in S.
  destruct (nth_error row p) as [[x|]|] eqn:Ex; try (exfalso; lra).
  exists p, x, hp, h0, w. split; [unfold pixel; rewrite Hr; exact Ex|].
  assert (M : forall a b ha hb', a <= b -> nth_error height a = Some ha -> nth_error height b = Some hb' -> (ha <= hb')%Q).
  { intros a b ha hb' Lab Ha Hb'. destruct (Nat.eq_dec a b) as [<-|N].
    - assert (ha = hb') by congruence. subst. lra.
    - apply Qlt_le_weak. apply (R a b); [lia|assumption|assumption]. }
  assert (M1 := M base j hb h (proj1 J) Hb Hj). assert (M2 := M j top h ht (proj2 J) Hj Ht).
  assert (M3 := M base p hb hp (Nat.lt_le_incl _ _ Bp) Hb Hp). assert (M4 := M p top hp ht (Nat.lt_le_incl _ _ Pt) Hp Ht).
  repeat split; try assumption; lra.
Qed.
(** The function succeeds, with one flag per pixel, when 200 m and 150 m are at least
    one gate. *)
Theorem C79_total : forall o time height lwp beta below above, rising height -> rectangular beta height ->
  length time = length beta ->
  n_elements height 200 false = Ok below -> n_elements height 150 false = Ok above -> (1 <= below)%Z -> (1 <= above)%Z ->
  exists out, find_liquid o time height lwp beta = Ok out /\
    forall i j, pixel out i j = None <-> pixel beta i j = None.
Proof. exact find_liquid_total. Qed.
(** On a grid of 400 m any strong peak stops the processing: the window below the
    peak is empty, and only IndexError is caught. *)
Theorem C79_coarse_refuted : exists time height lwp beta, rising height /\ rectangular beta height /\
  length time = length beta /\ length lwp = length beta /\
  find_liquid default_limits time height lwp beta = Raise ValueError.
Proof.
  exists [1]%Q, [0; 400; 800; 1200]%Q, [Some 0%Q], [[Some 0; Some (1 # 1000); Some 0; Some 0]]%Q.
  split; [|split; [|split; [reflexivity|split; [reflexivity|vm_compute; reflexivity]]]].
  - intros [|[|[|[|i]]]] [|[|[|[|j]]]] a b Lt Ha Hb; cbn [nth_error] in *; try lia; try discriminate;
    try (destruct i; discriminate); try (destruct j; discriminate);
    assert (Ea := f_equal (fun o => match o with Some x => x | None => 0%Q end) Ha);
    assert (Eb := f_equal (fun o => match o with Some x => x | None => 0%Q end) Hb);
    cbn in Ea, Eb; subst a b; reflexivity.
  - intros [|n] row Hn; [|destruct n; discriminate]. cbn [nth_error] in Hn.
    assert (E := f_equal (fun o => match o with Some x => length x | None => 0 end) Hn). symmetry. exact E.
Qed.
(** The minimum altitude of a peak counts from the first gate, not from the ground: a
    layer 150 m above ground that meets all conditions is not found when the first
    gate is at 90 m. *)
Theorem C79_ground_refuted : exists time height lwp beta below above out row w p base top h0,
  n_elements height 200 false = Ok below /\ n_elements height 150 false = Ok above /\
  nth_error height 0 = Some h0 /\ nth_error beta 0 = Some row /\ nth_error (interpolate_lwp time lwp) 0 = Some w /\
  layer_of_peak (1 # 1000000) 300 3 (1 # 10000000) 0 (100 - h0) below above height w row p base top /\
  find_liquid default_limits time height lwp beta = Ok out /\ pixel out 0 p = Some false.
Proof.
  pose (height := [90; 120; 150; 180; 210; 240]%Q).
  pose (beta := [[Some 0; Some (1 # 100000); Some (1 # 10000); Some (1 # 100000); Some 0; Some 0]]%Q : image (masked Q)).
  pose (o := {| peak_amp := 1 # 1000000; max_width := 300; min_points := 3; min_top_der := 1 # 10000000;
                min_lwp := 0; min_alt := 100 - 90 |}).
  assert (R : rising height).
  { unfold height. intros [|[|[|[|[|[|i]]]]]] [|[|[|[|[|[|j]]]]]] a b Lt Ha Hb; cbn [nth_error] in *; try lia; try discriminate;
    try (destruct i; discriminate); try (destruct j; discriminate);
    assert (Ea := f_equal (fun o => match o with Some x => x | None => 0%Q end) Ha);
    assert (Eb := f_equal (fun o => match o with Some x => x | None => 0%Q end) Hb);
    cbn in Ea, Eb; subst a b; reflexivity. }
  assert (Rect : rectangular beta height).
  { intros [|n] row Hn; [|destruct n; discriminate]. unfold beta in Hn. cbn [nth_error] in Hn.
    assert (E := f_equal (fun o => match o with Some x => length x | None => 0 end) Hn). symmetry. exact E. }
  assert (Eb : n_elements height 200 false = Ok 7%Z) by reflexivity.
  assert (Ea : n_elements height 150 false = Ok 5%Z) by reflexivity.
  assert (F : find_liquid o [1]%Q height [Some 0%Q] beta = Ok [[false; true; true; true; false; false]]) by (vm_compute; reflexivity).
  assert (T := proj1 (find_liquid_exact o [1]%Q height [Some 0%Q] beta 7 5 _ R Rect eq_refl Eb Ea F 0 2) eq_refl).
  destruct T as (row & w & p & base & top & Hr & Hw & Lay & J).
  exists [1]%Q, height, [Some 0%Q], beta, 7%Z, 5%Z. eexists. exists row, w, p, base, top, 90%Q.
  split; [exact Eb|split; [exact Ea|split; [reflexivity|split; [exact Hr|split; [exact Hw|split; [exact Lay|]]]]]].
  split; [vm_compute; reflexivity|].
  assert (P : S p < length row) by apply Lay. unfold beta in Hr. cbn [nth_error] in Hr.
  assert (Lr := f_equal (fun o => match o with Some x => length x | None => 0 end) Hr). cbn in Lr. rewrite <- Lr in P.
  destruct p as [|[|[|[|[|p]]]]]; try reflexivity. lia.
Qed.
Print Assumptions C79_exact.
Print Assumptions C79_strong_signal.
Print Assumptions C79_total.
Print Assumptions C79_coarse_refuted.
Print Assumptions C79_ground_refuted.
(** One layer, and a profile with negative liquid water path. *)
Example C79_nonvacuous :
  n_elements [0; 50; 100; 150; 200; 250; 300]%Q 200 false = Ok 4%Z /\
  n_elements [0; 50; 100; 150; 200; 250; 300]%Q 150 false = Ok 3%Z /\
  find_liquid default_limits [1; 2]%Q [0; 50; 100; 150; 200; 250; 300]%Q [Some (1 # 10); Some (- (1 # 5))]%Q
    (let row := [Some 0; Some 0; Some (1 # 100000); Some (1 # 10000); Some (1 # 100000); None; Some 0]%Q in [row; row])
  = Ok [[false; false; true; true; true; false; false]; [false; false; false; false; false; false; false]].
Proof. vm_compute. auto. Qed.
