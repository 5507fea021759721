(** Properties C180-C181: the error and the sensitivity of the radar reflectivity. *)
From Verif Require Import Base GridModel DropletModel DropletSpec RadErrModel RadErrSpec RadErrProofs.
From Coq Require Import Reals Lra.
Open Scope nat_scope.
Open Scope list_scope.
Local Notation length := List.length (only parsing).

(** ** C180: the error of the reflectivity at a pixel *)
Open Scope R_scope.

(** A missing attenuation error counts as zero. *)
Definition counted (x : masked R) (v : R) : Prop := x = Some v \/ (x = None /\ v = 0).
Lemma counted_filled : forall x v, counted x v <-> v = filled x.
Proof. intros [y|] v; unfold counted; cbn; split; [intros [H|[H _]]; congruence|intros ->; auto|intros [H|[_ H]]; congruence|intros ->; auto]. Qed.

Theorem C180_value : forall zmin z log_range width step frequency liquid rain melting e, 0 < step -> 0 < frequency ->
  (forall w, width = Some (Some w) -> 0 <= w) ->
  (z_error zmin z log_range width step frequency liquid rain melting = Some e <->
   at_uncorrected liquid = false /\ at_uncorrected rain = false /\ at_uncorrected melting = false /\ 0 <= e /\
   exists a b w n p l r m, z = Some a /\ log_range = Some b /\ width_used z width w /\ w <> 0 /\
     pulses step frequency w n /\ random_error n zmin (a - b) p /\
     counted (at_error liquid) l /\ counted (at_error rain) r /\ counted (at_error melting) m /\
     e ^ 2 = p ^ 2 + l ^ 2 + r ^ 2 + m ^ 2).
Proof.
  intros zmin z lr width step f liq rain melt e S F O. rewrite (error_value zmin z lr width step f liq rain melt e S F O).
  split; intros (U1 & U2 & U3 & P & H); (split; [exact U1|]; split; [exact U2|]; split; [exact U3|]; split; [exact P|]).
  - destruct H as (a & b & w & n & p & Z & L & U & W & Pn & Re & E). exists a, b, w, n, p, (filled (at_error liq)), (filled (at_error rain)), (filled (at_error melt)).
    repeat (split; [assumption|]). repeat (split; [apply counted_filled; reflexivity|]). exact E.
  - destruct H as (a & b & w & n & p & l & r & m & Z & L & U & W & Pn & Re & C1 & C2 & C3 & E). apply counted_filled in C1, C2, C3. subst l r m. exists a, b, w, n, p. repeat (split; [assumption|]). exact E.
Qed.
Print Assumptions C180_value.

Theorem C180_masked : forall zmin z log_range width step frequency liquid rain melting, 0 < step -> 0 < frequency ->
  (forall w, width = Some (Some w) -> 0 <= w) ->
  (z_error zmin z log_range width step frequency liquid rain melting = None <->
   at_uncorrected liquid = true \/ at_uncorrected rain = true \/ at_uncorrected melting = true \/
   z = None \/ log_range = None \/ width = Some None \/ width = Some (Some 0)).
Proof. intros. apply error_masked; assumption. Qed.
Print Assumptions C180_masked.

Theorem C180_at_least_each_part : forall zmin z log_range width step frequency liquid rain melting e, 0 < step -> 0 < frequency ->
  (forall w, width = Some (Some w) -> 0 <= w) ->
  z_error zmin z log_range width step frequency liquid rain melting = Some e ->
  0 < e /\ forall x, In (Some x) [at_error liquid; at_error rain; at_error melting] -> x <= e.
Proof.
  intros zmin z lr width step f liq rain melt e S F O H. destruct (error_floor _ _ _ _ _ _ _ _ _ _ S F O H) as (P & A & B & C). split; [exact P|].
  intros x [E|[E|[E|[]]]]; [rewrite E in A|rewrite E in B|rewrite E in C]; assumption.
Qed.
Print Assumptions C180_at_least_each_part.

(** A stronger echo never has a larger error. *)
Theorem C180_stronger_echo : forall zmin a a' b width step frequency liquid rain melting e e', 0 < step -> 0 < frequency ->
  (forall w, width = Some (Some w) -> 0 <= w) -> a <= a' ->
  z_error zmin (Some a) (Some b) width step frequency liquid rain melting = Some e ->
  z_error zmin (Some a') (Some b) width step frequency liquid rain melting = Some e' -> e' <= e.
Proof. intros zmin a a' b width step f liq rain melt e e' S F O L H H'. exact (error_order zmin a a' b width step f liq rain melt e e' S F O L H H'). Qed.
Print Assumptions C180_stronger_echo.

(** With the random error alone: an echo as strong as the weakest one has a third more
    than [10 / ln 10 / sqrt n], and no echo has less than that. *)
Theorem C180_random_range : forall n zmin power p, random_error n zmin power p -> zmin <= power ->
  10 / ln 10 < p * sqrt n /\ p * sqrt n <= 4 / 3 * (10 / ln 10).
Proof.
  intros n zmin power p (N & E) L. rewrite E. assert (C : 0 < 10 / ln 10) by (apply Rdiv_lt_0_compat; [lra|apply ln10_pos]).
  assert (P : 0 < Rpower 10 ((zmin - power) / 10)) by (unfold Rpower; apply exp_pos).
  assert (Q : Rpower 10 ((zmin - power) / 10) <= 1) by (rewrite <- (Rpower_O 10) by lra; apply Rle_Rpower; lra).
  set (c := 10 / ln 10) in *. set (x := Rpower 10 ((zmin - power) / 10)) in *. clearbody c x.
  assert (0 < c * x) by (apply Rmult_lt_0_compat; lra). assert (c * x <= c * 1) by (apply Rmult_le_compat_l; lra).
  replace (c * (1 + x / 3)) with (c + c * x / 3) by field. lra.
Qed.
Print Assumptions C180_random_range.

Definition c180_good : atten := {| at_error := Some 2; at_uncorrected := false |}.
Definition c180_none : atten := {| at_error := None; at_uncorrected := false |}.
Definition c180_bad : atten := {| at_error := None; at_uncorrected := true |}.
Example C180_nonvacuous :
  0 < 1 / 120 /\ 0 < 35 /\ (forall w, @None (masked R) = Some (Some w) -> 0 <= w) /\
  (exists e, z_error (-100) (Some (-20)) (Some 60) None (1 / 120) 35 c180_good c180_none c180_none = Some e /\ 2 <= e) /\
  z_error (-100) (Some (-20)) (Some 60) None (1 / 120) 35 c180_good c180_none c180_bad = None /\
  z_error (-100) (Some (-20)) (Some 60) (Some (Some 0)) (1 / 120) 35 c180_good c180_none c180_none = None.
Proof.
  assert (O : forall w, @None (masked R) = Some (Some w) -> 0 <= w) by (intros w H; discriminate).
  assert (O2 : forall w, @Some (masked R) (Some 0) = Some (Some w) -> 0 <= w) by (intros w H; assert (w = 0) by congruence; lra).
  split; [lra|]. split; [lra|]. split; [exact O|]. split; [|split].
  - destruct (z_error (-100) (Some (-20)) (Some 60) None (1 / 120) 35 c180_good c180_none c180_none) as [e|] eqn:E.
    + exists e. split; [reflexivity|]. apply C180_at_least_each_part in E as [_ E]; [|lra|lra|exact O]. apply E. left. reflexivity.
    + exfalso. apply C180_masked in E; [|lra|lra|exact O]. destruct E as [E|[E|[E|[E|[E|[E|E]]]]]]; discriminate.
  - apply C180_masked; [lra|lra|exact O|]. right. right. left. reflexivity.
  - apply C180_masked; [lra|lra|exact O2|]. do 6 right. reflexivity.
Qed.

(** ** C181: the sensitivity of the radar as a function of height *)
Close Scope R_scope.

Theorem C181_length : forall z gas is_clutter log_range, length (calc_sensitivity z gas is_clutter log_range) = length log_range.
Proof. intros. unfold calc_sensitivity. rewrite map_length. apply seq_length. Qed.
Print Assumptions C181_length.

Theorem C181_clutter : forall z gas is_clutter log_range j s zs, nth_error (calc_sensitivity z gas is_clutter log_range) j = Some s ->
  gate_values j (fun i => pixel is_clutter i j = Some true) 0 z zs -> zs <> [] ->
  exists m, s = Some m /\ is_median zs m.
Proof. intros z gas c lr j s zs H Hz Ne. destruct (sensitivity_ok _ _ _ _ _ _ _ _ H Hz (gate_column j gas 0)) as [A _]. exact (A Ne). Qed.
Print Assumptions C181_clutter.

Theorem C181_no_clutter : forall z gas is_clutter log_range j s gs, nth_error (calc_sensitivity z gas is_clutter log_range) j = Some s ->
  gate_values j (fun i => pixel is_clutter i j = Some true) 0 z [] -> gate_values j (fun _ => True) 0 gas gs ->
  (s = None <-> gs = [] \/ nth_error log_range j = Some None) /\
  forall v, s = Some v -> exists p r, lowest_power z log_range p /\ nth_error log_range j = Some (Some r) /\
    ((v - p - r) * inject_Z (Z.of_nat (length gs)) == sum gs)%Q.
Proof.
  intros z gas c lr j s gs H Hz Hg. destruct (sensitivity_ok _ _ _ _ _ _ _ _ H Hz Hg) as [_ A]. destruct (A eq_refl) as (A1 & A2 & A3).
  pose proof (nth_error_Some_lt _ _ _ H) as J. rewrite C181_length in J. destruct (nth_error lr j) as [[r|]|] eqn:E; [| |apply nth_error_None in E; lia].
  - destruct gs as [|g gs].
    + split; [split; [auto|intros _; exact (A1 eq_refl)]|]. intros v X. rewrite (A1 eq_refl) in X. discriminate.
    + destruct (A3 r) as (p & v & L & -> & Eq); [discriminate|reflexivity|]. split; [split; [discriminate|intros [X|X]; discriminate]|].
      intros v' X. assert (v' = v) by congruence. subst v'. exists p, r. auto.
  - split; [split; [auto|intros _; exact (A2 eq_refl)]|]. intros v X. rewrite (A2 eq_refl) in X. discriminate.
Qed.
Print Assumptions C181_no_clutter.

(** The values of a gate exist and are unique. *)
Theorem C181_gate_values : forall z is_clutter gas j,
  (exists zs, gate_values j (fun i => pixel is_clutter i j = Some true) 0 z zs) /\
  (exists gs, gate_values j (fun _ => True) 0 gas gs) /\
  forall P m l l', gate_values j P 0 m l -> gate_values j P 0 m l' -> l = l'.
Proof.
  intros z c gas j. split; [eexists; apply gate_clutter0|]. split; [eexists; apply gate_column|]. intros P m l l' A B. exact (gate_unique _ _ _ _ _ A _ B).
Qed.
Print Assumptions C181_gate_values.

(** An echo that was detected can lie below the reported sensitivity: one pixel of
    clutter decides the whole gate. *)
Theorem C181_detected_is_above_sensitivity_refuted : exists z gas is_clutter log_range i j v s,
  pixel z i j = Some (Some v) /\ pixel is_clutter i j = Some false /\
  nth_error (calc_sensitivity z gas is_clutter log_range) j = Some (Some s) /\ (v + 30 <= s)%Q.
Proof.
  exists [[Some 10%Q]; [Some (-30)%Q]; [Some (-32)%Q]], [[Some 0%Q]; [Some 0%Q]; [Some 0%Q]], [[true]; [false]; [false]], [Some 50%Q], 1, 0, (-30)%Q.
  eexists. split; [reflexivity|]. split; [reflexivity|]. split; [reflexivity|]. vm_compute. discriminate.
Qed.
Print Assumptions C181_detected_is_above_sensitivity_refuted.

Definition c181_z : image (masked Q) := [[Some 10; Some (-20)]; [None; Some (-30)]]%Q.
Definition c181_gas : image (masked Q) := [[Some (1#2); Some 1]; [Some (1#2); Some 2]]%Q.
Definition c181_clutter : image bool := [[true; false]; [true; false]].
Definition c181_range : list (masked Q) := [Some 50; Some 54]%Q.
Example C181_nonvacuous :
  gate_values 0 (fun i => pixel c181_clutter i 0 = Some true) 0 c181_z [10%Q] /\
  gate_values 1 (fun i => pixel c181_clutter i 1 = Some true) 0 c181_z [] /\
  gate_values 1 (fun _ => True) 0 c181_gas [1; 2]%Q /\
  map (option_map Qred) (calc_sensitivity c181_z c181_gas c181_clutter c181_range) = [Some 10%Q; Some (-712 # 25)%Q].
Proof.
  split; [exact (gate_clutter0 0 c181_z c181_clutter)|]. split; [exact (gate_clutter0 1 c181_z c181_clutter)|]. split; [exact (gate_column 1 c181_gas 0)|]. vm_compute. reflexivity.
Qed.
