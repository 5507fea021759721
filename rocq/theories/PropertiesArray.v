(** Properties C06, C07, C08, C19, C20, C27, C35 (radii), C53: forward fill,
    resetting sums, cloud layers and what is built on them. *)
From Verif Require Import Base BitsModel StatusModel StatusSpec ArrayModel ArraySpec ArrayProofs
  FillModel FillSpec LayerModel FillProofs.
From Coq Require Import Qabs Lqa.
Open Scope nat_scope.

(** ** C07: forward fill. *)
Theorem C07_ffill_last_valid : forall (A : Type) (eqb : A -> A -> bool) (value : A),
  (forall a b, eqb a b = true <-> a = b) ->
  forall l, exists out, ffill eqb value l = Ok out /\ length out = length l /\
    forall i x, nth_error out i = Some x <->
      i < length l /\
      ((exists j, j <= i /\ nth_error l j = Some x /\ x <> value /\
          forall k, j < k -> k <= i -> nth_error l k = Some value)
       \/ (x = value /\ forall k, k <= i -> nth_error l k = Some value)).
Proof.
  intros A eqb value Heq l. destruct (ffill_ok eqb value Heq l) as (out & E & Hl & H).
  exists out. split; [exact E|]. split; [exact Hl|]. intros i x. rewrite H. unfold last_valid. split.
  - intros [(j & (Hj & (y & Hy & Hn) & Hk) & Hx & Hi)|(Hx & Hi & Hk)].
    + split; [exact Hi|]. left. exists j. rewrite Hy in Hx. injection Hx as <-. auto.
    + auto.
  - intros (Hi & [(j & Hj & Hx & Hn & Hk)|(Hx & Hk)]).
    + left. exists j. split; [|auto]. split; [exact Hj|]. split; [eauto|exact Hk].
    + right. auto.
Qed.
(** Rows of a 2-D array are filled one by one. *)
Theorem C07_ffill_rows_independent : forall (A : Type) (eqb : A -> A -> bool) (value : A),
  (forall a b, eqb a b = true <-> a = b) ->
  forall (m : image A), exists out, ffill2 eqb value m = Ok out /\
    length out = length m /\
    forall i r r', nth_error m i = Some r -> nth_error out i = Some r' -> ffill_spec value r r'.
Proof. exact ffill2_ok. Qed.
Print Assumptions C07_ffill_last_valid.
Print Assumptions C07_ffill_rows_independent.
Example C07_nonvacuous :
  ffill Z.eqb 0%Z [0; 5; 0; 0; 7; 0]%Z = Ok [0; 5; 5; 5; 7; 7]%Z /\
  ffill2 Z.eqb 0%Z [[1; 0]; [0; 2]]%Z = Ok [[1; 1]; [0; 2]]%Z.
Proof. vm_compute. auto. Qed.

(** ** C08: resetting cumulative sum. *)
Theorem C08_cumsumr : forall l, Forall (fun x => 0 <= x)%Q l ->
  length (cumsumr l) = length l /\
  forall i, i < length l -> exists y s, nth_error (cumsumr l) i = Some y /\
    since_zero l i s /\ (y == qsum (slice s (S i) l))%Q.
Proof.
  intros l Hl. destruct (cumsumr_correct l Hl) as [Hlen H]. split; [exact Hlen|].
  intros i Hi. destruct (since_zero_exists l i Hi) as [s Hs].
  destruct (nth_error_lt_Some (cumsumr l) i ltac:(lia)) as [y Hy]. exists y, s. eauto.
Qed.
(** At a zero entry the result is zero. *)
Theorem C08_zero_resets : forall l i x y, Forall (fun x => 0 <= x)%Q l ->
  nth_error l i = Some x -> (x == 0)%Q -> nth_error (cumsumr l) i = Some y -> (y == 0)%Q.
Proof. exact cumsumr_zero. Qed.
(** Without the sign condition the claim fails: after a negative sum the running
    maximum keeps an earlier reset level. *)
Theorem C08_signed_refuted : exists l i y s,
  nth_error (cumsumr l) i = Some y /\ since_zero l i s /\ ~ (y == qsum (slice s (S i) l))%Q.
Proof.
  exists [1; 0; -(2); 0; 3]%Q, 3. eexists. exists 4.
  split; [vm_compute; reflexivity|]. split.
  - split; [lia|]. split; [intros; lia|]. right. exists 0%Q. split; reflexivity.
  - vm_compute. discriminate.
Qed.
Print Assumptions C08_cumsumr.
Print Assumptions C08_zero_resets.
Print Assumptions C08_signed_refuted.
Example C08_nonvacuous :
  map Qred (cumsumr [1; 2; 0; 3; 4]%Q) = [1; 3; 0; 3; 7]%Q /\ since_zero [1; 2; 0; 3; 4]%Q 4 3.
Proof.
  split; [vm_compute; reflexivity|]. split; [lia|]. split.
  - intros k x Hk1 Hk2 Hx. assert (k = 3 \/ k = 4) as [->| ->] by lia; simpl in Hx; injection Hx as <-; discriminate.
  - right. exists 0%Q. split; reflexivity.
Qed.

(** ** C19: bases and tops pair up. *)
Theorem C19_layers_exact : forall m : image bool,
  exists layers, zip_layers m = Ok layers /\
    (forall bi b ti t, In ((bi, b), (ti, t)) layers <->
       bi = ti /\ exists row, nth_error m bi = Some row /\ max_run row b t) /\
    (forall i k, pixel m i k = Some true ->
       exists b t, In ((i, b), (i, t)) layers /\ b <= k <= t) /\
    StronglySorted (fun p q => let '((i, _), (_, t)) := p in let '((i', b'), _) := q in
       i < i' \/ (i = i' /\ S t < b')) layers.
Proof. exact layers_exact. Qed.
Print Assumptions C19_layers_exact.
Example C19_nonvacuous :
  zip_layers [[true; true; false; true]; []; [false; true; false; false]] =
    Ok [((0, 0), (0, 1)); ((0, 3), (0, 3)); ((2, 1), (2, 1))].
Proof. reflexivity. Qed.

(** ** C20: cloud base and top heights. *)
Theorem C20_base_and_top : forall cloud_mask height,
  height <> [] -> Forall (fun h => 0 < h)%Q height -> increasing height ->
  Forall (fun r => length r = length height) cloud_mask ->
  exists bases tops, base_and_top cloud_mask height = Ok (bases, tops) /\
    length bases = length cloud_mask /\ length tops = length cloud_mask /\
    forall i row, nth_error cloud_mask i = Some row ->
      exists b t, nth_error bases i = Some b /\ nth_error tops i = Some t /\
        ((b = None /\ t = None /\ ~ In true row) \/
         exists kb kt hb ht b' t', b = Some b' /\ t = Some t' /\ kb <= kt /\
           nth_error row kb = Some true /\ nth_error row kt = Some true /\
           (forall k, nth_error row k = Some true -> kb <= k <= kt) /\
           nth_error height kb = Some hb /\ nth_error height kt = Some ht /\
           (b' == hb)%Q /\ (t' == ht)%Q /\ (b' <= t')%Q).
Proof. exact base_and_top_profile. Qed.
Print Assumptions C20_base_and_top.
Example C20_nonvacuous :
  (match base_and_top [[false; true; true]; [false; false; false]] [100; 200; 300]%Q with
   | Ok (b, t) => Ok (map (option_map Qred) b, map (option_map Qred) t) | Raise e => Raise e end)
  = Ok ([Some 200; None]%Q, [Some 300; None]%Q).
Proof. vm_compute. reflexivity. Qed.
(** The height condition matters: a gate at height 0 is lost. *)
Example C20_zero_height_is_lost :
  base_and_top [[true; false]] [0; 100]%Q = Ok ([None], [None]).
Proof. vm_compute. reflexivity. Qed.

(** ** C06: radar attenuation status. *)
Theorem C06_status : forall p j v,
  nth_error (radar_attenuation_status_profile p) j = Some v ->
  exists px, nth_error (pr_pixels p) j = Some px /\
    (0 <= v <= 6)%Z /\
    ((1 <= v <= 5)%Z -> radar (ap_qual px) = true) /\
    (v = 0%Z -> radar (ap_qual px) = false) /\
    (v <> 6%Z -> severity_meaning p px v) /\
    (v = 6%Z <-> ~ severity_meaning p px 4%Z /\
       exists k, k < j /\ nth_error (radar_attenuation_status_profile p) k = Some 4%Z).
Proof. exact att_status_sound. Qed.
(** The value documented as "no radar signal, undetected cloud" is also given to
    pixels with a radar echo. *)
Definition att_q (r al cl : bool) : QualityBits :=
  {| radar := r; lidar := false; clutter := false; molecular := false;
     attenuated_liquid := al; corrected_liquid := cl; attenuated_rain := false;
     corrected_rain := false; attenuated_melting := false; corrected_melting := false |}.
Definition att_px (r al cl : bool) (a : masked Q) : att_pixel :=
  {| ap_qual := att_q r al cl; ap_liquid := a; ap_rain := None; ap_melting := None |}.
Definition att_profile_echo_above : att_profile :=
  {| pr_w_band := false; pr_lwp := None; pr_rain_rate := None;
     pr_pixels := [att_px true true true (Some 20%Q); att_px true true false None] |}.
Theorem C06_undetected_with_echo_refuted : exists p j px,
  nth_error (pr_pixels p) j = Some px /\ radar (ap_qual px) = true /\
  nth_error (radar_attenuation_status_profile p) j = Some 6%Z.
Proof.
  exists att_profile_echo_above, 1, (att_px true true false None). vm_compute. auto.
Qed.
Print Assumptions C06_status.
Print Assumptions C06_undetected_with_echo_refuted.
Example C06_nonvacuous :
  radar_attenuation_status_profile
    {| pr_w_band := true; pr_lwp := Some (1 # 2)%Q; pr_rain_rate := Some 2%Q;
       pr_pixels := [att_px true false false None; att_px true true true (Some 4%Q);
                     att_px true true true (Some 12%Q); att_px false false false None;
                     att_px true true true (Some 16%Q); att_px false false false None] |}
  = [1; 2; 3; 0; 4; 6]%Z.
Proof. vm_compute. reflexivity. Qed.

(** ** C27: insects. *)
Theorem C27_insects_screened : forall lim prob prob2 melt liq rain j,
  (0 <= lim)%Q ->
  nth_error (find_insects_row lim prob prob2 melt liq rain) j = Some true ->
  rain = false /\ nth_error liq j = Some false /\
  (forall k, k <= j -> nth_error melt k <> Some true) /\
  (forall x k, nth_error prob2 j = Some x -> (0 < x)%Q -> k <= j -> nth_error liq k <> Some true) /\
  exists p, nth_error prob j = Some p /\ (lim < p)%Q.
Proof. exact find_insects_screened. Qed.
(** Conversely nothing else is screened. *)
Theorem C27_nothing_else_screened : forall lim prob prob2 melt liq j p x,
  (0 <= lim)%Q -> length prob = length liq -> length prob2 = length liq -> length melt = length liq ->
  nth_error prob j = Some p -> (lim < p)%Q ->
  nth_error liq j = Some false -> (forall k, k <= j -> nth_error melt k <> Some true) ->
  nth_error prob2 j = Some x ->
  ((x <= 0)%Q \/ forall k, k <= j -> nth_error liq k <> Some true) ->
  nth_error (find_insects_row lim prob prob2 melt liq false) j = Some true.
Proof. exact find_insects_complete. Qed.
Print Assumptions C27_insects_screened.
Print Assumptions C27_nothing_else_screened.
Example C27_nonvacuous :
  find_insects_row (4 # 5) [9 # 10; 9 # 10; 9 # 10; 9 # 10; 1 # 2]%Q [0; 0; 1; 0; 0]%Q
    [false; false; false; true; false] [false; true; false; false; false] false
  = [true; false; false; false; false].
Proof. vm_compute. reflexivity. Qed.

(** ** C35 (second part): effective radii exist exactly in droplet pixels with an
    unmasked echo and a positive retrieval; the layer loop never fails. *)
Theorem C35_radius_only_in_droplets : forall (radius : Q -> Q) droplets z,
  same_shape droplets z ->
  exists out, append_der radius droplets z = Ok out /\ same_shape out z /\
    forall a b r, pixel out a b = Some (Some r) <->
      pixel droplets a b = Some true /\
      exists zz, pixel z a b = Some (Some zz) /\ (0 < radius zz)%Q /\ r = (radius zz * (1 # 1000))%Q.
Proof. intros radius droplets z. apply append_der_spec. Qed.
Print Assumptions C35_radius_only_in_droplets.
Example C35_radius_nonvacuous :
  append_der (fun z => z) [[true; true; false]; [false; true; true]]
    [[Some 1; None; Some 2]; [None; Some 3; Some (-1)]]%Q
  = Ok [[Some (1 # 1000); None; None]; [None; Some (3 # 1000); None]]%Q.
Proof. vm_compute. reflexivity. Qed.

(** ** C53: cloud top height status. *)
Theorem C53_top_status_of_cloud : forall height att_row k t a,
  increasing height -> nth_error height k = Some t -> nth_error att_row k = Some a ->
  exists s, top_status height att_row (Some t) = Ok s /\
    (s = 4%Z <-> S k = length height) /\
    (S k <> length height ->
       (s = 1%Z <-> a = 3%Z) /\ (s = 3%Z <-> a = 4%Z) /\ (s = 2%Z <-> a = 5%Z) /\
       (s = 0%Z <-> a <> 3%Z /\ a <> 4%Z /\ a <> 5%Z)).
Proof.
  intros height att_row k t a Hinc Hk Ha. rewrite (top_status_at_gate height att_row k t a Hinc Hk Ha).
  eexists. split; [reflexivity|].
  destruct (Nat.eqb_spec (S k) (length height)), (Z.eqb_spec a 5), (Z.eqb_spec a 4), (Z.eqb_spec a 3); subst;
    repeat split; try lia; try (intros [? [? ?]]); lia.
Qed.
(** A profile without any cloud is not "reliable" (0): it takes the status of the
    lowest gate. *)
Theorem C53_cloudless_profile_refuted : exists height att_row s,
  increasing height /\ Forall (fun h => 0 < h)%Q height /\
  top_status height att_row None = Ok s /\ s = 3%Z.
Proof.
  exists [100; 200]%Q, [4; 6]%Z, 3%Z. split; [|split; [|split; reflexivity]].
  - intros [|[|i]] [|[|j]] x y Hij Hx Hy; simpl in *; try lia; try discriminate;
      try (destruct i; discriminate); try (destruct j; discriminate).
    injection Hx as <-. injection Hy as <-. lra.
  - repeat constructor.
Qed.
Print Assumptions C53_top_status_of_cloud.
Print Assumptions C53_cloudless_profile_refuted.
Example C53_nonvacuous :
  top_status [100; 200; 300]%Q [1; 4; 6]%Z (Some 200%Q) = Ok 3%Z /\
  top_status [100; 200; 300]%Q [1; 4; 6]%Z (Some 300%Q) = Ok 4%Z.
Proof. vm_compute. auto. Qed.
