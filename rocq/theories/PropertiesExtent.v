(** Properties C198 and C199: dimensions of level 1b files, and the curve of the wind
    direction. *)
From Verif Require Import Base PlotModel PlotSpec PlotProofs ExtentModel ExtentSpec.
From Coq Require Import String Qround Qabs Lqa.
Open Scope string_scope.
Open Scope nat_scope.
Open Scope list_scope.
Local Notation length := List.length (only parsing).

(** ** C198: dimensions *)

(** Every dimension is defined once. *)
Theorem C198_once : forall data nd nv d, get_dimensions data nd nv = Ok d -> NoDup (map fst d).
Proof.
  intros data nd nv d H. unfold get_dimensions, second in H. cbn [flat_map] in H.
  destruct (data "time"), (data "range"), (data "chirp_start_indices"), nd, nv, (data "tb") as [tb|]; cbn [bind] in H;
    try (destruct (s_rest tb); cbn [bind] in H; [discriminate|]; destruct (data "receiver_nb"); cbn [bind] in H; [|discriminate]);
    destruct (data "irt") as [irt|]; cbn [bind] in H; try (destruct (s_rest irt); cbn [bind] in H; [discriminate|]);
    (match type of H with Ok ?l = Ok _ => assert (E : d = l) by congruence end); rewrite E; clear;
    cbn; repeat (constructor; [cbn; intuition discriminate|]); constructor.
Qed.
Print Assumptions C198_once.

(** Which dimensions there are, and how long they are. *)
Theorem C198_lengths : forall data nd nv d, get_dimensions data nd nv = Ok d -> forall k n, In (k, n) d <->
  (In k ["time"; "range"] /\ exists s, data k = Some s /\ n = s_first s) \/
  (k = "chirp_sequence" /\ exists s, data "chirp_start_indices" = Some s /\ n = hd (s_first s) (s_rest s)) \/
  (nd <> None /\ nv <> None /\ (k = "diameter" /\ nd = Some n \/ k = "velocity" /\ nv = Some n \/ k = "nv" /\ n = 2)) \/
  (exists tb r l, data "tb" = Some tb /\ data "receiver_nb" = Some r /\
     (k = "frequency" /\ s_rest tb = n :: l \/ k = "receiver_nb" /\ n = s_first r \/ (k = "band" \/ k = "t_amb_nb") /\ n = 2)) \/
  (k = "ir_channel" /\ exists s l, data "irt" = Some s /\ s_rest s = n :: l).
Proof.
  intros data nd nv d H k n. unfold get_dimensions in H.
  destruct (match data "tb" with None => Ok [] | Some s => _ end) as [hat|] eqn:Ht; [|discriminate]. cbn [bind] in H.
  destruct (match data "irt" with None => Ok [] | Some s => _ end) as [irt|] eqn:Hi; [|discriminate]. cbn [bind] in H.
  match type of H with Ok ?l = Ok _ => assert (E : d = l) by congruence end. rewrite E. clear H E. rewrite !in_app_iff.
  assert (A1 : In (k, n) (flat_map (fun k => match data k with Some s => [(k, s_first s)] | None => [] end) ["time"; "range"]) <->
    (In k ["time"; "range"] /\ exists s, data k = Some s /\ n = s_first s)).
  { rewrite in_flat_map. split.
    - intros (x & I & J). destruct (data x) as [s|] eqn:D; [|destruct J]. destruct J as [J|[]]. assert (x = k) by congruence. subst x. split; [exact I|]. exists s. split; [exact D|congruence].
    - intros (I & s & D & ->). exists k. split; [exact I|]. rewrite D. left. reflexivity. }
  rewrite A1. clear A1.
  assert (A2 : In (k, n) (match data "chirp_start_indices" with Some s => [("chirp_sequence", match s_rest s with n :: _ => n | [] => s_first s end)] | None => [] end) <->
    (k = "chirp_sequence" /\ exists s, data "chirp_start_indices" = Some s /\ n = hd (s_first s) (s_rest s))).
  { destruct (data "chirp_start_indices") as [s|].
    - split.
      + intros [J|[]]. split; [congruence|]. exists s. split; [reflexivity|]. unfold hd. congruence.
      + intros (-> & s' & X & ->). assert (s' = s) by congruence. subst. left. unfold hd. reflexivity.
    - split; [intros []|intros (_ & s & X & _); discriminate]. }
  rewrite A2. clear A2.
  assert (A3 : In (k, n) (match nd, nv with Some d, Some v => [("diameter", d); ("velocity", v); ("nv", 2)] | _, _ => [] end) <->
    (nd <> None /\ nv <> None /\ (k = "diameter" /\ nd = Some n \/ k = "velocity" /\ nv = Some n \/ k = "nv" /\ n = 2))).
  { destruct nd as [a|], nv as [b|]; cbn [In].
    - split.
      + intros [J|[J|[J|[]]]]; (split; [discriminate|]); (split; [discriminate|]); [left|right; left|right; right]; split; congruence.
      + intros (_ & _ & [[-> X]|[[-> X]|[-> ->]]]); [left|right; left|right; right; left]; congruence.
    - split; [intros []|intros (_ & X & _); contradiction].
    - split; [intros []|intros (X & _); contradiction].
    - split; [intros []|intros (X & _); contradiction]. }
  rewrite A3. clear A3.
  assert (A4 : In (k, n) hat <-> (exists tb r l, data "tb" = Some tb /\ data "receiver_nb" = Some r /\
     (k = "frequency" /\ s_rest tb = n :: l \/ k = "receiver_nb" /\ n = s_first r \/ (k = "band" \/ k = "t_amb_nb") /\ n = 2))).
  { destruct (data "tb") as [tb|].
    - unfold second in Ht. destruct (s_rest tb) as [|f l] eqn:R; [discriminate|]. cbn [bind] in Ht. destruct (data "receiver_nb") as [r|]; [|discriminate].
      assert (hat = [("frequency", f); ("receiver_nb", s_first r); ("band", 2); ("t_amb_nb", 2)]) by congruence. subst hat. cbn [In]. split.
      + intros J. exists tb, r, l. split; [reflexivity|]. split; [reflexivity|]. rewrite R.
        destruct J as [J|[J|[J|[J|[]]]]]; [left|right; left|right; right|right; right]; (split; [|congruence]); first [congruence|left; congruence|right; congruence].
      + intros (tb' & r' & l' & X & Y & Z). assert (tb' = tb) by congruence. assert (r' = r) by congruence. subst. rewrite R in Z.
        destruct Z as [[-> Z]|[[-> ->]|[[-> | ->] ->]]]; [left; congruence|auto|auto|auto].
    - assert (hat = []) by congruence. subst. split; [intros []|intros (tb & r & l & X & _); discriminate]. }
  rewrite A4. clear A4.
  assert (A5 : In (k, n) irt <-> (k = "ir_channel" /\ exists s l, data "irt" = Some s /\ s_rest s = n :: l)).
  { destruct (data "irt") as [s|].
    - unfold second in Hi. destruct (s_rest s) as [|f l] eqn:R; [discriminate|]. cbn [bind] in Hi. assert (irt = [("ir_channel", f)]) by congruence. subst irt. cbn [In]. split.
      + intros [J|[]]. split; [congruence|]. exists s, l. split; [reflexivity|]. congruence.
      + intros (-> & s' & l' & X & Y). left. assert (s' = s) by congruence. subst. congruence.
    - assert (irt = []) by congruence. subst. split; [intros []|intros (_ & s & l & X & _); discriminate]. }
  rewrite A5. reflexivity.
Qed.
Print Assumptions C198_lengths.

(** Errors: arrays with one dimension only, and brightness temperatures without receivers. *)
Theorem C198_errors : forall data nd nv e, get_dimensions data nd nv = Raise e <->
  (exists tb, data "tb" = Some tb /\ (s_rest tb = [] /\ e = IndexError \/ s_rest tb <> [] /\ data "receiver_nb" = None /\ e = KeyError)) \/
  ((forall tb, data "tb" = Some tb -> s_rest tb <> [] /\ data "receiver_nb" <> None) /\ exists irt, data "irt" = Some irt /\ s_rest irt = [] /\ e = IndexError).
Proof.
  intros data nd nv e. unfold get_dimensions, second. cbv zeta.
  assert (I : forall x, (bind (match data "irt" with None => Ok [] | Some s => bind (match s_rest s with n :: _ => Ok n | [] => Raise IndexError end) (fun n => Ok [("ir_channel", n)]) end)
      (fun irt => Ok (x irt : dimensions))) = Raise e <-> exists irt, data "irt" = Some irt /\ s_rest irt = [] /\ e = IndexError).
  { intros x. destruct (data "irt") as [s|].
    - destruct (s_rest s) as [|f l] eqn:R; cbn [bind]; split.
      + intros H. exists s. split; [reflexivity|]. split; [exact R|congruence].
      + intros (s' & _ & _ & ->). reflexivity.
      + discriminate.
      + intros (s' & X & Y & _). congruence.
    - cbn [bind]. split; [discriminate|intros (s & X & _); discriminate]. }
  destruct (data "tb") as [tb|]; [destruct (s_rest tb) as [|f l] eqn:R; [|destruct (data "receiver_nb") as [r|] eqn:N]|]; cbn [bind].
  - split.
    + intros H. left. exists tb. split; [reflexivity|]. left. split; [exact R|congruence].
    + intros [(tb' & X & [[_ ->]|[Y _]])|[X _]]; [reflexivity|congruence|]. destruct (X tb eq_refl). congruence.
  - rewrite I. split.
    + intros H. right. split; [|exact H]. intros tb' X. assert (tb' = tb) by congruence. subst. rewrite R. split; discriminate.
    + intros [(tb' & X & [[Y _]|[_ [Y _]]])|[_ X]]; [congruence|discriminate|exact X].
  - split.
    + intros H. left. exists tb. split; [reflexivity|]. right. rewrite R. split; [discriminate|]. split; [reflexivity|congruence].
    + intros [(tb' & X & [[Y _]|[_ [_ ->]]])|[X _]]; [congruence|reflexivity|]. destruct (X tb eq_refl). contradiction.
  - rewrite I. split; [intros H; right; split; [discriminate|exact H]|intros [(tb' & X & _)|[_ X]]; [discriminate|exact X]].
Qed.
Print Assumptions C198_errors.

Example C198_nonvacuous :
  get_dimensions (fun k => if String.eqb k "time" then Some {| s_first := 5; s_rest := [] |} else if String.eqb k "chirp_start_indices" then Some {| s_first := 5; s_rest := [3] |} else None) None None
    = Ok [("time", 5); ("chirp_sequence", 3)] /\
  get_dimensions (fun k => if String.eqb k "tb" then Some {| s_first := 5; s_rest := [14] |} else None) None None = Raise KeyError.
Proof. split; reflexivity. Qed.

(** ** C199: wind direction *)

Lemma mod360_spec : forall a, direction_of a (mod360 a).
Proof.
  intros a. unfold direction_of, mod360. pose proof (Qfloor_le (a / 360)) as L. pose proof (Qlt_floor (a / 360)) as U.
  rewrite inject_Z_plus in U. change (inject_Z 1) with 1%Q in U. assert (E : (a == 360 * (a / 360))%Q) by field.
  split; [split; lra|]. exists (Qfloor (a / 360)). lra.
Qed.
Lemma cut_spec : forall l, length (cut_wraps l) = length l /\
  forall i x, nth_error l i = Some x -> (jumps l i /\ nth_error (cut_wraps l) i = Some None) \/ (~ jumps l i /\ nth_error (cut_wraps l) i = Some (Some x)).
Proof.
  induction l as [|a l [IH1 IH2]]; [split; [reflexivity|intros [|i]; discriminate]|]. cbn [cut_wraps length]. split; [rewrite IH1; reflexivity|].
  intros [|i] x H.
  - cbn in H. assert (a = x) by congruence. subst a. cbn [nth_error]. destruct l as [|y l].
    + right. split; [intros (p & q & _ & Q & _); discriminate|reflexivity].
    + destruct (Qle_bool (Qabs (y - x)) 300) eqn:E.
      * right. split; [|reflexivity]. intros (p & q & P & Q & J). cbn in P, Q. assert (p = x) by congruence. assert (q = y) by congruence. subst.
        apply Qle_bool_iff in E. exact (Qlt_not_le _ _ J E).
      * left. split; [|reflexivity]. exists x, y. split; [reflexivity|]. split; [reflexivity|]. apply Qnot_le_lt. intros L. apply Qle_bool_iff in L. congruence.
  - cbn [nth_error] in *. destruct (IH2 i x H) as [[J C]|[J C]]; [left|right]; (split; [|exact C]); exact J.
Qed.

(** The curve: the direction of the mean wind, from 0 to below 360 degrees, without the
    points before a jump. *)
Theorem C199_curve : forall cosine sine angle speed direction time window curve,
  average_direction cosine sine angle speed direction time window = Some curve ->
  exists u v l,
    calculate_moving_average (map (fun p => fst p * cosine (snd p))%Q (combine speed direction)) time window = Some u /\
    calculate_moving_average (map (fun p => fst p * sine (snd p))%Q (combine speed direction)) time window = Some v /\
    length l = min (length u) (length v) /\ length curve = length l /\
    (forall i a b x, nth_error u i = Some a -> nth_error v i = Some b -> nth_error l i = Some x -> direction_of (angle b a) x) /\
    forall i x, nth_error l i = Some x ->
      (jumps l i /\ nth_error curve i = Some None) \/ (~ jumps l i /\ nth_error curve i = Some (Some x)).
Proof.
  intros c s g sp d t w curve H. unfold average_direction in H.
  destruct (calculate_moving_average (map (fun p => fst p * c (snd p))%Q (combine sp d)) t w) as [u|]; [|discriminate].
  destruct (calculate_moving_average (map (fun p => fst p * s (snd p))%Q (combine sp d)) t w) as [v|]; [|discriminate].
  exists u, v, (map (fun p => mod360 (g (snd p) (fst p))) (combine u v)). split; [reflexivity|]. split; [reflexivity|].
  assert (E : curve = cut_wraps (map (fun p => mod360 (g (snd p) (fst p))) (combine u v))) by congruence. rewrite E.
  destruct (cut_spec (map (fun p => mod360 (g (snd p) (fst p))) (combine u v))) as [C1 C2].
  split; [rewrite map_length; apply combine_length|]. split; [exact C1|]. split; [|exact C2].
  intros i a b x A B X. rewrite nth_error_map in X.
  assert (P : nth_error (combine u v) i = Some (a, b)).
  { clear - A B. revert v i A B. induction u as [|p u IH]; intros [|q v] [|i] A B; try discriminate; cbn in *; [congruence|apply IH; assumption]. }
  rewrite P in X. cbn in X. assert (X' : x = mod360 (g b a)) by congruence. rewrite X'. apply mod360_spec.
Qed.
Print Assumptions C199_curve.

(** For ascending times there is a curve, with one point per sample; its directions are
    those of the vectors whose components are centred means (as specified for C141). *)
Theorem C199_means : forall cosine sine angle speed direction time window,
  ascending time -> length speed = length time -> length direction = length time -> time <> [] -> (0 <= window)%Q ->
  exists curve u v l, average_direction cosine sine angle speed direction time window = Some curve /\
    averaged window time (map (fun p => fst p * cosine (snd p))%Q (combine speed direction)) u /\
    averaged window time (map (fun p => fst p * sine (snd p))%Q (combine speed direction)) v /\
    length curve = length time /\ length l = length time /\
    (forall i a b x, nth_error u i = Some a -> nth_error v i = Some b -> nth_error l i = Some x -> direction_of (angle b a) x) /\
    forall i x, nth_error l i = Some x ->
      (jumps l i /\ nth_error curve i = Some None) \/ (~ jumps l i /\ nth_error curve i = Some (Some x)).
Proof.
  intros c s g sp d t w A L1 L2 N W.
  assert (Len : forall f : Q * Q -> Q, length t = length (map f (combine sp d))) by (intros f; rewrite map_length, combine_length; lia).
  assert (Ne : forall f : Q * Q -> Q, map f (combine sp d) <> []).
  { intros f E. specialize (Len f). rewrite E in Len. destruct t; [contradiction|discriminate]. }
  destruct (moving_average_spec _ t w A (Len (fun p => fst p * c (snd p))%Q) (Ne _) W) as (u & U1 & U2).
  destruct (moving_average_spec _ t w A (Len (fun p => fst p * s (snd p))%Q) (Ne _) W) as (v & V1 & V2).
  assert (E : exists curve, average_direction c s g sp d t w = Some curve) by (unfold average_direction; rewrite U1, V1; eauto).
  destruct E as [curve E]. destruct (C199_curve _ _ _ _ _ _ _ _ E) as (u' & v' & l & U & V & K1 & K2 & K3 & K4).
  assert (u' = u) by congruence. assert (v' = v) by congruence. subst u' v'. exists curve, u, v, l.
  assert (Lu : length u = length t) by (destruct U2 as [-> _]; symmetry; apply Len).
  assert (Lv : length v = length t) by (destruct V2 as [-> _]; symmetry; apply Len).
  split; [exact E|]. split; [exact U2|]. split; [exact V2|]. split; [lia|]. split; [lia|]. split; [exact K3|exact K4].
Qed.
Print Assumptions C199_means.
Example C199_means_nonvacuous : ascending [0; 1]%Q /\ length [1; 1]%Q = length [0; 1]%Q.
Proof. split; [|reflexivity]. constructor; [constructor; [constructor|constructor]|]. constructor; [reflexivity|constructor]. Qed.

(** So no line is drawn between directions more than 300 degrees apart. *)
Theorem C199_no_jump : forall cosine sine angle speed direction time window curve i x y,
  average_direction cosine sine angle speed direction time window = Some curve ->
  nth_error curve i = Some (Some x) -> nth_error curve (S i) = Some (Some y) -> (Qabs (y - x) <= 300)%Q /\ (0 <= x < 360)%Q.
Proof.
  intros c s g sp d t w curve i x y H X Y. destruct (C199_curve _ _ _ _ _ _ _ _ H) as (u & v & l & _ & _ & L1 & L2 & D & C).
  assert (Lx : forall k z, nth_error curve k = Some (Some z) -> nth_error l k = Some z /\ ~ jumps l k).
  { intros k z Z. destruct (nth_error l k) as [p|] eqn:P.
    - destruct (C k p P) as [[_ K]|[J K]]; [congruence|]. split; [congruence|exact J].
    - exfalso. apply nth_error_None in P. assert (k < length curve) by (apply nth_error_Some; congruence). lia. }
  destruct (Lx _ _ X) as [X1 J]. destruct (Lx _ _ Y) as [Y1 _]. split.
  - apply Qnot_lt_le. intros K. apply J. exists x, y. auto.
  - assert (I : i < length l) by (apply nth_error_Some; congruence).
    destruct (nth_error u i) as [a|] eqn:A; [|apply nth_error_None in A; lia]. destruct (nth_error v i) as [b|] eqn:B; [|apply nth_error_None in B; lia].
    destruct (D i a b x A B X1) as [R _]. exact R.
Qed.
Print Assumptions C199_no_jump.

(** Calm air is drawn as wind from the north, whatever was measured: numpy's angle of the
    zero vector is 0. *)
Theorem C199_calm_refuted : exists speed direction time, forall cosine sine angle,
  (forall a b, (a == 0)%Q -> (b == 0)%Q -> angle a b = 0%Q) ->
  speed = [0%Q] /\ direction = [180%Q] /\ exists x, average_direction cosine sine angle speed direction time 15 = Some [Some x] /\ (x == 0)%Q.
Proof.
  exists [0%Q], [180%Q], [1%Q]. intros c s g G. split; [reflexivity|]. split; [reflexivity|]. eexists. split; [reflexivity|].
  cbn [fst snd]. rewrite G by (cbn; ring). reflexivity.
Qed.
Print Assumptions C199_calm_refuted.

Example C199_nonvacuous : exists curve,
  average_direction (fun x => x) (fun _ => 0%Q) (fun _ a => a) [1; 1]%Q [359; 361]%Q [0; 1]%Q 15 = Some curve /\
  nth_error curve 0 = Some None /\ exists x, nth_error curve 1 = Some (Some x) /\ (x == 1)%Q.
Proof. eexists. split; [reflexivity|]. split; [reflexivity|]. eexists. split; [reflexivity|reflexivity]. Qed.
