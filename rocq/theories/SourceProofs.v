(** Proofs about the input files of the categorize product. *)
From Verif Require Import Base ArrayModel ArrayProofs FillModel FillProofs TimeModel TimeSpec TimeProofs
  GridModel GridSpec GridProofs ImageModel ImageProofs OutputModel TelegramModel MpProofs SourceModel SourceSpec.
From Coq Require Import Qabs Lqa String.
Open Scope string_scope.
Open Scope nat_scope.
Open Scope list_scope.
Local Notation length := List.length (only parsing).
Local Notation dict := OutputModel.dict (only parsing).

(** ** Times and heights *)
Lemma to_m_factor_iff units f : to_m_factor units = Ok f <-> metres units f.
Proof.
  unfold to_m_factor, metres. destruct (String.eqb_spec units "km") as [->|N].
  - split; [intros E; left; split; congruence|]. intros [[_ ->]|[[X|X] _]]; [reflexivity|discriminate|discriminate].
  - unfold mem_str. cbn [existsb]. destruct (String.eqb_spec units "m") as [->|N1].
    + cbn [orb]. split; [intros E; right; split; [auto|congruence]|]. intros [[X _]|[_ ->]]; [discriminate|reflexivity].
    + destruct (String.eqb_spec units "meters") as [->|N2]; cbn [orb].
      * split; [intros E; right; split; [auto|congruence]|]. intros [[X _]|[_ ->]]; [discriminate|reflexivity].
      * split; [discriminate|]. intros [[X _]|[[X|X] _]]; contradiction.
Qed.
Lemma to_m_factor_error units : (forall f, ~ metres units f) -> to_m_factor units = Raise ValueError.
Proof.
  intros H. destruct (to_m_factor units) as [f|e] eqn:E.
  - exfalso. apply (H f). apply to_m_factor_iff. exact E.
  - unfold to_m_factor in E. destruct (String.eqb units "km"); [discriminate|]. destruct (mem_str units ["m"; "meters"]); congruence.
Qed.
Lemma metres_dec units : (exists f, metres units f) \/ (forall f, ~ metres units f).
Proof.
  destruct (to_m_factor units) as [f|e] eqn:E.
  - left. exists f. apply to_m_factor_iff. exact E.
  - right. intros f H. apply to_m_factor_iff in H. congruence.
Qed.
Lemma unmasked_visible l : unmasked l = visible_values l.
Proof. unfold visible_values. induction l as [|[v|] l IH]; cbn [unmasked flat_map app]; congruence. Qed.
Lemma sum_fold l : (fold_right Qplus 0 l == sum l)%Q.
Proof. induction l as [|x l IH]; cbn [fold_right sum]; [reflexivity|]. rewrite IH. reflexivity. Qed.
Lemma mean_is_mean l : l <> [] -> is_mean (mean l) l.
Proof.
  intros N. split; [exact N|]. unfold mean. rewrite sum_fold. field.
  destruct l as [|x l]; [congruence|]. cbn [List.length]. rewrite Nat2Z.inj_succ. intros E.
  unfold Qeq in E. cbn in E. lia.
Qed.
Lemma clock_hours time out : time <> [] -> seconds2hours time = Ok out -> clock time out.
Proof.
  intros N E. assert (Eo : out = fix_last (map (fun t => (qmod t 86400 / 3600)%Q) time)) by (destruct time; [congruence|unfold seconds2hours in E; congruence]).
  subst out. split; [rewrite fix_last_length, map_length; reflexivity|]. intros i t h Ht Hh.
  apply fix_last_nth in Hh as (y & Hy & ->). rewrite nth_error_map', Ht in Hy. cbn [option_map] in Hy.
  assert (Ey : y = (qmod t 86400 / 3600)%Q) by congruence. subst y. rewrite map_length.
  pose proof (qmod_bound t) as [A B]. assert (F : (qmod t 86400 == qmod t 86400 / 3600 * 3600)%Q) by field.
  assert (D : (t == 86400 * inject_Z (Qround.Qfloor (t / 86400)) + qmod t 86400)%Q) by (unfold qmod; ring).
  set (y := (qmod t 86400 / 3600)%Q) in *. set (fl := Qround.Qfloor (t / 86400)) in *. clearbody y.
  destruct (Nat.eqb_spec (S i) (length time)) as [L|L]; cbn [andb].
  - destruct (Qeq_bool y 0) eqn:Z.
    + apply Qeq_bool_iff in Z. split; [|split; [intros; lia|intros _; split; [reflexivity|discriminate]]].
      exists (fl - 1)%Z. unfold Z.sub. rewrite inject_Z_plus. change (inject_Z (- (1))) with (- (1))%Q. lra.
    + apply Qeq_bool_neq in Z. split; [exists fl; lra|]. split; [intros; lia|]. intros _. split; [|lra].
      destruct (Qlt_le_dec 0 y) as [P|P]; [exact P|]. exfalso. apply Z. lra.
  - split; [exists fl; lra|]. split; [intros _; lra|intros; lia].
Qed.
Lemma init_time_spec time : 
  (time = [] -> init_time time = Raise ValidTimeStampError) /\
  (time <> [] -> (forall t, In t time -> t <= 25)%Q -> init_time time = Ok time) /\
  ((exists t, In t time /\ 25 < t)%Q -> exists out, init_time time = Ok out /\ clock time out).
Proof.
  destruct time as [|t0 r].
  - split; [reflexivity|]. split; [congruence|]. intros (t & [] & _).
  - split; [discriminate|]. destruct (list_max_spec r t0) as (M0 & M & Hm). cbn [init_time]. split.
    + intros _ H. assert (E : qgt (list_max t0 r) 25 = false).
      { apply qgt_false. destruct Hm as [->|Hm]; [apply H; left; reflexivity|apply H; right; exact Hm]. }
      rewrite E. reflexivity.
    + intros (t & I & L). assert (E : qgt (list_max t0 r) 25 = true).
      { apply qgt_iff. destruct I as [<-|I]; [|specialize (M t I)]; lra. }
      rewrite E. eexists. split; [reflexivity|]. apply clock_hours; [discriminate|reflexivity].
Qed.
Lemma some_above time : (exists t, In t time /\ 25 < t)%Q \/ (forall t, In t time -> t <= 25)%Q.
Proof.
  induction time as [|a l [(t & I & L)|IH]].
  - right. intros t [].
  - left. exists t. split; [right; exact I|exact L].
  - destruct (Qlt_le_dec 25 a) as [L|L]; [left; exists a; split; [left; reflexivity|exact L]|].
    right. intros t [<-|I]; [exact L|apply IH; exact I].
Qed.
Lemma init_altitude_spec v : 
  match v with
  | None => init_altitude v = Ok None
  | Some (units, l) =>
      (visible_values l = [] -> init_altitude v = Ok None) /\
      (visible_values l <> [] -> forall f, metres units f -> exists a, init_altitude v = Ok (Some a) /\ is_mean a (map (fun x => x * f)%Q (visible_values l))) /\
      (visible_values l <> [] -> (forall f, ~ metres units f) -> init_altitude v = Raise ValueError)
  end.
Proof.
  destruct v as [[units l]|]; [|reflexivity]. cbn [init_altitude]. rewrite unmasked_visible.
  destruct (visible_values l) as [|x r].
  - split; [reflexivity|]. split; congruence.
  - split; [discriminate|]. split.
    + intros _ f F. apply to_m_factor_iff in F. rewrite F. cbn [bind]. eexists. split; [reflexivity|]. apply mean_is_mean. discriminate.
    + intros _ F. rewrite (to_m_factor_error units F). reflexivity.
Qed.
Lemma to_m_spec v : 
  (forall f, metres (fst v) f -> to_m v = Ok (map (fun x => x * f)%Q (snd v))) /\
  ((forall f, ~ metres (fst v) f) -> to_m v = Raise ValueError).
Proof.
  unfold to_m. split.
  - intros f F. apply to_m_factor_iff in F. rewrite F. reflexivity.
  - intros F. rewrite (to_m_factor_error _ F). reflexivity.
Qed.

(** ** Nearest points *)
Lemma strictly_up_iff l : strictly_up l = true <-> StronglySorted Qlt l.
Proof.
  induction l as [|a [|b r] IH].
  - split; [intros _; constructor|reflexivity].
  - split; [intros _; repeat constructor|reflexivity].
  - change (strictly_up (a :: b :: r)) with (qlt a b && strictly_up (b :: r)). rewrite andb_true_iff, IH, qlt_iff. split.
    + intros [H S]. constructor; [exact S|]. inversion S as [|? ? S' F]; subst. constructor; [exact H|].
      rewrite Forall_forall in F |- *. intros x I. specialize (F x I). lra.
    + intros S. inversion S as [|? ? S' F]; subst. inversion F; subst. auto.
Qed.
Lemma strict_ascending l : StronglySorted Qlt l -> ascending l.
Proof. intros S. unfold ascending. induction S as [|a l S IH F]; constructor; [exact IH|]. eapply Forall_impl; [|exact F]. intros x X. lra. Qed.
Lemma strict_nth l : StronglySorted Qlt l -> forall i j a b, i < j -> nth_error l i = Some a -> nth_error l j = Some b -> (a < b)%Q.
Proof. intros S i j a b L A B. exact (strong_nth_inv _ _ S i j a b L A B). Qed.

Lemma half_iff a b x : (a < b)%Q -> Qle_bool ((x - a) / (b - a)) (1 # 2) = true <-> (2 * x <= a + b)%Q.
Proof.
  intros L. rewrite Qle_bool_iff. assert (P : (0 < b - a)%Q) by lra.
  assert (E : (x - a == (x - a) / (b - a) * (b - a))%Q) by (field; intros Z; lra).
  set (q := ((x - a) / (b - a))%Q) in *. clearbody q. split; intros H; nra.
Qed.
Ltac abs_cases := repeat match goal with
  | |- context[Qabs ?e] => let H := fresh in let X := fresh in
      destruct (Qlt_le_dec e 0) as [H|H];
      [assert (X : (Qabs e == - e)%Q) by (apply Qabs_neg; lra)|assert (X : (Qabs e == e)%Q) by (apply Qabs_pos; lra)];
      revert X; generalize (Qabs e); intros ? X
  end.
Lemma rgi_nearest grid x : StronglySorted Qlt grid -> grid <> [] -> nearest_of (point grid) x (rgi_index grid x).
Proof.
  intros S N. unfold nearest_of, point. pose proof (strict_ascending _ S) as As.
  assert (Ln : 0 < length grid) by (destruct grid; [congruence|cbn; lia]).
  unfold rgi_index. pose proof (ss_right_le grid x) as Le. pose proof (ss_right_before grid x) as Bf. pose proof (ss_right_after grid x As) as Af.
  set (s := searchsorted_right grid x) in *. set (i := Nat.min (s - 1) (length grid - 2)).
  destruct (Nat.eq_dec (length grid) 1) as [L1|L1].
  - destruct grid as [|g [|g' r]]; [congruence| |cbn in L1; lia]. assert (Ei : i = 0) by (unfold i; cbn; lia). rewrite Ei. cbn [nth_error].
    exists g. split; [reflexivity|]. intros [|k] u U; cbn [nth_error] in U; [|destruct k; discriminate].
    assert (u = g) by congruence. subst u. right. split; [reflexivity|lra].
  - destruct (nth_error_lt_Some grid i) as [a Ea]; [unfold i; lia|]. destruct (nth_error_lt_Some grid (Datatypes.S i)) as [b Eb]; [unfold i; lia|].
    rewrite Ea, Eb. assert (Hab : (a < b)%Q) by (apply (strict_nth grid S i (Datatypes.S i)); [lia|assumption|assumption]).
    assert (Below : forall k u, nth_error grid k = Some u -> k <= i -> (u <= a)%Q /\ (s = 0 -> u = a)).
    { intros k u U K. destruct (Nat.eq_dec k i) as [->|Ne]; [assert (u = a) by congruence; subst; split; [lra|reflexivity]|].
      split; [apply Qlt_le_weak; apply (strict_nth grid S k i); [lia|assumption|assumption]|]. intros Z. unfold i in Ne, K. lia. }
    assert (Above : forall k u, nth_error grid k = Some u -> i < k -> (b <= u)%Q /\ (s = length grid -> u = b)).
    { intros k u U K. destruct (Nat.eq_dec k (Datatypes.S i)) as [->|Ne]; [assert (u = b) by congruence; subst; split; [lra|reflexivity]|].
      split; [apply Qlt_le_weak; apply (strict_nth grid S (Datatypes.S i) k); [lia|assumption|assumption]|]. intros Z.
      assert (k < length grid) by (apply nth_error_Some; congruence). unfold i in Ne, K. lia. }
    assert (Xa : 0 < s -> (a <= x)%Q) by (intros P; apply (Bf i); [unfold i; lia|exact Ea]).
    assert (Xb : s < length grid -> (x < b)%Q) by (intros P; apply (Af (Datatypes.S i)); [unfold i; lia|exact Eb]).
    pose proof (half_iff a b x Hab) as Half. destruct (Qle_bool ((x - a) / (b - a)) (1 # 2)).
    + assert (H : (2 * x <= a + b)%Q) by (apply Half; reflexivity). exists a. split; [exact Ea|]. intros k u U.
      destruct (Nat.le_gt_cases k i) as [K|K].
      * destruct (Below k u U K) as [B1 B2]. destruct (Nat.eq_dec s 0) as [Z|Z].
        -- rewrite (B2 Z). right. split; [reflexivity|lra].
        -- specialize (Xa ltac:(lia)). destruct (Qlt_le_dec u a) as [Y|Y].
           ++ left. abs_cases; lra.
           ++ right. split; [|exact Y]. assert (E : (u == a)%Q) by lra. rewrite E. reflexivity.
      * destruct (Above k u U K) as [B1 _]. destruct (Qlt_le_dec (Qabs (x - a)) (Qabs (x - u))) as [Y|Y]; [left; exact Y|right].
        split; [|lra]. revert Y. abs_cases; intros; lra.
    + assert (H : (a + b < 2 * x)%Q). { destruct (Qlt_le_dec (a + b) (2 * x)) as [Y|Y]; [exact Y|]. apply Half in Y. discriminate. }
      exists b. split; [exact Eb|]. intros k u U. destruct (Nat.le_gt_cases k i) as [K|K].
      * destruct (Below k u U K) as [B1 _]. left. abs_cases; lra.
      * destruct (Above k u U K) as [B1 B2]. destruct (Nat.eq_dec s (length grid)) as [Z|Z].
        -- rewrite (B2 Z). right. split; [reflexivity|lra].
        -- specialize (Xb ltac:(lia)). destruct (Qlt_le_dec b u) as [Y|Y].
           ++ left. abs_cases; lra.
           ++ right. split; [|exact B1]. assert (E : (u == b)%Q) by lra. rewrite E. reflexivity.
Qed.
Lemma rgi_outside_iff grid x : StronglySorted Qlt grid -> grid <> [] -> rgi_outside grid x = false <-> inside (point grid) x.
Proof.
  intros S N. assert (Ln : 0 < length grid) by (destruct grid; [congruence|cbn; lia]). unfold rgi_outside, inside, point.
  destruct (nth_error_lt_Some grid 0) as [a Ea]; [lia|]. destruct (nth_error_lt_Some grid (length grid - 1)) as [b Eb]; [lia|].
  rewrite Ea, Eb, orb_false_iff, qlt_false, qgt_false. split.
  - intros [A B]. split; eauto.
  - intros [(i & u & U & A) (j & w & W & B)]. split.
    + destruct i as [|i]; [congruence|]. pose proof (strict_nth grid S 0 (Datatypes.S i) a u ltac:(lia) Ea U). lra.
    + assert (j < length grid) by (apply nth_error_Some; congruence). destruct (Nat.eq_dec j (length grid - 1)) as [->|Ne]; [congruence|].
      pose proof (strict_nth grid S j (length grid - 1) w b ltac:(lia) W Eb). lra.
Qed.
(** ** Lidar *)
Lemma has_data_iff row : has_data row = true <-> exists j v, nth_error row j = Some (Some v).
Proof.
  unfold has_data. rewrite existsb_exists. split.
  - intros ([v|] & I & H); [|discriminate]. apply In_nth_error in I as [j J]. eauto.
  - intros (j & v & J). exists (Some v). split; [eapply nth_error_In; exact J|reflexivity].
Qed.
Lemma pixel_row {A} (m : image A) i j v : pixel m i j = Some v <-> exists row, nth_error m i = Some row /\ nth_error row j = Some v.
Proof.
  unfold pixel. destruct (nth_error m i) as [row|]; split.
  - eauto.
  - intros (r & E & H). congruence.
  - discriminate.
  - intros (r & E & H). discriminate.
Qed.
Lemma in_indices time beta i : length time = length beta -> In i (where1 (map has_data beta)) <-> exists t, usable time beta i t.
Proof.
  intros L. rewrite where1_in, nth_error_map'. split.
  - destruct (nth_error beta i) as [row|] eqn:E; [|discriminate]. cbn [option_map]. intros H. assert (H' : has_data row = true) by congruence.
    apply has_data_iff in H' as (j & v & J). destruct (nth_error_lt_Some time i) as [t T]; [rewrite L; apply nth_error_Some; congruence|].
    exists t. split; [exact T|]. exists j, v. apply pixel_row. eauto.
  - intros (t & T & j & v & P). apply pixel_row in P as (row & E & J). rewrite E. cbn [option_map]. f_equal. apply has_data_iff. eauto.
Qed.
Lemma existsb_eqb_false i l : existsb (Nat.eqb i) l = false <-> ~ In i l.
Proof.
  rewrite <- existsb_eqb. destruct (existsb (Nat.eqb i) l); split; congruence.
Qed.
Lemma within_gap grid new limit i : ascending grid -> In i (get_gap_ind grid new limit) <-> exists x, nth_error new i = Some x /\ ~ within limit (point grid) x.
Proof.
  intros As. destruct (get_gap_ind_spec grid new limit As) as [_ G]. rewrite G. unfold within, point. split.
  - intros (x & X & H). exists x. split; [exact X|]. intros (k & t & T & L). apply nth_error_In in T. specialize (H t T). lra.
  - intros (x & X & H). exists x. split; [exact X|]. intros g I. apply In_nth_error in I as [k K].
    destruct (Qlt_le_dec limit (Qabs (x - g))) as [Y|Y]; [exact Y|]. exfalso. apply H. eauto.
Qed.

Lemma lidar_ok time h beta time_new height_new :
  length time = length beta -> h <> [] -> StronglySorted Qlt h -> (forall row, In row beta -> length row = length h) ->
  (forall i j t u, i < j -> usable time beta i t -> usable time beta j u -> (t < u)%Q) -> (exists i t, usable time beta i t) ->
  exists out gaps, interpolate_lidar time (Some h) beta time_new height_new = Ok (out, gaps) /\
    length out = length time_new /\ (forall row, In row out -> length row = length height_new) /\
    StronglySorted lt gaps /\
    (forall i, In i gaps <-> exists x, nth_error time_new i = Some x /\ ~ within (1 # 60) (usable time beta) x) /\
    forall i j x y, nth_error time_new i = Some x -> nth_error height_new j = Some y ->
      exists p g v w, nearest_of (usable time beta) x p /\ nearest_of (point h) y g /\
        pixel beta p g = Some v /\ pixel out i j = Some w /\
        (lidar_visible time h beta x y -> w = v) /\ (~ lidar_visible time h beta x y -> w = None).
Proof.
  intros L Nh Sh Rw Inc Ex. cbn [interpolate_lidar]. set (idx := where1 (map has_data beta)).
  assert (Idx : forall i, In i idx <-> exists t, usable time beta i t) by (intros i; apply in_indices; exact L).
  assert (Fb : Forall (fun i => i < length beta) idx).
  { apply Forall_forall. intros i I. apply Idx in I as (t & T & _). rewrite <- L. apply nth_error_Some. congruence. }
  destruct (gather_rows_of time idx) as (tt & Et & Rt); [rewrite L; exact Fb|].
  destruct (gather_rows_of beta idx) as (bb & Eb & Rb); [exact Fb|]. rewrite Et. cbn [bind]. rewrite Eb. cbn [bind].
  destruct Rt as [Lt Rt]. destruct Rb as [Lb Rb].
  assert (U1 : forall k t, nth_error tt k = Some t -> exists p row, nth_error idx k = Some p /\ usable time beta p t /\ nth_error beta p = Some row /\ nth_error bb k = Some row).
  { intros k t T. destruct (nth_error_lt_Some idx k) as [p P]; [rewrite <- Lt; apply nth_error_Some; congruence|].
    destruct (Rt k p P) as (t' & A & B). assert (t' = t) by congruence. subst t'. destruct (Rb k p P) as (row & C & D).
    exists p, row. split; [exact P|]. split; [|auto]. pose proof (nth_error_In _ _ P) as I. apply Idx in I as (t' & T' & V). split; [exact A|exact V]. }
  assert (U2 : forall p t, usable time beta p t -> exists k, nth_error idx k = Some p /\ nth_error tt k = Some t).
  { intros p t U. assert (I : In p idx) by (apply Idx; eauto). apply In_nth_error in I as [k K]. exists k. split; [exact K|].
    destruct (Rt k p K) as (t' & A & B). destruct U as [T _]. congruence. }
  assert (St : StronglySorted Qlt tt).
  { apply strong_nth. intros i j a b Hij A B. destruct (U1 i a A) as (p & _ & P & Up & _). destruct (U1 j b B) as (q & _ & P' & Uq & _).
    apply (Inc p q a b); [|exact Up|exact Uq]. exact (strong_nth_inv _ _ (where1_sorted _) i j p q Hij P P'). }
  assert (Nt : tt <> []). { destruct Ex as (p & t & U). destruct (U2 p t U) as (k & _ & K). intros E. rewrite E in K. destruct k; discriminate. }
  assert (Wt : forall x lim, within lim (point tt) x <-> within lim (usable time beta) x).
  { intros x lim. split.
    - intros (k & t & T & D). destruct (U1 k t T) as (p & _ & _ & Up & _). exists p, t. auto.
    - intros (p & t & U & D). destruct (U2 p t U) as (k & _ & K). exists k, t. auto. }
  assert (It : forall x, inside (point tt) x <-> inside (usable time beta) x).
  { intros x. split; intros [(i & a & A & A') (j & b & B & B')].
    - destruct (U1 i a A) as (p & _ & _ & Up & _). destruct (U1 j b B) as (q & _ & _ & Uq & _). split; eauto.
    - destruct (U2 i a A) as (k & _ & K). destruct (U2 j b B) as (l & _ & K'). split; [exists k, a|exists l, b]; auto. }
  assert (Nr : forall x, exists k p row, k = rgi_index tt x /\ nearest_of (usable time beta) x p /\ nth_error beta p = Some row /\ nth_error bb k = Some row).
  { intros x. destruct (rgi_nearest tt x St Nt) as (t & T & H). destruct (U1 _ t T) as (p & row & _ & Up & E & E').
    exists (rgi_index tt x), p, row. split; [reflexivity|]. split; [|auto]. exists t. split; [exact Up|].
    intros q u Uq. destruct (U2 q u Uq) as (l & _ & K). exact (H l u K). }
  assert (Rbb : forall row, In row bb -> length row = length h).
  { intros row I. apply In_nth_error in I as [k K]. destruct (nth_error_lt_Some idx k) as [p P]; [rewrite <- Lb; apply nth_error_Some; congruence|].
    destruct (Rb k p P) as (row' & C & D). assert (row' = row) by congruence. subst row'. apply Rw. eapply nth_error_In. exact C. }
  unfold interpolate_2d_nearest. rewrite (proj2 (strictly_up_iff tt) St), (proj2 (strictly_up_iff h) Sh). cbn [andb negb].
  assert (E1 : (length tt =? length bb) = true) by (apply Nat.eqb_eq; lia).
  assert (E2 : forallb (fun row => length row =? length h) bb = true).
  { apply forallb_forall. intros row I. apply Nat.eqb_eq. apply Rbb. exact I. }
  rewrite E1, E2. cbn [andb negb].
  assert (E3 : (length tt =? 0) || (length h =? 0) = false) by (destruct tt; [congruence|]; destruct h; [congruence|reflexivity]).
  rewrite E3.
  cbn [bind]. eexists. eexists. split; [reflexivity|].
  pose proof (strict_ascending _ St) as At. pose proof (strict_ascending _ Sh) as Ah.
  set (base := map (fun xn => map (fun yn => if rgi_outside tt xn || rgi_outside h yn then None
        else match pixel bb (rgi_index tt xn) (rgi_index h yn) with Some v => v | None => None end) height_new) time_new).
  assert (Shape : forall f g : nat -> nat -> option Q -> option Q, length (imapi f (imapi g base)) = length time_new /\ forall row, In row (imapi f (imapi g base)) -> length row = length height_new).
  { intros f g. assert (E : shape (imapi f (imapi g base)) = shape base) by (rewrite !shape_imapi; reflexivity).
    split.
    - pose proof (f_equal (@List.length _) E) as E'. unfold shape in E'. rewrite !map_length in E'. rewrite E'. unfold base. apply map_length.
    - intros row I. unfold shape in E. assert (I' : In (length row) (map (@List.length _) (imapi f (imapi g base)))) by (apply in_map; exact I).
      rewrite E in I'. unfold base in I'. rewrite map_map in I'. apply in_map_iff in I' as (x & Ex' & _). rewrite map_length in Ex'. congruence. }
  split; [apply Shape|]. split; [apply Shape|]. split; [exact (proj1 (get_gap_ind_spec tt time_new (1 # 60) At))|].
  split.
  { intros i. rewrite (within_gap tt time_new (1 # 60) i At). split; intros (x & X & H); exists x; (split; [exact X|]); intros W; apply H; apply Wt; exact W. }
  intros i j x y X Y. destruct (Nr x) as (k & p & row & -> & Np & Ep & Ebb). destruct (rgi_nearest h y Sh Nh) as (gy & G & Hg).
  assert (Lr : length row = length h) by (apply Rw; eapply nth_error_In; exact Ep).
  destruct (nth_error_lt_Some row (rgi_index h y)) as [v V]; [rewrite Lr; apply nth_error_Some; unfold point in G; congruence|].
  assert (Pb : pixel base i j = Some (if rgi_outside tt x || rgi_outside h y then None else v)).
  { apply pixel_row. eexists. split; [unfold base; rewrite nth_error_map', X; reflexivity|]. rewrite nth_error_map', Y. cbn [option_map]. f_equal.
    destruct (rgi_outside tt x || rgi_outside h y); [reflexivity|]. assert (E : pixel bb (rgi_index tt x) (rgi_index h y) = Some v) by (apply pixel_row; eauto).
    rewrite E. reflexivity. }
  exists p, (rgi_index h y), v. eexists. split; [exact Np|]. split; [exists gy; split; [exact G|exact Hg]|].
  split; [apply pixel_row; eauto|]. split; [rewrite !pixel_imapi, Pb; cbn [option_map]; reflexivity|].
  pose proof (within_gap tt time_new (1 # 60) i At) as Gt. pose proof (within_gap h height_new 100 j Ah) as Gh.
  pose proof (rgi_outside_iff tt x St Nt) as Ot. pose proof (rgi_outside_iff h y Sh Nh) as Oh. unfold lidar_visible. split.
  - intros (A & B & C & D). assert (C1 : existsb (Nat.eqb i) (get_gap_ind tt time_new (1 # 60)) = false).
    { apply existsb_eqb_false. rewrite Gt. intros (x' & X' & H). assert (x' = x) by congruence. subst x'. apply H. apply Wt. exact C. }
    assert (D1 : existsb (Nat.eqb j) (get_gap_ind h height_new 100) = false).
    { apply existsb_eqb_false. rewrite Gh. intros (x' & X' & H). assert (x' = y) by congruence. subst x'. exact (H D). }
    rewrite C1, D1. rewrite (proj2 Ot (proj2 (It x) A)), (proj2 Oh B). reflexivity.
  - intros N. destruct (existsb (Nat.eqb j) (get_gap_ind h height_new 100)) eqn:D1; [reflexivity|].
    destruct (existsb (Nat.eqb i) (get_gap_ind tt time_new (1 # 60))) eqn:C1; [reflexivity|].
    destruct (rgi_outside tt x) eqn:A1; [reflexivity|]. destruct (rgi_outside h y) eqn:B1; [reflexivity|]. exfalso. apply N.
    split; [apply It; apply Ot; reflexivity|]. split; [apply Oh; reflexivity|]. split.
    + apply existsb_eqb_false in C1. rewrite Gt in C1. apply Wt.
      destruct (Qlt_le_dec (1 # 60) 0); [discriminate|].
      assert (Dec : within (1 # 60) (point tt) x \/ ~ within (1 # 60) (point tt) x).
      { destruct (existsb (fun t => Qle_bool (Qabs (x - t)) (1 # 60)) tt) eqn:E.
        - left. apply existsb_exists in E as (t & I & H). apply In_nth_error in I as [l K]. exists l, t. split; [exact K|]. apply Qle_bool_iff. exact H.
        - right. intros (l & t & T & H). apply Bool.not_true_iff_false in E. apply E. apply existsb_exists. exists t.
          split; [eapply nth_error_In; exact T|apply Qle_bool_iff; exact H]. }
      destruct Dec as [W|W]; [exact W|]. exfalso. apply C1. exists x. auto.
    + apply existsb_eqb_false in D1. rewrite Gh in D1.
      assert (Dec : within 100 (point h) y \/ ~ within 100 (point h) y).
      { destruct (existsb (fun t => Qle_bool (Qabs (y - t)) 100) h) eqn:E.
        - left. apply existsb_exists in E as (t & I & H). apply In_nth_error in I as [l K]. exists l, t. split; [exact K|]. apply Qle_bool_iff. exact H.
        - right. intros (l & t & T & H). apply Bool.not_true_iff_false in E. apply E. apply existsb_exists. exists t.
          split; [eapply nth_error_In; exact T|apply Qle_bool_iff; exact H]. }
      destruct Dec as [W|W]; [exact W|]. exfalso. apply D1. exists y. auto.
Qed.
(** ** Interpolation in time *)
Definition interpolate_by (f : list (Q * Q) -> Q -> Q) (time : list Q) (y : list (masked Q)) (time_new : list Q) (max_time : Q)
  : result (list (masked Q)) :=
  if negb (length time =? length y) then Raise IndexError else
  match time with
  | [] => Raise ValueError
  | t0 :: r =>
      if qgt (list_max t0 r) 24 || qlt (list_min t0 r) 0 then Raise ValueError
      else
        let good := filter (fun p => negb (is_masked (snd p))) (combine time y) in
        match good with
        | [] => Ok (map (fun _ => None) time_new)
        | _ =>
            let gt := map fst good in
            let gy := unmasked (map snd good) in
            bind (gather gt (unique_index gt)) (fun ut =>
            bind (gather gy (unique_index gt)) (fun uy =>
            let bad := get_gap_ind ut time_new (max_time / 60)%Q in
            Ok (map (fun p => if existsb (Nat.eqb (fst p)) bad then None
                              else Some (f (combine ut uy) (snd p)))
                  (enumerate time_new))))
        end
  end.
Lemma linear_by time y time_new max_time : interpolate_1d time y time_new max_time = interpolate_by interp time y time_new max_time.
Proof. reflexivity. Qed.
Lemma nearest_by time y time_new max_time : interpolate_1d_nearest time y time_new max_time = interpolate_by nearest_value time y time_new max_time.
Proof. reflexivity. Qed.
Lemma least_index (P : nat -> Prop) : (forall i, P i \/ ~ P i) -> forall n, P n -> exists i, P i /\ forall k, k < i -> ~ P k.
Proof.
  intros D n. induction n as [n IH] using lt_wf_ind. intros Hn.
  assert (H : forall m, m <= n -> (exists k, k < m /\ P k) \/ (forall k, k < m -> ~ P k)).
  { induction m as [|m IHm]; intros L; [right; intros; lia|]. destruct (IHm ltac:(lia)) as [(k & K & Pk)|N]; [left; exists k; split; [lia|exact Pk]|].
    destruct (D m) as [Y|Y]; [left; exists m; split; [lia|exact Y]|right; intros k K]. destruct (Nat.eq_dec k m) as [->|]; [exact Y|apply N; lia]. }
  destruct (H n ltac:(lia)) as [(k & K & Pk)|N]; [exact (IH k K Pk)|exists n; auto].
Qed.
Lemma first_exists time y i t v : sample time y i t v -> exists t' v', first_sample time y t' v' /\ (t' == t)%Q.
Proof.
  intros H. destruct (least_index (fun k => exists t' v', sample time y k t' v' /\ (t' == t)%Q)) with (n := i) as (k & (t' & v' & S & E) & Mn).
  - intros k. unfold sample. destruct (nth_error time k) as [t'|]; [|right; intros (a & b & [A _] & _); discriminate].
    destruct (nth_error y k) as [[v'|]|]; [|right; intros (a & b & [_ A] & _); discriminate|right; intros (a & b & [_ A] & _); discriminate].
    destruct (Qeq_dec t' t) as [E|E]; [left; exists t', v'; auto|]. right. intros (a & b & [A _] & B). apply E. congruence.
  - exists t, v. split; [exact H|reflexivity].
  - exists t', v'. split; [|exact E]. exists k. split; [exact S|]. intros i' t'' v'' L S' E'. apply (Mn i' L). exists t'', v''. split; [exact S'|]. rewrite E'. exact E.
Qed.
Lemma interpolate_by_ok f time y time_new max_time :
  length time = length y -> time <> [] -> (forall t, In t time -> 0 <= t /\ t <= 24)%Q ->
  exists out, interpolate_by f time y time_new max_time = Ok out /\ length out = length time_new /\
    forall j t, nth_error time_new j = Some t -> exists w, nth_error out j = Some w /\
      (w = None <-> forall i ts v, sample time y i ts v -> (max_time / 60 < Qabs (t - ts))%Q) /\
      (forall x, w = Some x -> exists s, x = f s t /\ s <> [] /\ StronglySorted by_time s /\
         forall ts v, In (ts, v) s <-> first_sample time y ts v).
Proof.
  intros Hlen Hne Hday. unfold interpolate_by. rewrite Hlen, Nat.eqb_refl. cbn [negb].
  destruct time as [|t0 r]; [congruence|].
  destruct (list_min_spec r t0) as (_ & _ & Hmin). destruct (list_max_spec r t0) as (_ & _ & Hmax).
  assert (E : qgt (list_max t0 r) 24 || qlt (list_min t0 r) 0 = false).
  { apply orb_false_iff. rewrite qgt_false, qlt_false. split.
    - apply Hday. destruct Hmax as [->|H]; [left; reflexivity|right; exact H].
    - apply Hday. destruct Hmin as [->|H]; [left; reflexivity|right; exact H]. }
  rewrite E. set (time := t0 :: r) in *. clearbody time. clear t0 r Hmin Hmax E.
  fold (good_samples time y). set (g := good_samples time y).
  destruct g as [|p0 g0] eqn:Eg.
  - eexists. split; [reflexivity|]. split; [apply map_length|]. intros j t Hj. exists None.
    split; [rewrite nth_error_map', Hj; reflexivity|]. split; [|discriminate]. split; [|reflexivity].
    intros _ i ts v Hs. apply good_of_sample in Hs. fold g in Hs. rewrite Eg in Hs. destruct Hs.
  - rewrite <- Eg. assert (Hgne : good_samples time y <> []) by (fold g; rewrite Eg; discriminate).
    destruct (unique_samples time y Hgne) as (ut & uy & Eu & Ey & Hcne & Hsort & Hfst & Hsub & Hfirst & Hcover).
    fold g in Eu, Ey. rewrite Eu. cbn [bind]. rewrite Ey. cbn [bind].
    set (bad := get_gap_ind ut time_new (max_time / 60)).
    assert (Ha : ascending ut).
    { rewrite <- Hfst. unfold ascending. apply (StronglySorted_map fst by_time); [|exact Hsort]. intros a b H. unfold by_time in H. lra. }
    destruct (get_gap_ind_spec ut time_new (max_time / 60) Ha) as [_ Hbad]. fold bad in Hbad.
    eexists. split; [reflexivity|]. split; [rewrite map_length; unfold enumerate; apply enumerate_from_length|].
    intros j t Hj. eexists. split; [rewrite nth_error_map', nth_error_enumerate, Hj; cbn [option_map fst snd]; reflexivity|].
    assert (Hbj : In j bad <-> forall i ts v, sample time y i ts v -> (max_time / 60 < Qabs (t - ts))%Q).
    { rewrite Hbad. split.
      - intros (t' & Ht' & H) i ts v Hs. assert (t' = t) by congruence. subst t'.
        destruct (Hcover i ts v Hs) as (ts' & Hin & Hq). specialize (H ts' Hin). rewrite Hq in H. exact H.
      - intros H. exists t. split; [exact Hj|]. intros ts Hts. rewrite <- Hfst in Hts. apply in_map_iff in Hts as ([ts' v] & <- & Hin).
        destruct (Hsub ts' v Hin) as (i & Hs). exact (H i ts' v Hs). }
    destruct (existsb (Nat.eqb j) bad) eqn:Eb.
    + apply existsb_eqb in Eb. split; [|discriminate]. split; [|reflexivity]. intros _. apply Hbj. exact Eb.
    + split.
      * split; [discriminate|]. intros H. apply Hbj in H. apply existsb_eqb in H. congruence.
      * intros x Ex. exists (combine ut uy). split; [congruence|]. split; [exact Hcne|]. split; [exact Hsort|].
        intros ts v. split; [|apply Hfirst]. intros I. destruct (Hsub ts v I) as (i & Hs).
        destruct (first_exists _ _ _ _ _ Hs) as (t' & v' & F & Q'). pose proof (Hfirst t' v' F) as I'.
        apply In_nth_error in I as [a A]. apply In_nth_error in I' as [b B].
        destruct (Nat.lt_trichotomy a b) as [L|[L|L]].
        -- exfalso. pose proof (strong_nth_inv _ _ Hsort a b _ _ L A B) as X. unfold by_time in X. cbn [fst] in X. lra.
        -- subst b. assert ((t', v') = (ts, v)) by congruence. assert (t' = ts) by congruence. assert (v' = v) by congruence. subst. exact F.
        -- exfalso. pose proof (strong_nth_inv _ _ Hsort b a _ _ L B A) as X. unfold by_time in X. cbn [fst] in X. lra.
Qed.
Lemma first_sample_of time y t v : first_sample time y t v <-> first_of (visible_sample time y) t v.
Proof. reflexivity. Qed.

Lemma interp_after s t : StronglySorted by_time s -> forall tb vb, In (tb, vb) s -> (tb <= t)%Q ->
  (forall p, In p s -> (fst p <= tb)%Q) -> (interp s t == vb)%Q.
Proof.
  intros S tb vb I L M. destruct s as [|[t0 y0] r]; [destruct I|]. unfold interp.
  assert (L0 : (t0 <= t)%Q) by (pose proof (M (t0, y0) (or_introl eq_refl)) as X; cbn [fst] in X; lra).
  destruct (qlt t t0) eqn:E; [apply qlt_iff in E; lra|]. clear E L0. revert t0 y0 S I M.
  induction r as [|[t1 y1] r IH]; intros t0 y0 S I M.
  - destruct I as [I|[]]. cbn [interp_from]. assert (y0 = vb) by congruence. subst. reflexivity.
  - cbn [interp_from]. pose proof (M (t1, y1) (or_intror (or_introl eq_refl))) as X. cbn [fst] in X.
    destruct (qlt t t1) eqn:E; [apply qlt_iff in E; lra|]. apply StronglySorted_inv in S as [S F]. apply IH; [exact S| |intros p P; apply M; right; exact P].
    destruct I as [I|I]; [|exact I]. exfalso. rewrite Forall_forall in F. specialize (F (t1, y1) (or_introl eq_refl)). unfold by_time in F. cbn [fst] in F.
    assert (t0 = tb) by congruence. subst. lra.
Qed.
Lemma interp_before s t : StronglySorted by_time s -> forall ta va, In (ta, va) s -> (t <= ta)%Q ->
  (forall p, In p s -> (ta <= fst p)%Q) -> (interp s t == va)%Q.
Proof.
  intros S ta va I L M. destruct (Qlt_le_dec t ta) as [X|X].
  - destruct s as [|[t0 y0] r]; [destruct I|]. unfold interp. pose proof (M (t0, y0) (or_introl eq_refl)) as Y. cbn [fst] in Y.
    assert (E : qlt t t0 = true) by (apply qlt_iff; lra). rewrite E. destruct I as [I|I]; [assert (y0 = va) by congruence; subst; reflexivity|].
    exfalso. apply StronglySorted_inv in S as [_ F]. rewrite Forall_forall in F. specialize (F _ I). unfold by_time in F. cbn [fst] in F. lra.
  - apply (interp_at s t ta va S I). lra.
Qed.
Lemma nearest_value_spec s t : StronglySorted by_time s -> s <> [] -> exists ts, In (ts, nearest_value s t) s /\
  forall p, In p s -> (Qabs (t - ts) < Qabs (t - fst p) \/ (Qabs (t - ts) == Qabs (t - fst p) /\ ts <= fst p))%Q.
Proof.
  intros S N. set (ts := map fst s). assert (Lt : length ts = length s) by apply map_length.
  assert (Ln : 0 < length s) by (destruct s; [congruence|cbn; lia]).
  assert (St : StronglySorted Qlt ts) by (apply (StronglySorted_map fst by_time); [intros a b H; exact H|exact S]).
  assert (Am : ascending (midpoints ts)).
  { apply strong_nth. intros i j a b L A B. rewrite nth_error_midpoints in A, B.
    destruct (nth_error ts i) as [x0|] eqn:E0; [|discriminate]. destruct (nth_error ts (Datatypes.S i)) as [x1|] eqn:E1; [|discriminate].
    destruct (nth_error ts j) as [x2|] eqn:E2; [|discriminate]. destruct (nth_error ts (Datatypes.S j)) as [x3|] eqn:E3; [|discriminate].
    assert (a = ((x0 + x1) / 2)%Q) by congruence. assert (b = ((x2 + x3) / 2)%Q) by congruence. subst a b.
    pose proof (strict_nth ts St i j x0 x2 L E0 E2). pose proof (strict_nth ts St (Datatypes.S i) (Datatypes.S j) x1 x3 ltac:(lia) E1 E3).
    assert (Y1 : ((x0 + x1) / 2 * 2 == x0 + x1)%Q) by field. assert (Y2 : ((x2 + x3) / 2 * 2 == x2 + x3)%Q) by field.
    set (m1 := ((x0 + x1) / 2)%Q) in *. set (m2 := ((x2 + x3) / 2)%Q) in *. clearbody m1 m2. lra. }
  pose proof (ss_left_le (midpoints ts) t) as Le. rewrite midpoints_length in Le.
  pose proof (ss_left_before (midpoints ts) t) as Bf. pose proof (ss_left_after (midpoints ts) t Am) as Af.
  unfold nearest_value. fold ts. set (k := searchsorted_left (midpoints ts) t) in *.
  rewrite Nat.min_l by lia. destruct (nth_error_lt_Some s k) as [[a v] Ea]; [lia|]. rewrite Ea. cbn [snd]. exists a.
  split; [eapply nth_error_In; exact Ea|]. intros p P. apply In_nth_error in P as [j J].
  assert (Eta : nth_error ts k = Some a) by (unfold ts; rewrite nth_error_map', Ea; reflexivity).
  assert (Etj : nth_error ts j = Some (fst p)) by (unfold ts; rewrite nth_error_map', J; reflexivity).
  assert (j < length s) by (apply nth_error_Some; congruence).
  destruct (Nat.lt_trichotomy j k) as [L|[L|L]].
  - destruct (nth_error_lt_Some ts (k - 1)) as [c Ec]; [lia|].
    assert (Em : nth_error (midpoints ts) (k - 1) = Some ((c + a) / 2)%Q).
    { rewrite nth_error_midpoints, Ec. replace (Datatypes.S (k - 1)) with k by lia. rewrite Eta. reflexivity. }
    specialize (Bf (k - 1) _ ltac:(lia) Em). assert (Y : ((c + a) / 2 * 2 == c + a)%Q) by field. set (m := ((c + a) / 2)%Q) in *. clearbody m.
    pose proof (strict_nth ts St j k _ _ L Etj Eta). assert ((fst p <= c)%Q).
    { destruct (Nat.eq_dec j (k - 1)) as [->|Ne]; [assert (c = fst p) by congruence; subst; lra|].
      apply Qlt_le_weak. apply (strict_nth ts St j (k - 1)); [lia|assumption|assumption]. }
    left. abs_cases; lra.
  - subst j. assert (fst p = a) by congruence. rewrite H0. right. split; [reflexivity|lra].
  - destruct (nth_error_lt_Some ts (Datatypes.S k)) as [c Ec]; [lia|].
    assert (Em : nth_error (midpoints ts) k = Some ((a + c) / 2)%Q) by (rewrite nth_error_midpoints, Eta, Ec; reflexivity).
    specialize (Af k _ ltac:(lia) Em). assert (Y : ((a + c) / 2 * 2 == a + c)%Q) by field. set (m := ((a + c) / 2)%Q) in *. clearbody m.
    pose proof (strict_nth ts St k j _ _ L Eta Etj). assert ((c <= fst p)%Q).
    { destruct (Nat.eq_dec j (Datatypes.S k)) as [->|Ne]; [assert (c = fst p) by congruence; subst; lra|].
      apply Qlt_le_weak. apply (strict_nth ts St (Datatypes.S k) j); [lia|assumption|assumption]. }
    destruct (Qlt_le_dec (Qabs (t - a)) (Qabs (t - fst p))) as [X|X]; [left; exact X|right]. split; [|lra]. revert X. abs_cases; intros; lra.
Qed.

Lemma linear_on_grid time y time_new max_time :
  length time = length y -> time <> [] -> (forall t, In t time -> 0 <= t /\ t <= 24)%Q ->
  exists out, interpolate_1d time y time_new max_time = Ok out /\ on_grid linear_value (visible_sample time y) max_time time_new out.
Proof.
  intros L N D. rewrite linear_by. destruct (interpolate_by_ok interp time y time_new max_time L N D) as (out & E & Lo & H).
  exists out. split; [exact E|]. split; [exact Lo|]. intros j t J. destruct (H j t J) as (w & W & Nn & V). exists w. split; [exact W|]. split; [exact Nn|].
  intros x X. destruct (V x X) as (s & -> & _ & S & F). split; [|split].
  - intros ta va A B C. apply (interp_before s t S ta va); [apply F; exact A|exact B|]. intros [u v] P. apply F in P. exact (C u v P).
  - intros ta va A B C. apply (interp_after s t S ta va); [apply F; exact A|exact B|]. intros [u v] P. apply F in P. exact (C u v P).
  - intros ta va tb vb A B C G I. apply interp_linear; [exact S|apply F; exact A|apply F; exact B|exact C| |exact I].
    intros [u v] P. apply F in P. exact (G u v P).
Qed.
Lemma nearest_on_grid time y time_new max_time :
  length time = length y -> time <> [] -> (forall t, In t time -> 0 <= t /\ t <= 24)%Q ->
  exists out, interpolate_1d_nearest time y time_new max_time = Ok out /\ on_grid nearest_sample (visible_sample time y) max_time time_new out.
Proof.
  intros L N D. rewrite nearest_by. destruct (interpolate_by_ok nearest_value time y time_new max_time L N D) as (out & E & Lo & H).
  exists out. split; [exact E|]. split; [exact Lo|]. intros j t J. destruct (H j t J) as (w & W & Nn & V). exists w. split; [exact W|]. split; [exact Nn|].
  intros x X. destruct (V x X) as (s & -> & Ns & S & F). destruct (nearest_value_spec s t S Ns) as (ts & I & M). exists ts.
  split; [apply F; exact I|]. intros u v P. apply F in P. exact (M (u, v) P).
Qed.
Lemma on_grid_iff (value : (Q -> Q -> Prop) -> Q -> Q -> Prop) (P P' : nat -> Q -> Q -> Prop) limit time_new out :
  (forall S S' : Q -> Q -> Prop, (forall t v, S t v <-> S' t v) -> forall t x, value S t x -> value S' t x) ->
  (forall i t v, P i t v <-> P' i t v) -> on_grid value P limit time_new out -> on_grid value P' limit time_new out.
Proof.
  intros V E [L H]. split; [exact L|]. intros j t J. destruct (H j t J) as (w & W & N & X). exists w. split; [exact W|]. split.
  - rewrite N. split; intros F i ts v S; apply (F i ts v); apply E; exact S.
  - intros x Ex. apply (V (first_of P)); [|apply X; exact Ex]. intros t' v'. unfold first_of.
    split; intros (i & Q1 & Q2); exists i; (split; [apply E; exact Q1|]); intros i' t'' v'' Li S; apply (Q2 i' t'' v'' Li); apply E; exact S.
Qed.
Lemma linear_value_iff (S S' : Q -> Q -> Prop) : (forall t v, S t v <-> S' t v) -> forall t x, linear_value S t x -> linear_value S' t x.
Proof.
  intros E t x (A & B & C). split; [|split].
  - intros ta va H L M. apply (A ta va); [apply E; exact H|exact L|]. intros tb vb K. apply (M tb vb). apply E. exact K.
  - intros ta va H L M. apply (B ta va); [apply E; exact H|exact L|]. intros tb vb K. apply (M tb vb). apply E. exact K.
  - intros ta va tb vb H1 H2 L M I. apply C; [apply E; exact H1|apply E; exact H2|exact L| |exact I]. intros u v K. apply (M u v). apply E. exact K.
Qed.

(** ** Microwave radiometer *)
Lemma init_lwp_ok lwp flag : (forall f, flag = Some f -> length f = length lwp) -> exists out, init_lwp lwp flag = Ok out /\
  length out = length lwp /\ forall time i t x, visible_sample time out i t x <-> good_lwp time lwp flag i t x.
Proof.
  intros L. unfold init_lwp. destruct flag as [f|].
  - specialize (L f eq_refl). rewrite L, Nat.eqb_refl. eexists. split; [reflexivity|]. split.
    { clear - L. revert lwp L. induction f as [|q f IH]; intros [|x l] L; cbn in *; try discriminate; [reflexivity|]. rewrite IH; [reflexivity|lia]. }
    intros time i t x. unfold visible_sample, good_lwp. assert (E : forall i x, nth_error (map2 (fun (q : masked Z) (x : masked Q) => match q with Some 0%Z => x | _ => None end) f lwp) i = Some (Some x) <->
      nth_error lwp i = Some (Some x) /\ nth_error f i = Some (Some 0%Z)).
    { clear - L. revert lwp L. induction f as [|q f IH]; intros [|y l] L [|i] x; cbn [map2 nth_error]; try (split; [discriminate|intros [H1 H2]; discriminate]); try discriminate.
      - destruct q as [[|p|p]|]; split; intros H; try discriminate; try (destruct H as [_ H]; discriminate); [split; [exact H|reflexivity]|exact (proj1 H)].
      - apply IH. cbn in L. lia. }
    rewrite E. split.
    + intros (T & X & F). split; [exact T|]. split; [exact X|]. intros f' Ef. injection Ef as <-. exact F.
    + intros (T & X & F). split; [exact T|]. split; [exact X|]. apply F. reflexivity.
  - exists lwp. split; [reflexivity|]. split; [reflexivity|]. intros time i t x. unfold visible_sample, good_lwp.
    split; [intros [A B]; split; [exact A|]; split; [exact B|intros f H; discriminate]|intros (A & B & _); auto].
Qed.
Lemma lwp_error_samples sqrt time lwp i t e : visible_sample time (lwp_error sqrt lwp) i t e <->
  exists x, visible_sample time lwp i t x /\ e = sqrt (x * (1 # 4) * (x * (1 # 4)) + (20 * (1 # 1000)) * (20 * (1 # 1000)))%Q.
Proof.
  unfold visible_sample, lwp_error. rewrite nth_error_map'. destruct (nth_error lwp i) as [[x|]|]; cbn [option_map].
  - split; [intros [A B]; exists x; split; [auto|congruence]|intros (x' & [A B] & ->); split; [exact A|congruence]].
  - split; [intros [_ B]; discriminate|intros (x' & [_ B] & _); discriminate].
  - split; [intros [_ B]; discriminate|intros (x' & [_ B] & _); discriminate].
Qed.
Lemma mwr_ok sqrt time lwp flag time_grid max_time :
  length time = length lwp -> (forall f, flag = Some f -> length f = length lwp) -> time <> [] -> (forall t, In t time -> 0 <= t /\ t <= 24)%Q ->
  exists a b, mwr_to_grid sqrt time lwp flag time_grid max_time = Ok [("lwp", a); ("lwp_error", b)] /\
    on_grid linear_value (good_lwp time lwp flag) max_time time_grid a /\
    on_grid linear_value (fun i t e => exists x, good_lwp time lwp flag i t x /\ e = sqrt (x * (1 # 4) * (x * (1 # 4)) + (20 * (1 # 1000)) * (20 * (1 # 1000)))%Q)
      max_time time_grid b.
Proof.
  intros L Lf N D. unfold mwr_to_grid. destruct (init_lwp_ok lwp flag Lf) as (l & E & Ll & S). rewrite E. cbn [bind].
  destruct (linear_on_grid time l time_grid max_time ltac:(lia) N D) as (a & Ea & Ga). rewrite Ea. cbn [bind].
  destruct (linear_on_grid time (lwp_error sqrt l) time_grid max_time) as (b & Eb & Gb); [unfold lwp_error; rewrite map_length; lia|exact N|exact D|].
  rewrite Eb. cbn [bind]. exists a, b. split; [reflexivity|]. split.
  - eapply on_grid_iff; [exact linear_value_iff| |exact Ga]. intros; apply S.
  - eapply on_grid_iff; [exact linear_value_iff| |exact Gb]. intros i t v. rewrite lwp_error_samples. split; intros (x & X & ->); exists x; (split; [apply S; exact X|reflexivity]).
Qed.
(** ** Disdrometer *)
Lemma sequence_ok_map {A B} (f : A -> result B) l : (forall x, In x l -> exists y, f x = Ok y) -> exists out, sequence (map f l) = Ok out.
Proof.
  induction l as [|x l IH]; intros H; [exists []; reflexivity|]. cbn [map sequence]. destruct (H x (or_introl eq_refl)) as [y ->]. cbn [bind].
  destruct IH as [out ->]; [intros z I; apply H; right; exact I|]. cbn [bind]. eexists. reflexivity.
Qed.
Lemma sequence_lookup {A B} (g : string -> A -> result B) (d : dict A) : forall out,
  sequence (map (fun kv => bind (g (fst kv) (snd kv)) (fun y => Ok (fst kv, y))) d) = Ok out ->
  forall k, match lookup k d with
            | Some x => exists y, g k x = Ok y /\ lookup k out = Some y
            | None => lookup k out = None
            end.
Proof.
  induction d as [|[k0 x0] d IH]; intros out H k.
  - cbn [map sequence] in H. injection H as <-. reflexivity.
  - cbn [map sequence fst snd] in H. destruct (g k0 x0) as [y0|] eqn:E; cbn [bind] in H; [|discriminate].
    destruct (sequence (map _ d)) as [o|] eqn:Eo; cbn [bind] in H; [|discriminate]. injection H as <-.
    specialize (IH o eq_refl k). cbn [lookup]. destruct (String.eqb k k0) eqn:Ek.
    + apply String.eqb_eq in Ek. subst k0. exists y0. auto.
    + exact IH.
Qed.

(** ** rebin_1d *)
Lemma collected_filter (P : Q -> Prop) (p : Q -> bool) : (forall x, p x = true <-> P x) -> forall xs ys, length xs = length ys ->
  collected P xs ys (map snd (filter (fun q => p (fst q))
    (combine (map fst (filter (fun q : Q * masked Q => negb (is_masked (snd q))) (combine xs ys)))
       (unmasked (map snd (filter (fun q : Q * masked Q => negb (is_masked (snd q))) (combine xs ys))))))).
Proof.
  intros E. induction xs as [|x xs IH]; intros [|y ys] L; try discriminate; [constructor|].
  specialize (IH ys ltac:(cbn in L; lia)). cbn [combine filter snd]. destruct y as [y|]; cbn [is_masked negb].
  - cbn [map fst snd]. cbn [unmasked flat_map app]. cbn [combine filter fst]. destruct (p x) eqn:Ep.
    + cbn [map snd]. constructor; [apply E; exact Ep|exact IH].
    + constructor; [intros H; apply E in H; congruence|exact IH].
  - constructor. exact IH.
Qed.
Lemma unmasked_some (l : list Q) : unmasked (map Some l) = l.
Proof. induction l as [|x l IH]; [reflexivity|]. cbn. f_equal. exact IH. Qed.
Lemma visible_in (y : list (masked Q)) v : In v (unmasked y) <-> In (Some v) y.
Proof.
  induction y as [|[x|] y IH]; cbn [unmasked flat_map app In]; [tauto| |].
  - fold (unmasked y). rewrite IH. split; intros [H|H]; auto; left; congruence.
  - fold (unmasked y). rewrite IH. split; [auto|intros [H|H]; [discriminate|exact H]].
Qed.
Lemma rebin_1d_ok x_in array x_new : 2 <= length x_new -> length x_in = length array ->
  exists lo hi out, outer_edges x_new lo hi /\ rebin_1d x_in array x_new = Ok out /\ length out = length x_new /\
    ((forall v, In (Some v) array -> (v == 0)%Q) -> forall k, k < length x_new -> nth_error out k = Some (Some 0%Q)) /\
    ((exists v, In (Some v) array /\ ~ (v == 0)%Q) -> forall k, k < length x_new ->
       exists vals w, collected (in_closed_bin lo hi (length x_new) k) x_in array vals /\ nth_error out k = Some w /\
         (vals = [] -> w = None) /\ (vals <> [] -> exists m, w = Some m /\ is_mean m vals)).
Proof.
  intros L2 L. destruct (binvec_ok x_new L2) as (lo & hi & O & E). unfold rebin_1d. rewrite E. cbn [bind]. rewrite L, Nat.eqb_refl. cbn [negb].
  set (samples := combine _ _). set (n := length x_new) in *. exists lo, hi.
  destruct (existsb (fun v => negb (Qeq_bool v 0)) (unmasked array)) eqn:Ex.
  - eexists. split; [exact O|]. split; [reflexivity|]. split; [rewrite map_length, seq_length; reflexivity|]. split.
    { intros Z. exfalso. apply existsb_exists in Ex as (v & I & V). apply visible_in, Z, Qeq_bool_iff in I. rewrite I in V. discriminate. }
    intros _ k K. exists (bin_values (linspace lo hi n) n samples k). eexists. split.
    + unfold bin_values. rewrite (linspace_nth lo hi n k) by lia. rewrite (linspace_nth lo hi n (S k)) by lia. unfold samples.
      set (a := (lo + nat_q k * ((hi - lo) / nat_q n))%Q). set (b := (lo + nat_q (S k) * ((hi - lo) / nat_q n))%Q).
      apply (collected_filter _ (fun x => Qle_bool a x && (if S k =? n then Qle_bool x b else qlt x b))); [|exact L].
      intros x. rewrite andb_true_iff, Qle_bool_iff. unfold in_closed_bin. fold (nat_q n) (nat_q k).
      assert (Eb : (b == lo + (nat_q k + 1) * ((hi - lo) / nat_q n))%Q).
      { unfold b. assert (X : (nat_q (S k) == nat_q k + 1)%Q) by (unfold nat_q; rewrite Nat2Z.inj_succ, <- Z.add_1_r, inject_Z_plus; reflexivity). rewrite X. reflexivity. }
      fold a. cbv zeta. rewrite <- Eb. clearbody a. destruct (Nat.eqb_spec (S k) n) as [En|En].
      * assert (Eh : (b == hi)%Q). { unfold b. rewrite En. field. intros X. assert (0 < n) by lia. pose proof (nat_q_pos n H). lra. }
        rewrite Qle_bool_iff. clearbody b. split; intros [A B]; (split; [exact A|]).
        -- destruct (Qlt_le_dec x b) as [C|C]; [left; exact C|right]. split; [exact En|lra].
        -- destruct B as [B|[_ B]]; lra.
      * rewrite qlt_iff. split; intros [A B]; (split; [exact A|]); [left; exact B|destruct B as [B|[B _]]; [exact B|congruence]].
    + split; [rewrite nth_error_map', nth_error_seq0 by lia; cbn [option_map]; reflexivity|]. unfold ma_stat. rewrite unmasked_some.
      set (vals := bin_values _ _ _ _). split; [intros ->; reflexivity|]. intros N. clearbody vals; destruct vals as [|v vs]; [congruence|].
      eexists. split; [reflexivity|]. apply mean_is_mean. discriminate.
  - eexists. split; [exact O|]. split; [reflexivity|]. split; [rewrite map_length; reflexivity|]. split.
    + intros _ k K. rewrite nth_error_map'. destruct (nth_error_lt_Some x_new k) as [x ->]; [exact K|]. reflexivity.
    + intros (v & I & V). exfalso. apply visible_in in I. assert (X : existsb (fun v => negb (Qeq_bool v 0)) (unmasked array) = true); [|congruence].
      apply existsb_exists. exists v. split; [exact I|]. destruct (Qeq_bool v 0) eqn:B; [apply Qeq_bool_iff in B; contradiction|reflexivity].
Qed.
