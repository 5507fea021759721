(** Proofs about the day statistics of the model evaluation. *)
From Coq Require Import List Bool Arith ZArith QArith Qabs String Lia Lqa.
From Verif Require Import Base TimeModel GridModel ArrayModel TelegramModel.
From Verif Require Import TelegramSpec TimeProofs GridProofs ArrayProofs TelegramProofs TelegramDayProofs.
From Verif Require Import StatModel StatSpec.
Import ListNotations.
Open Scope string_scope. Open Scope nat_scope. Open Scope list_scope.
Local Notation length := List.length (only parsing).

(** ** Numbers *)

Lemma in_numbers l q : In q (numbers l) <-> has_number l q.
Proof.
  unfold numbers, has_number. rewrite in_flat_map. split.
  - intros (c & I & H). destruct c as [[x|]|]; cbn in H; [|destruct H|destruct H].
    destruct H as [->|[]]. exact I.
  - intros I. exists (Some (Num q)). split; [exact I|left; reflexivity].
Qed.

Lemma fold_least r : forall q, let m := fold_left (fun a b => if qlt b a then b else a) r q in
  In m (q :: r) /\ forall x, In x (q :: r) -> (m <= x)%Q.
Proof.
  cbv zeta. induction r as [|y r IH]; intros q.
  - split; [left; reflexivity|]. intros x [<-|[]]. cbn. lra.
  - cbn [fold_left]. destruct (qlt y q) eqn:E.
    + apply qlt_iff in E. destruct (IH y) as [H1 H2]. split; [right; exact H1|].
      intros x [<-|I]; [|apply H2; exact I]. specialize (H2 y (or_introl eq_refl)). lra.
    + apply qlt_false in E. destruct (IH q) as [H1 H2]. split.
      { destruct H1 as [H1|H1]; [left; exact H1|right; right; exact H1]. }
      intros x [<-|[<-|I]]; [apply H2; left; reflexivity| |apply H2; right; exact I].
      specialize (H2 q (or_introl eq_refl)). lra.
Qed.
Lemma fold_greatest r : forall q, let m := fold_left (fun a b => if qlt a b then b else a) r q in
  In m (q :: r) /\ forall x, In x (q :: r) -> (x <= m)%Q.
Proof.
  cbv zeta. induction r as [|y r IH]; intros q.
  - split; [left; reflexivity|]. intros x [<-|[]]. cbn. lra.
  - cbn [fold_left]. destruct (qlt q y) eqn:E.
    + apply qlt_iff in E. destruct (IH y) as [H1 H2]. split; [right; exact H1|].
      intros x [<-|I]; [|apply H2; exact I]. specialize (H2 y (or_introl eq_refl)). lra.
    + apply qlt_false in E. destruct (IH q) as [H1 H2]. split.
      { destruct H1 as [H1|H1]; [left; exact H1|right; right; exact H1]. }
      intros x [<-|[<-|I]]; [apply H2; left; reflexivity| |apply H2; right; exact I].
      specialize (H2 q (or_introl eq_refl)). lra.
Qed.

Lemma has_number_mask_nan l q : has_number (map mask_nan l) q <-> has_number l q.
Proof.
  unfold has_number. rewrite in_map_iff. split.
  - intros (c & E & I). destruct c as [[x|]|]; cbn in E; try discriminate. rewrite <- E. exact I.
  - intros I. exists (Some (Num q)). split; [reflexivity|exact I].
Qed.

Lemma below_min l m :
  qlt m (min_number l) = false <->
  large_enough l m \/ (forall o, ~ has_number l o) /\ (0 <= m)%Q.
Proof.
  rewrite qlt_false. unfold min_number, large_enough. destruct (numbers l) as [|q r] eqn:E.
  - assert (N : forall o, ~ has_number l o) by (intros o H; apply in_numbers in H; rewrite E in H; exact H).
    split.
    + intros H. right. split; [exact N|exact H].
    + intros [(o & H & _)|[_ H]]; [destruct (N o H)|exact H].
  - destruct (fold_least r q) as [H1 H2]. set (x := fold_left _ r q) in *. clearbody x. split.
    + intros H. left. exists x. split; [apply in_numbers; rewrite E; exact H1|exact H].
    + intros [(o & H & L)|[N _]].
      * apply in_numbers in H. rewrite E in H. specialize (H2 o H). lra.
      * destruct (N q). apply in_numbers. rewrite E. left; reflexivity.
Qed.

Lemma round_to_rounded s q : rounded (Zpos s) q (round_to s q).
Proof.
  unfold rounded, round_to. exists (round_half_even (q * inject_Z (Zpos s))).
  split; [reflexivity|]. apply round_half_even_spec.
Qed.

(** A rounded number has the sign of the number. *)
Lemma rounded_nonneg s x v : (0 < s)%Z -> rounded s x v -> (0 <= x)%Q -> (0 <= v)%Q.
Proof.
  intros Hs (u & Hv & Hr) Hx. rewrite Hv.
  assert (S' : (0 < inject_Z s)%Q) by (change 0%Q with (inject_Z 0); rewrite <- Zlt_Qlt; exact Hs).
  assert (P : (0 <= x * inject_Z s)%Q) by (apply Qmult_le_0_compat; lra).
  assert (U : (0 <= u)%Z).
  { pose proof (Qle_Qabs (x * inject_Z s - inject_Z u)) as A.
    assert (C : (2 * Qabs (x * inject_Z s - inject_Z u) <= 1)%Q) by (destruct Hr as [H|[H _]]; lra).
    assert (L : (inject_Z (-1) < inject_Z u)%Q) by (change (inject_Z (-1)) with (-(1))%Q; lra).
    rewrite <- Zlt_Qlt in L. lia. }
  apply Qle_shift_div_l; [exact S'|]. rewrite Qmult_0_l. change 0%Q with (inject_Z 0). rewrite <- Zle_Qle. exact U.
Qed.
Lemma rounded_nonpos s x v : (0 < s)%Z -> rounded s x v -> (x <= 0)%Q -> (v <= 0)%Q.
Proof.
  intros Hs (u & Hv & Hr) Hx. rewrite Hv.
  assert (S' : (0 < inject_Z s)%Q) by (change 0%Q with (inject_Z 0); rewrite <- Zlt_Qlt; exact Hs).
  assert (P : (x * inject_Z s <= 0)%Q).
  { assert (H : (0 <= (-x) * inject_Z s)%Q) by (apply Qmult_le_0_compat; lra). lra. }
  assert (U : (u <= 0)%Z).
  { pose proof (Qle_Qabs (- (x * inject_Z s - inject_Z u))) as A. rewrite Qabs_opp in A.
    assert (C : (2 * Qabs (x * inject_Z s - inject_Z u) <= 1)%Q) by (destruct Hr as [H|[H _]]; lra).
    assert (L : (inject_Z u < inject_Z 1)%Q) by (change (inject_Z 1) with 1%Q; lra).
    rewrite <- Zlt_Qlt in L. lia. }
  apply Qle_shift_div_r; [exact S'|]. rewrite Qmult_0_l. change 0%Q with (inject_Z 0). rewrite <- Zle_Qle. exact U.
Qed.
(** Rounding to hundredths keeps numbers between 0 and 100 there. *)
Lemma rounded_le s x v n : (0 < s)%Z -> rounded s x v -> (x <= inject_Z n)%Q -> (v <= inject_Z n)%Q.
Proof.
  intros Hs (u & Hv & Hr) Hx. rewrite Hv.
  assert (S' : (0 < inject_Z s)%Q) by (change 0%Q with (inject_Z 0); rewrite <- Zlt_Qlt; exact Hs).
  assert (P : (x * inject_Z s <= inject_Z (n * s))%Q).
  { rewrite inject_Z_mult. apply Qmult_le_compat_r; [exact Hx|lra]. }
  assert (U : (u <= n * s)%Z).
  { pose proof (Qle_Qabs (- (x * inject_Z s - inject_Z u))) as A. rewrite Qabs_opp in A.
    assert (C : (2 * Qabs (x * inject_Z s - inject_Z u) <= 1)%Q) by (destruct Hr as [H|[H _]]; lra).
    assert (L : (inject_Z u < inject_Z (n * s + 1))%Q)
      by (rewrite inject_Z_plus; change (inject_Z 1) with 1%Q; lra).
    rewrite <- Zlt_Qlt in L. lia. }
  apply Qle_shift_div_r; [exact S'|]. rewrite <- inject_Z_mult. rewrite <- Zle_Qle. exact U.
Qed.

(** ** Errors *)

(** The pixels left to the model and to the observation. *)
Definition keep_model (obs : list cell) (c o : cell) : cell :=
  match mask_below (min_number (map mask_nan obs)) c, mask_nan o with Some m, Some _ => Some m | _, _ => None end.
Definition keep_obs (obs : list cell) (c o : cell) : cell :=
  match mask_below (min_number (map mask_nan obs)) c, mask_nan o with Some _, Some x => Some x | _, _ => None end.

Lemma mask_where_map2 {A B} (f : A -> B -> bool) (g : A -> cell) la lb :
  length la = length lb -> mask_where (map2 f la lb) (map g la) = map2 (fun a b => if f a b then None else g a) la lb.
Proof.
  revert lb. induction la as [|a la IH]; intros [|b lb] L; try discriminate; [reflexivity|].
  cbn. f_equal. apply IH. now injection L.
Qed.
Lemma mask_where_map2_r {A B} (f : A -> B -> bool) (g : B -> cell) la lb :
  length la = length lb -> mask_where (map2 f la lb) (map g lb) = map2 (fun a b => if f a b then None else g b) la lb.
Proof.
  revert lb. induction la as [|a la IH]; intros [|b lb] L; try discriminate; [reflexivity|].
  cbn. f_equal. apply IH. now injection L.
Qed.
Lemma map2_map_both {A B C D E} (f : C -> D -> E) (g : A -> C) (h : B -> D) la : forall lb,
  map2 f (map g la) (map h lb) = map2 (fun a b => f (g a) (h b)) la lb.
Proof. induction la as [|a la IH]; intros [|b lb]; cbn; try reflexivity. f_equal. apply IH. Qed.
Lemma map2_ext {A B C} (f g : A -> B -> C) la : forall lb, (forall a b, f a b = g a b) -> map2 f la lb = map2 g la lb.
Proof. induction la as [|a la IH]; intros [|b lb] H; cbn; try reflexivity. rewrite H, (IH lb H). reflexivity. Qed.

Lemma combine_eq model obs : length model = length obs ->
  combine_masked_indices model obs = (map2 (keep_model obs) model obs, map2 (keep_obs obs) model obs).
Proof.
  intros L. unfold combine_masked_indices. cbv zeta.
  set (t := min_number (map mask_nan obs)). rewrite !map_map, map2_map_both.
  f_equal.
  - rewrite (mask_where_map2 (fun a b => is_masked (mask_below t a) || is_masked (mask_nan b)) (mask_below t) model obs L).
    apply map2_ext. intros a b. unfold keep_model. fold t.
    destruct (mask_below t a) as [x|]; destruct (mask_nan b) as [y|]; reflexivity.
  - rewrite (mask_where_map2_r (fun a b => is_masked (mask_below t a) || is_masked (mask_nan b)) mask_nan model obs L).
    apply map2_ext. intros a b. unfold keep_obs. fold t.
    destruct (mask_below t a) as [x|]; destruct (mask_nan b) as [y|]; reflexivity.
Qed.

Lemma large_mask_nan obs m : large_enough (map mask_nan obs) m <-> large_enough obs m.
Proof.
  unfold large_enough. split; intros (o & H & L); exists o; (split; [apply has_number_mask_nan; exact H|exact L]).
Qed.

(** What is left of a pixel of the model. *)
Lemma keep_model_num obs m o :
  has_number obs o ->
  keep_model obs (Some (Num m)) (Some (Num o)) = Some (Num m) /\ large_enough obs m \/
  keep_model obs (Some (Num m)) (Some (Num o)) = None /\ ~ large_enough obs m.
Proof.
  intros Ho. unfold keep_model. cbn [mask_nan mask_below].
  destruct (qlt m (min_number (map mask_nan obs))) eqn:E.
  - right. split; [reflexivity|]. intros L. apply large_mask_nan in L.
    assert (F := proj2 (below_min (map mask_nan obs) m) (or_introl L)). congruence.
  - left. split; [reflexivity|]. apply below_min in E. destruct E as [E|[N _]]; [apply large_mask_nan; exact E|].
    destruct (N o). apply has_number_mask_nan. exact Ho.
Qed.
Lemma keep_obs_num obs c o x : keep_obs obs c o = Some x -> o = Some x /\ x <> NaN.
Proof.
  unfold keep_obs. destruct (mask_below _ c); [|discriminate]. destruct o as [[q|]|]; cbn; intros H; try discriminate.
  injection H as <-. split; [reflexivity|discriminate].
Qed.
Lemma keep_both obs c o : keep_model obs c o = None <-> keep_obs obs c o = None.
Proof. unfold keep_model, keep_obs. destruct (mask_below _ c); destruct (mask_nan o); split; congruence. Qed.
Lemma keep_model_some obs c o x : keep_model obs c o = Some x -> c = Some x.
Proof.
  unfold keep_model, mask_below. destruct c as [[q|]|]; [|destruct (mask_nan o); congruence|discriminate].
  destruct (qlt q _); [discriminate|]. destruct (mask_nan o); congruence.
Qed.

Lemma map2_len {A B C} (f : A -> B -> C) la lb : length la = length lb -> length (map2 f la lb) = length la.
Proof. intros L. rewrite map2_length. lia. Qed.

Lemma relative_eq model obs : length model = length obs ->
  fst (relative_error model obs) = map2 (fun c o => relative_cell (keep_model obs c o) (keep_obs obs c o)) model obs /\
  fst (snd (relative_error model obs)) = map2 (keep_model obs) model obs.
Proof.
  intros L. unfold relative_error. rewrite (combine_eq model obs L). cbn [fst snd]. split; [|reflexivity].
  clear L. generalize (keep_model obs) (keep_obs obs). intros f g. revert obs.
  induction model as [|c model IH]; intros [|o obs]; cbn; try reflexivity. f_equal. apply IH.
Qed.
Lemma absolute_eq model obs : length model = length obs ->
  fst (absolute_error model obs) = map2 (fun c o => absolute_cell (keep_model obs c o) (keep_obs obs c o)) model obs /\
  fst (snd (absolute_error model obs)) = map2 (keep_model obs) model obs.
Proof.
  intros L. unfold absolute_error. rewrite (combine_eq model obs L). cbn [fst snd]. split; [|reflexivity].
  clear L. generalize (keep_model obs) (keep_obs obs). intros f g. revert obs.
  induction model as [|c model IH]; intros [|o obs]; cbn; try reflexivity. f_equal. apply IH.
Qed.

Lemma nth_has l i q : number_at l i q -> has_number l q.
Proof. apply nth_error_In. Qed.

Lemma relative_pixel model obs i c : length model = length obs ->
  nth_error (fst (relative_error model obs)) i = Some c ->
  (forall m o, comparable model obs i m o -> ~ (o == 0)%Q ->
     exists v, c = Some (Num v) /\ hundredths ((m - o) / o * 100) v) /\
  ((forall m o, comparable model obs i m o -> (o == 0)%Q) -> c = None).
Proof.
  intros L. rewrite (proj1 (relative_eq model obs L)), nth_error_map2.
  destruct (nth_error model i) as [cm|] eqn:Em; [|discriminate].
  destruct (nth_error obs i) as [co|] eqn:Eo; [|discriminate].
  intros H. injection H as <-. split.
  - intros m o (Hm & Ho & Hl) Hz. unfold number_at in Hm, Ho.
    assert (cm = Some (Num m)) as -> by congruence. assert (co = Some (Num o)) as -> by congruence.
    destruct (keep_model_num obs m o (nth_has _ _ _ Ho)) as [[K _]|[_ K]]; [|destruct (K Hl)].
    rewrite K. destruct (keep_obs obs (Some (Num m)) (Some (Num o))) as [x|] eqn:Ko.
    + apply keep_obs_num in Ko. destruct Ko as [Ko _]. injection Ko as <-. cbn [relative_cell].
      destruct (Qeq_bool o 0) eqn:Z; [apply Qeq_bool_iff in Z; destruct (Hz Z)|].
      eexists. split; [reflexivity|]. apply round_to_rounded.
    + apply keep_both in Ko. congruence.
  - intros Hz. unfold relative_cell. destruct (keep_model obs cm co) as [x|] eqn:Km; [|reflexivity].
    destruct (keep_obs obs cm co) as [y|] eqn:Ko; [|destruct x; reflexivity].
    destruct (keep_obs_num _ _ _ _ Ko) as [-> Ny]. assert (Km' := keep_model_some _ _ _ _ Km). subst cm.
    destruct y as [o|]; [|destruct (Ny eq_refl)]. destruct x as [m|]; [|reflexivity].
    destruct (Qeq_bool o 0) eqn:Z; [reflexivity|]. apply Qeq_bool_neq in Z. destruct Z.
    apply (Hz m o). split; [exact Em|]. split; [exact Eo|].
    destruct (keep_model_num obs m o (nth_has _ _ _ Eo)) as [[_ K]|[K _]]; [exact K|congruence].
Qed.

Lemma absolute_pixel model obs i c : length model = length obs ->
  nth_error (fst (absolute_error model obs)) i = Some c ->
  (forall m o, comparable model obs i m o -> exists v, c = Some (Num v) /\ hundredths ((o - m) * 100) v) /\
  (nth_error model i = Some (Some NaN) -> has_obs obs i -> c = Some NaN) /\
  ((forall m o, ~ comparable model obs i m o) -> ~ (nth_error model i = Some (Some NaN) /\ has_obs obs i) -> c = None).
Proof.
  intros L. rewrite (proj1 (absolute_eq model obs L)), nth_error_map2.
  destruct (nth_error model i) as [cm|] eqn:Em; [|discriminate].
  destruct (nth_error obs i) as [co|] eqn:Eo; [|discriminate].
  intros H. injection H as <-. split; [|split].
  - intros m o (Hm & Ho & Hl). unfold number_at in Hm, Ho.
    assert (cm = Some (Num m)) as -> by congruence. assert (co = Some (Num o)) as -> by congruence.
    destruct (keep_model_num obs m o (nth_has _ _ _ Ho)) as [[K _]|[_ K]]; [|destruct (K Hl)].
    rewrite K. destruct (keep_obs obs (Some (Num m)) (Some (Num o))) as [x|] eqn:Ko.
    + apply keep_obs_num in Ko. destruct Ko as [Ko _]. injection Ko as <-. cbn [absolute_cell].
      eexists. split; [reflexivity|]. apply round_to_rounded.
    + apply keep_both in Ko. congruence.
  - intros Hn (o & Ho). unfold number_at in Ho. assert (cm = Some NaN) as -> by congruence.
    assert (co = Some (Num o)) as -> by congruence. reflexivity.
  - intros Hc Hn. unfold absolute_cell. destruct (keep_model obs cm co) as [x|] eqn:Km; [|reflexivity].
    destruct (keep_obs obs cm co) as [y|] eqn:Ko; [|destruct x; reflexivity].
    destruct (keep_obs_num _ _ _ _ Ko) as [-> Ny]. assert (Km' := keep_model_some _ _ _ _ Km). subst cm.
    destruct y as [o|]; [|destruct (Ny eq_refl)]. destruct x as [m|].
    + exfalso. apply (Hc m o). split; [exact Em|]. split; [exact Eo|].
      destruct (keep_model_num obs m o (nth_has _ _ _ Eo)) as [[_ K]|[K _]]; [exact K|congruence].
    + exfalso. apply Hn. split; [reflexivity|]. exists o. exact Eo.
Qed.

(** ** The loop over the observations *)

Fixpoint after (model : list cell) (obss : list (list cell)) : list cell :=
  match obss with [] => model | o :: r => after (map2 (keep_model o) model o) r end.

Lemma statistic_state product model obs : length model = length obs ->
  fst (snd (error_statistic product model obs)) = map2 (keep_model obs) model obs.
Proof.
  intros L. unfold error_statistic. destruct (String.eqb product "cf"); [apply absolute_eq|apply relative_eq]; exact L.
Qed.

Lemma loop_panel product obss : forall model k p o,
  Forall (fun obs : list cell => length obs = length model) obss ->
  nth_error (error_loop product model obss) k = Some p -> nth_error obss k = Some o ->
  p = fst (error_statistic product (after model (firstn k obss)) o).
Proof.
  induction obss as [|b obss IH]; intros model k p o F Hp Ho; [destruct k; discriminate|].
  inversion F as [|? ? Lb F']; subst. cbn [error_loop] in Hp.
  pose proof (statistic_state product model b (eq_sym Lb)) as St.
  destruct (error_statistic product model b) as [panel [model' obs']] eqn:E. cbn [fst snd] in St. subst model'.
  destruct (forallb is_masked panel); [destruct k; discriminate|].
  destruct k as [|k].
  - cbn in Hp, Ho |- *. assert (o = b) as -> by congruence. rewrite E. cbn [fst]. congruence.
  - cbn [nth_error] in Hp, Ho. cbn [firstn after]. apply (IH _ _ _ _); [|exact Hp|exact Ho].
    rewrite (map2_len (keep_model b) model b (eq_sym Lb)). exact F'.
Qed.

(** Panels are missing from the first one on that shows nothing. *)
Lemma loop_missing product obss : forall model k,
  Forall (fun obs : list cell => length obs = length model) obss ->
  nth_error (error_loop product model obss) k = None -> k < length obss ->
  exists j o, j <= k /\ nth_error obss j = Some o /\
    forallb is_masked (fst (error_statistic product (after model (firstn j obss)) o)) = true.
Proof.
  induction obss as [|b obss IH]; intros model k F Hp Hk; [cbn in Hk; lia|].
  inversion F as [|? ? Lb F']; subst. cbn [error_loop] in Hp.
  pose proof (statistic_state product model b (eq_sym Lb)) as St.
  destruct (error_statistic product model b) as [panel [model' obs']] eqn:E. cbn [fst snd] in St. subst model'.
  destruct (forallb is_masked panel) eqn:M.
  - exists 0, b. split; [lia|]. split; [reflexivity|]. cbn [firstn after]. rewrite E. exact M.
  - destruct k as [|k]; [discriminate|]. cbn [nth_error] in Hp. cbn [List.length] in Hk.
    destruct (IH (map2 (keep_model b) model b) k) as (j & o & Hj & Ho & HM); [|exact Hp|lia|].
    + rewrite (map2_len (keep_model b) model b (eq_sym Lb)). exact F'.
    + exists (S j), o. split; [lia|]. split; [exact Ho|]. exact HM.
Qed.

Lemma after_length obss : forall model, Forall (fun obs : list cell => length obs = length model) obss ->
  length (after model obss) = length model.
Proof.
  induction obss as [|b obss IH]; intros model F; [reflexivity|]. inversion F as [|? ? Lb F']; subst.
  cbn [after]. rewrite IH; rewrite (map2_len (keep_model b) model b (eq_sym Lb)); [reflexivity|exact F'].
Qed.

Lemma keep_number obs model i m : length model = length obs ->
  number_at (map2 (keep_model obs) model obs) i m <->
  number_at model i m /\ has_obs obs i /\ large_enough obs m.
Proof.
  intros L. unfold number_at, has_obs. rewrite nth_error_map2. split.
  - destruct (nth_error model i) as [cm|] eqn:Em; [|discriminate].
    destruct (nth_error obs i) as [co|] eqn:Eo; [|discriminate].
    intros H. injection H as H. assert (K := keep_model_some _ _ _ _ H). subst cm. split; [reflexivity|].
    assert (exists o, co = Some (Num o)) as [o ->].
    { unfold keep_model in H. destruct (mask_below _ _); [|discriminate].
      destruct co as [[o|]|]; cbn in H; try discriminate. exists o. reflexivity. }
    split; [exists o; exact Eo|].
    destruct (keep_model_num obs m o (nth_has _ _ _ Eo)) as [[_ K]|[K _]]; [exact K|congruence].
  - intros (Em & (o & Eo) & Hl). unfold number_at in Eo. rewrite Em, Eo.
    destruct (keep_model_num obs m o (nth_has _ _ _ Eo)) as [[K _]|[_ K]]; [rewrite K; reflexivity|destruct (K Hl)].
Qed.

Lemma after_number obss : forall model i m, Forall (fun obs : list cell => length obs = length model) obss ->
  number_at (after model obss) i m <->
  number_at model i m /\ Forall (fun obs => has_obs obs i /\ large_enough obs m) obss.
Proof.
  induction obss as [|b obss IH]; intros model i m F; cbn [after].
  - split; [intros H; split; [exact H|constructor]|intros [H _]; exact H].
  - inversion F as [|? ? Lb F']; subst. rewrite IH.
    + rewrite (keep_number b model i m (eq_sym Lb)). split.
      * intros [(H1 & H2 & H3) H4]. split; [exact H1|]. constructor; [split; assumption|exact H4].
      * intros [H1 H2]. inversion H2 as [|? ? [H3 H4] H5]; subst. split; [|exact H5]. repeat split; assumption.
    + rewrite (map2_len (keep_model b) model b (eq_sym Lb)). exact F'.
Qed.

Lemma Forall_firstn' {A} (P : A -> Prop) k : forall l, Forall P l -> Forall P (firstn k l).
Proof. induction k as [|k IH]; intros [|x l] F; cbn; try constructor; inversion F; subst; auto. Qed.

(** ** Areas *)

Lemma area_state model obs :
  snd (calc_common_area_sum model obs) =
  (map (fun c => mask_below (min_number (map mask_nan obs)) (mask_nan c)) model, map mask_nan obs).
Proof. unfold calc_common_area_sum. cbn [snd]. rewrite map_map. reflexivity. Qed.

Lemma area_model_masked model obs i c : nth_error model i = Some c ->
  is_masked (mask_below (min_number (map mask_nan obs)) (mask_nan c)) = false <-> has_model model obs i.
Proof.
  intros Ec. unfold has_model, number_at. rewrite Ec. split.
  - destruct c as [[q|]|]; cbn [mask_nan mask_below is_masked]; [|discriminate|discriminate].
    destruct (qlt q _) eqn:E; [discriminate|]. intros _. exists q. split; [reflexivity|].
    apply below_min in E. destruct E as [E|[N P]]; [left; apply large_mask_nan; exact E|right].
    split; [|exact P]. intros o H. apply (N o). apply has_number_mask_nan. exact H.
  - intros (m & H & Hl). injection H as ->. cbn [mask_nan mask_below].
    assert (E : qlt m (min_number (map mask_nan obs)) = false).
    { apply below_min. destruct Hl as [Hl|[N P]]; [left; apply large_mask_nan; exact Hl|right].
      split; [|exact P]. intros o H. apply (N o). apply has_number_mask_nan. exact H. }
    rewrite E. reflexivity.
Qed.
Lemma area_obs_masked obs i c : nth_error obs i = Some c -> is_masked (mask_nan c) = false <-> has_obs obs i.
Proof.
  intros Ec. unfold has_obs, number_at. rewrite Ec. split.
  - destruct c as [[q|]|]; cbn; intros H; try discriminate. exists q. reflexivity.
  - intros (o & H). injection H as ->. reflexivity.
Qed.

Lemma segments_at model obs i v : length model = length obs ->
  nth_error (create_segment_values (fst (snd (calc_common_area_sum model obs)))
                                   (snd (snd (calc_common_area_sum model obs)))) i = Some v ->
  (v = 0 /\ ~ has_model model obs i /\ ~ has_obs obs i) \/
  (v = 1 /\ has_model model obs i /\ ~ has_obs obs i) \/
  (v = 2 /\ has_model model obs i /\ has_obs obs i) \/
  (v = 3 /\ ~ has_model model obs i /\ has_obs obs i).
Proof.
  intros L. rewrite area_state. cbn [fst snd]. unfold create_segment_values.
  rewrite map2_map_both, nth_error_map2.
  destruct (nth_error model i) as [cm|] eqn:Em; [|discriminate].
  destruct (nth_error obs i) as [co|] eqn:Eo; [|discriminate].
  intros H. injection H as <-. pose proof (area_model_masked model obs i cm Em) as A.
  pose proof (area_obs_masked obs i co Eo) as B. unfold segment_value.
  destruct (is_masked (mask_below _ _)); destruct (is_masked (mask_nan co)); cbn [andb negb].
  - left. split; [reflexivity|]. split; intros H; [apply A in H|apply B in H]; discriminate.
  - right; right; right. split; [reflexivity|]. split; [intros H; apply A in H; discriminate|apply B; reflexivity].
  - right; left. split; [reflexivity|]. split; [apply A; reflexivity|intros H; apply B in H; discriminate].
  - right; right; left. split; [reflexivity|]. split; [apply A; reflexivity|apply B; reflexivity].
Qed.

Lemma counts la : forall lb : list cell, length la = length lb ->
  length (filter negb (map2 orb (map is_masked la) (map is_masked lb))) =
    count_occ Nat.eq_dec (create_segment_values la lb) 2 /\
  length (filter negb (map2 andb (map is_masked la) (map is_masked lb))) +
    count_occ Nat.eq_dec (create_segment_values la lb) 0 = length la.
Proof.
  unfold create_segment_values. induction la as [|a la IH]; intros [|b lb] L; try discriminate; [split; reflexivity|].
  injection L as L. destruct (IH lb L) as [H1 H2]. destruct a, b; cbn in *; split; lia.
Qed.

Lemma count_sum (l : list nat) : count_occ Nat.eq_dec l 2 + count_occ Nat.eq_dec l 0 <= length l.
Proof. induction l as [|[|[|[|x]]] l IH]; cbn in *; lia. Qed.

Lemma area_value model obs : length model = length obs ->
  let r := calc_common_area_sum model obs in
  let seg := create_segment_values (fst (snd r)) (snd (snd r)) in
  let n := length seg - count_occ Nat.eq_dec seg 0 in
  length seg = length model /\
  (n = 0 -> fst r = 0%Q) /\
  (n <> 0 -> hundredths (inject_Z (Z.of_nat (count_occ Nat.eq_dec seg 2)) / inject_Z (Z.of_nat n) * 100) (fst r)).
Proof.
  intros L. cbv zeta. rewrite area_state. cbn [fst snd].
  set (ma := map (fun c => mask_below (min_number (map mask_nan obs)) (mask_nan c)) model).
  set (mo := map mask_nan obs).
  assert (L' : length ma = length mo) by (unfold ma, mo; rewrite !map_length; exact L).
  assert (Ls : length (create_segment_values ma mo) = length ma) by (apply map2_len; exact L').
  assert (Lm : length ma = length model) by (unfold ma; apply map_length).
  destruct (counts ma mo L') as [C1 C2].
  assert (V : fst (calc_common_area_sum model obs) =
    let va := count_false (map2 andb (map is_masked ma) (map is_masked mo)) in
    if Z.eqb va 0 then 0%Q else round_to 100 (inject_Z (count_false (map2 orb (map is_masked ma) (map is_masked mo))) / inject_Z va * 100)).
  { unfold calc_common_area_sum. cbn [fst]. unfold ma, mo. rewrite !map_map. reflexivity. }
  rewrite V. cbv zeta. unfold count_false. rewrite C1.
  assert (E : length (filter negb (map2 andb (map is_masked ma) (map is_masked mo))) =
              length (create_segment_values ma mo) - count_occ Nat.eq_dec (create_segment_values ma mo) 0) by lia.
  rewrite E. split; [lia|]. set (n := _ - _). split.
  - intros ->. reflexivity.
  - intros N. destruct (Z.eqb_spec (Z.of_nat n) 0) as [Z|Z]; [lia|]. apply (round_to_rounded 100).
Qed.

Lemma area_range model obs : length model = length obs ->
  (0 <= fst (calc_common_area_sum model obs) <= 100)%Q.
Proof.
  intros L. destruct (area_value model obs L) as (H0 & H1 & H2). cbv zeta in *.
  set (v := fst (calc_common_area_sum model obs)) in *.
  set (seg := create_segment_values _ _) in *. clearbody v.
  pose proof (count_sum seg) as C. set (n := length seg - count_occ Nat.eq_dec seg 0) in *.
  assert (Cn : count_occ Nat.eq_dec seg 2 <= n) by lia. clearbody n.
  destruct (Nat.eq_dec n 0) as [E|E]; [rewrite (H1 E); lra|]. specialize (H2 E).
  set (k := count_occ Nat.eq_dec seg 2) in *. clearbody k.
  assert (P : (0 < inject_Z (Z.of_nat n))%Q) by (change 0%Q with (inject_Z 0); rewrite <- Zlt_Qlt; lia).
  assert (K0 : (0 <= inject_Z (Z.of_nat k))%Q) by (change 0%Q with (inject_Z 0); rewrite <- Zle_Qle; lia).
  assert (K1 : (inject_Z (Z.of_nat k) <= inject_Z (Z.of_nat n))%Q) by (rewrite <- Zle_Qle; lia).
  assert (A : (0 <= inject_Z (Z.of_nat k) / inject_Z (Z.of_nat n))%Q)
    by (apply Qle_shift_div_l; [exact P|]; rewrite Qmult_0_l; exact K0).
  assert (B : (inject_Z (Z.of_nat k) / inject_Z (Z.of_nat n) <= 1)%Q)
    by (apply Qle_shift_div_r; [exact P|]; rewrite Qmult_1_l; exact K1).
  set (x := (inject_Z (Z.of_nat k) / inject_Z (Z.of_nat n))%Q) in *. clearbody x.
  split.
  - apply (rounded_nonneg 100 (x * 100) v); [lia|exact H2|lra].
  - apply (rounded_le 100 (x * 100) v 100); [lia|exact H2|]. change (inject_Z 100) with 100%Q. lra.
Qed.

(** ** Means *)

Lemma qsum_total l : (qsum l == total l)%Q.
Proof.
  unfold qsum. enough (H : forall a, (fold_left Qplus l a == a + total l)%Q) by (rewrite H; lra).
  induction l as [|x l IH]; intros a; cbn [fold_left total fold_right]; [unfold total; cbn; lra|].
  rewrite IH. unfold total. lra.
Qed.
Lemma qmean_total l : l <> [] -> (qmean l * inject_Z (Z.of_nat (length l)) == total l)%Q.
Proof.
  intros N. unfold qmean. rewrite <- qsum_total.
  assert (P : ~ (inject_Z (Z.of_nat (length l)) == 0)%Q).
  { intros H. change 0%Q with (inject_Z 0) in H. apply inject_Z_injective in H. destruct l; [destruct N; reflexivity|discriminate H]. }
  set (n := inject_Z (Z.of_nat (length l))) in *. clearbody n. field. exact P.
Qed.

Lemma visible_total l : exists out, visible l out.
Proof.
  induction l as [|[x|] l [out IH]]; [exists []; constructor|exists (x :: out); constructor; exact IH|exists out; constructor; exact IH].
Qed.
Lemma visible_fun l a : visible l a -> forall b, visible l b -> a = b.
Proof. induction 1 as [|x l out V IH|l out V IH]; intros b H; inversion H; subst; f_equal; auto. Qed.
Lemma visible_numbers l out : visible l out -> pick (fun x => x <> NaN) out (map Num (numbers l)).
Proof.
  induction 1 as [|x l out V IH|l out V IH]; [constructor| |exact IH].
  destruct x as [q|]; cbn; [constructor; [discriminate|exact IH]|constructor; [|exact IH]].
  intros H. apply H. reflexivity.
Qed.
Lemma visible_nil l : visible l [] <-> forallb is_masked l = true.
Proof.
  split.
  - induction l as [|[x|] l IH]; intros H; [reflexivity|inversion H|inversion H; subst; cbn; auto].
  - induction l as [|[x|] l IH]; intros H; [constructor|discriminate|constructor; auto].
Qed.
Lemma visible_in l out : visible l out -> forall x, In x out <-> In (Some x) l.
Proof.
  induction 1 as [|y l out V IH|l out V IH]; intros x; cbn; [tauto| |].
  - rewrite IH. split; intros [H|H]; auto; left; congruence.
  - rewrite IH. split; [auto|]. intros [H|H]; [discriminate|exact H].
Qed.
Lemma nan_in l : existsb is_nan l = true <-> In (Some NaN) l.
Proof.
  rewrite existsb_exists. split.
  - intros (c & I & H). destruct c as [[q|]|]; try discriminate. exact I.
  - intros I. exists (Some NaN). split; [exact I|reflexivity].
Qed.
Lemma numbers_nil l : numbers l = [] <-> forall q, ~ has_number l q.
Proof.
  split.
  - intros E q H. apply in_numbers in H. rewrite E in H. exact H.
  - intros N. destruct (numbers l) as [|q r] eqn:E; [reflexivity|]. destruct (N q). apply in_numbers. rewrite E. left; reflexivity.
Qed.

Lemma ma_mean_spec l vis : visible l vis ->
  (vis = [] -> ma_mean l = None) /\
  (In NaN vis -> ma_mean l = Some NaN) /\
  (vis <> [] -> ~ In NaN vis -> exists v, ma_mean l = Some (Num v) /\ mean_of vis v).
Proof.
  intros V. unfold ma_mean. destruct (forallb is_masked l) eqn:M.
  - apply visible_nil in M. assert (vis = []) as -> by (eapply visible_fun; eassumption).
    split; [reflexivity|]. split; [intros []|intros N; destruct (N eq_refl)].
  - destruct (existsb is_nan l) eqn:E.
    + apply nan_in in E. split; [intros ->; apply visible_nil in V; congruence|].
      split; [reflexivity|]. intros _ N. destruct N. apply (visible_in l vis V). exact E.
    + assert (E' : ~ In (Some NaN) l) by (intros I; apply nan_in in I; congruence).
      split; [intros ->; apply visible_nil in V; congruence|].
      split; [intros I; apply (visible_in l vis V) in I; destruct (E' I)|].
      intros N _. eexists. split; [reflexivity|]. exists (numbers l). split; [apply visible_numbers; exact V|].
      assert (Nn : numbers l <> []).
      { destruct vis as [|[q|] vis]; [destruct (N eq_refl)| |].
        - intros F. apply (proj1 (numbers_nil l) F q). unfold has_number. apply (visible_in l _ V). left; reflexivity.
        - intros _. apply E'. apply (visible_in l _ V). left; reflexivity. }
      split; [exact Nn|]. apply qmean_total. exact Nn.
Qed.
Lemma nan_mean_spec l vis : visible l vis ->
  ((forall q, ~ In (Num q) vis) -> nan_mean l = None) /\
  (forall q, In (Num q) vis -> exists v, nan_mean l = Some v /\ mean_of vis v).
Proof.
  intros V. unfold nan_mean. split.
  - intros N. assert (E : numbers l = []).
    { apply numbers_nil. intros q H. apply (N q). apply (visible_in l vis V). exact H. }
    rewrite E. reflexivity.
  - intros q I. apply (visible_in l vis V) in I. apply in_numbers in I.
    destruct (numbers l) as [|x r] eqn:E; [destruct I|]. eexists. split; [reflexivity|].
    rewrite <- E. exists (numbers l). split; [apply visible_numbers; exact V|].
    assert (Nn : numbers l <> []) by (rewrite E; discriminate). split; [exact Nn|]. apply qmean_total. exact Nn.
Qed.

(** A mean lies between the bounds of its numbers. *)
Lemma total_bounds l lo hi : (forall x, In x l -> (lo <= x <= hi)%Q) ->
  (lo * inject_Z (Z.of_nat (length l)) <= total l <= hi * inject_Z (Z.of_nat (length l)))%Q.
Proof.
  induction l as [|x l IH]; intros H; [change (total []) with 0%Q; change (inject_Z (Z.of_nat (length (@nil Q)))) with 0%Q; rewrite !Qmult_0_r; split; apply Qle_refl|].
  assert (B := IH (fun y I => H y (or_intror I))). assert (X := H x (or_introl eq_refl)).
  cbn [List.length]. unfold total in *. cbn [fold_right]. rewrite Nat2Z.inj_succ. unfold Z.succ. rewrite inject_Z_plus.
  change (inject_Z 1) with 1%Q. set (n := inject_Z (Z.of_nat (length l))) in *. clearbody n.
  set (t := fold_right Qplus 0%Q l) in *. clearbody t. lra.
Qed.
Lemma pick_in {A} (P : A -> Prop) l out : pick P l out -> forall x, In x out <-> In x l /\ P x.
Proof.
  induction 1 as [|y l out Hy H IH|y l out Hy H IH]; intros x; cbn.
  - tauto.
  - rewrite IH. split; [intros [<-|[H1 H2]]; auto|intros [[<-|H1] H2]; auto].
  - rewrite IH. split; [intros [H1 H2]; auto|intros [[<-|H1] H2]; [destruct (Hy H2)|auto]].
Qed.
Lemma mean_bounds vis v lo hi : mean_of vis v -> (forall q, In (Num q) vis -> (lo <= q <= hi)%Q) -> (lo <= v <= hi)%Q.
Proof.
  intros (qs & P & N & E) B.
  assert (B' : forall x, In x qs -> (lo <= x <= hi)%Q).
  { intros x I. apply B. apply (pick_in _ _ _ P). apply in_map. exact I. }
  apply total_bounds in B'. rewrite <- E in B'.
  assert (Hn : (0 < inject_Z (Z.of_nat (length qs)))%Q).
  { change 0%Q with (inject_Z 0). rewrite <- Zlt_Qlt. destruct qs; [destruct (N eq_refl)|cbn [List.length]; lia]. }
  set (n := inject_Z (Z.of_nat (length qs))) in *. clearbody n.
  destruct B' as [B1 B2]. split; apply Qmult_le_r with (z := n); assumption.
Qed.

(** ** Rolling mean *)

Lemma rolling_at n data i : i < length data ->
  nth_error (rolling_mean n data) i = Some (nan_mean (firstn n (skipn i data))).
Proof.
  intros Hi. unfold rolling_mean. rewrite nth_error_map.
  rewrite (nth_error_nth' (seq 0 (length data)) 0) by (rewrite seq_length; exact Hi).
  rewrite seq_nth by exact Hi. cbn [option_map Nat.add]. f_equal.
  destruct (forallb is_masked (firstn n (skipn i data))) eqn:M; [|reflexivity].
  symmetry. apply visible_nil in M. apply (nan_mean_spec _ _ M). intros q [].
Qed.
Lemma rolling_spec n data i w : i < length data ->
  (exists pre post, data = pre ++ w ++ post /\ length pre = i /\ length w = Nat.min n (length data - i)) ->
  exists vis, visible w vis /\
    ((forall q, ~ In (Num q) vis) -> nth_error (rolling_mean n data) i = Some None) /\
    (forall q, In (Num q) vis -> exists v, nth_error (rolling_mean n data) i = Some (Some v) /\ mean_of vis v).
Proof.
  intros Hi (pre & post & E & Lp & Lw).
  assert (W : firstn n (skipn i data) = w).
  { subst data. rewrite <- Lp. rewrite skipn_app, skipn_all, Nat.sub_diag. cbn [skipn app].
    rewrite !app_length in *. destruct (Nat.le_gt_cases n (length w)) as [G|G].
    - rewrite firstn_app. replace (n - length w) with 0 by lia. cbn [firstn]. rewrite app_nil_r.
      rewrite firstn_all2; [reflexivity|lia].
    - assert (length post = 0) by lia. destruct post; [|discriminate]. rewrite app_nil_r. apply firstn_all2. lia. }
  destruct (visible_total w) as [vis V]. exists vis. split; [exact V|].
  rewrite (rolling_at n data i Hi), W. destruct (nan_mean_spec w vis V) as [H1 H2]. split.
  - intros N. rewrite (H1 N). reflexivity.
  - intros q I. destruct (H2 q I) as (v & Hv & Hm). exists v. rewrite Hv. split; [reflexivity|exact Hm].
Qed.

(** ** Histograms *)

Lemma last_edge_highest l : highest l (last_edge l).
Proof.
  unfold highest, last_edge. destruct l as [|q r]; [left; split; reflexivity|right].
  destruct (fold_greatest r q) as [G1 G2]. destruct (fold_least r q) as [L1 L2].
  set (g := fold_left (fun a b => if qlt a b then b else a) r q) in *.
  set (l := fold_left (fun a b => if qlt b a then b else a) r q) in *. clearbody g l.
  destruct (Qeq_bool g l) eqn:E.
  - apply Qeq_bool_iff in E. left. exists g. split; [exact G1|]. split; [|reflexivity].
    intros x I. specialize (G2 x I). specialize (L2 x I). lra.
  - apply Qeq_bool_neq in E. right. split; [exact G1|]. split; [exact G2|]. exists l. split; [exact L1|].
    specialize (G2 l L1). apply Qle_lteq in G2. destruct G2 as [G2|G2]; [exact G2|]. symmetry in G2. destruct (E G2).
Qed.
Lemma highest_ge l e : highest l e -> forall x, In x l -> (x <= e)%Q.
Proof.
  intros [[-> _]|[(q & _ & H & E)|(_ & H & _)]] x I; [destruct I| |exact (H x I)].
  specialize (H x I). rewrite E, H. lra.
Qed.

Lemma visible_rounded_visible s l vis : visible l vis ->
  visible_rounded s l = map (fun x => match x with Num q => Num (round_to s q) | NaN => NaN end) vis.
Proof.
  induction 1 as [|x l out V IH|l out V IH]; [reflexivity| |exact IH].
  unfold visible_rounded in *. destruct x as [q|]; cbn; f_equal; exact IH.
Qed.
Lemma obs_histogram s vis :
  exists qs, pick (fun x => x <> NaN) vis (map Num qs) /\
    filter (fun x => match x with NaN => false | Num _ => true end)
      (map (fun x => match x with Num q => Num (round_to s q) | NaN => NaN end) vis) = map Num (map (round_to s) qs).
Proof.
  induction vis as [|[q|] vis (qs & P & E)].
  - exists []. split; [constructor|reflexivity].
  - exists (q :: qs). split; [constructor; [discriminate|exact P]|]. cbn. f_equal. exact E.
  - exists qs. split; [constructor; [intros H; apply H; reflexivity|exact P]|]. exact E.
Qed.
Lemma numbers_of_nums qs : numbers (map Some (map Num qs)) = qs.
Proof. induction qs as [|q qs IH]; [reflexivity|]. cbn. f_equal. exact IH. Qed.

Definition digits (cloud_fraction : bool) : Z := if cloud_fraction then 10%Z else 1000000%Z.

Lemma histogram_spec cf model obs vm vo : visible model vm -> visible obs vo ->
  exists qs rs e, pick (fun x => x <> NaN) vo (map Num qs) /\ Forall2 (rounded (digits cf)) qs rs /\
    snd (histogram cf model obs) = map Num rs /\ highest rs e /\
    Forall2 (fun x y => match x with
                        | NaN => y = NaN
                        | Num q => exists r, rounded (digits cf) q r /\
                            (((r <= e)%Q /\ y = Num r) \/ ((e < r)%Q /\ y = Num e))
                        end) vm (fst (histogram cf model obs)).
Proof.
  intros Vm Vo. unfold histogram. cbv zeta. cbn [fst snd].
  set (s := if cf then 10%positive else 1000000%positive).
  assert (D : digits cf = Zpos s) by (unfold digits, s; destruct cf; reflexivity). rewrite D.
  rewrite (visible_rounded_visible s model vm Vm), (visible_rounded_visible s obs vo Vo).
  destruct (obs_histogram s vo) as (qs & P & E). rewrite E, numbers_of_nums.
  exists qs, (map (round_to s) qs), (last_edge (map (round_to s) qs)). split; [exact P|].
  split; [|split; [reflexivity|split; [apply last_edge_highest|]]].
  - clear. induction qs as [|q qs IH]; constructor; [apply round_to_rounded|exact IH].
  - set (e := last_edge _). clearbody e. clear. rewrite map_map.
    induction vm as [|[q|] vm IH]; cbn [map]; constructor; try exact IH; [|reflexivity].
    exists (round_to s q). split; [apply round_to_rounded|]. destruct (qlt e (round_to s q)) eqn:Q.
    + apply qlt_iff in Q. right. split; [exact Q|reflexivity].
    + apply qlt_false in Q. left. split; [exact Q|reflexivity].
Qed.

(** ** Small values *)

Lemma mask_small_at name data i c : nth_error (mask_small_values name data) i = Some c ->
  exists c0, nth_error data i = Some c0 /\
    (forall q, c0 = Some (Num q) -> (shown_value name q -> c = c0) /\ (~ shown_value name q -> c = None)) /\
    (c0 = None -> c = None) /\ (c0 = Some NaN -> c = Some NaN).
Proof.
  set (f0 := fun c : cell => match c with Some (Num q) => if Qle_bool q 0 then None else c | _ => c end).
  set (f1 := if contains "lwc" name then mask_below (1 # 100000) else fun c : cell => c).
  set (f2 := if contains "iwc" name then mask_below (1 # 10000000) else fun c : cell => c).
  assert (E : mask_small_values name data = map (fun c => f2 (f1 (f0 c))) data).
  { unfold mask_small_values, f1, f2. cbv zeta. destruct (contains "iwc" name); destruct (contains "lwc" name); rewrite ?map_map; reflexivity. }
  rewrite E, nth_error_map. destruct (nth_error data i) as [c0|]; [|discriminate].
  cbn [option_map]. intros H. injection H as <-. exists c0. split; [reflexivity|]. clear E.
  pose proof (contains_iff "lwc" name) as CL. pose proof (contains_iff "iwc" name) as CI.
  assert (G1 : forall q, f1 (Some (Num q)) = Some (Num q) /\ (occurs "lwc" name -> ((1 # 100000) <= q)%Q) \/
                         f1 (Some (Num q)) = None /\ ~ (occurs "lwc" name -> ((1 # 100000) <= q)%Q)).
  { intros q. unfold f1. destruct (contains "lwc" name).
    - cbn [mask_below]. destruct (qlt q (1 # 100000)) eqn:L.
      + apply qlt_iff in L. right. split; [reflexivity|]. intros K. specialize (K (proj1 CL eq_refl)). lra.
      + apply qlt_false in L. left. split; [reflexivity|]. intros _. exact L.
    - left. split; [reflexivity|]. intros O. apply CL in O. discriminate. }
  assert (G2 : forall q, f2 (Some (Num q)) = Some (Num q) /\ (occurs "iwc" name -> ((1 # 10000000) <= q)%Q) \/
                         f2 (Some (Num q)) = None /\ ~ (occurs "iwc" name -> ((1 # 10000000) <= q)%Q)).
  { intros q. unfold f2. destruct (contains "iwc" name).
    - cbn [mask_below]. destruct (qlt q (1 # 10000000)) eqn:L.
      + apply qlt_iff in L. right. split; [reflexivity|]. intros K. specialize (K (proj1 CI eq_refl)). lra.
      + apply qlt_false in L. left. split; [reflexivity|]. intros _. exact L.
    - left. split; [reflexivity|]. intros O. apply CI in O. discriminate. }
  assert (N1 : f1 None = None) by (unfold f1; destruct (contains "lwc" name); reflexivity).
  assert (N2 : f2 None = None) by (unfold f2; destruct (contains "iwc" name); reflexivity).
  split; [|split].
  - intros q ->. unfold shown_value, f0. destruct (Qle_bool q 0) eqn:Z.
    + apply Qle_bool_iff in Z. rewrite N1, N2. split; [intros (P & _); lra|reflexivity].
    + assert (P : (0 < q)%Q).
      { apply Qnot_le_lt. intros K. apply Qle_bool_iff in K. congruence. }
      destruct (G1 q) as [[-> A]|[-> A]].
      * destruct (G2 q) as [[-> B]|[-> B]].
        -- split; [reflexivity|]. intros N. destruct N. auto.
        -- split; [intros (_ & _ & K); destruct (B K)|reflexivity].
      * rewrite N2. split; [intros (_ & K & _); destruct (A K)|reflexivity].
  - intros ->. unfold f0. rewrite N1, N2. reflexivity.
  - intros ->. unfold f0, f1, f2. destruct (contains "lwc" name); destruct (contains "iwc" name); reflexivity.
Qed.

(** ** Names *)

Lemma pick_filter {A} (P : A -> Prop) (f : A -> bool) l : (forall x, f x = true <-> P x) -> pick P l (filter f l).
Proof.
  intros H. induction l as [|x l IH]; cbn; [constructor|]. destruct (f x) eqn:E.
  - constructor; [apply H; exact E|exact IH].
  - constructor; [|exact IH]. intros K. apply H in K. congruence.
Qed.

Lemma prefix_starts p : forall s, prefix p s = true <-> starts_with p s.
Proof.
  induction p as [|c p IH]; intros s; unfold starts_with.
  - split; [intros _; exists s; reflexivity|intros _; destruct s; reflexivity].
  - destruct s as [|d s]; cbn [prefix].
    + split; [discriminate|]. intros (r & H). discriminate.
    + destruct (Ascii.ascii_dec c d) as [->|N].
      * rewrite IH. unfold starts_with. split; intros (r & H); exists r; [rewrite H; reflexivity|].
        cbn in H. congruence.
      * split; [discriminate|]. intros (r & H). cbn in H. congruence.
Qed.
Lemma is_model_iff n : is_model n = true <-> starts_with "model_" n.
Proof. apply prefix_starts. Qed.

Lemma remove_first_skip x l1 l2 : ~ In x l1 -> remove_first x (l1 ++ x :: l2) = l1 ++ l2.
Proof.
  induction l1 as [|y l1 IH]; intros N; cbn.
  - rewrite String.eqb_refl. reflexivity.
  - destruct (String.eqb_spec x y) as [->|Ne]; [destruct N; left; reflexivity|]. rewrite IH; [reflexivity|].
    intros I. apply N. right. exact I.
Qed.
Lemma filter_cons_split {A} (f : A -> bool) l m ms : filter f l = m :: ms ->
  exists l1 l2, l = l1 ++ m :: l2 /\ filter f l1 = [] /\ filter f l2 = ms.
Proof.
  revert m ms. induction l as [|x l IH]; intros m ms H; [discriminate|]. cbn in H. destruct (f x) eqn:E.
  - injection H as -> <-. exists [], l. repeat split.
  - destruct (IH m ms H) as (l1 & l2 & -> & H1 & H2). exists (x :: l1), l2. repeat split; [|exact H2].
    cbn. rewrite E. exact H1.
Qed.
Lemma filter_app' {A} (f : A -> bool) l1 l2 : filter f (l1 ++ l2) = filter f l1 ++ filter f l2.
Proof. induction l1 as [|x l1 IH]; cbn; [reflexivity|]. destruct (f x); cbn; rewrite IH; reflexivity. Qed.

Lemma sort_loop ms : forall done rest,
  NoDup (done ++ rest) -> filter is_model rest = ms ->
  fold_left (fun a im => insert (fst im) (snd im) (remove_first (snd im) a))
            (combine (seq (length done) (length ms)) ms) (done ++ rest) =
  done ++ ms ++ filter (fun n => negb (is_model n)) rest.
Proof.
  induction ms as [|m ms IH]; intros done rest D F.
  - cbn. f_equal. assert (H : forall n, In n rest -> is_model n = false).
    { intros n I. destruct (is_model n) eqn:E; [|reflexivity].
      assert (K : In n (filter is_model rest)) by (apply filter_In; split; assumption). rewrite F in K. destruct K. }
    clear - H. induction rest as [|x r IH]; [reflexivity|]. cbn. rewrite (H x (or_introl eq_refl)). cbn.
    f_equal. apply IH. intros n I. apply H. right. exact I.
  - destruct (filter_cons_split _ _ _ _ F) as (l1 & l2 & -> & F1 & F2).
    cbn [List.length seq combine fold_left fst snd].
    rewrite app_assoc in D |- *. assert (Nm : ~ In m (done ++ l1)).
    { intros I. apply NoDup_remove_2 in D. apply D. apply in_or_app. left. exact I. }
    rewrite (remove_first_skip m (done ++ l1) l2 Nm). unfold insert at 2.
    rewrite <- app_assoc, firstn_app, Nat.sub_diag, firstn_all, skipn_app, skipn_all, Nat.sub_diag.
    cbn [firstn skipn app]. rewrite app_nil_r.
    replace (done ++ m :: l1 ++ l2) with ((done ++ [m]) ++ l1 ++ l2) by (rewrite <- app_assoc; reflexivity).
    replace (S (length done)) with (length (done ++ [m])) by (rewrite app_length; cbn; lia).
    rewrite (IH (done ++ [m]) (l1 ++ l2)).
    + rewrite <- !app_assoc. cbn [app]. do 2 f_equal. f_equal. rewrite !filter_app'. f_equal.
      cbn [filter]. assert (M : is_model m = true).
      { assert (K : In m (filter is_model (l1 ++ m :: l2))) by (rewrite F; left; reflexivity).
        apply filter_In in K. apply K. }
      rewrite M. reflexivity.
    + rewrite <- app_assoc. cbn [app]. assert (D' := D). rewrite <- app_assoc in D'.
      apply (Permutation.Permutation_NoDup (l := done ++ l1 ++ m :: l2)); [|exact D'].
      apply Permutation.Permutation_app_head. apply Permutation.Permutation_sym, Permutation.Permutation_middle.
    + rewrite filter_app', F1. exact F2.
Qed.
Lemma sort_eq a : NoDup a ->
  sort_model2first_element a = filter is_model a ++ filter (fun n => negb (is_model n)) a.
Proof. intros D. apply (sort_loop (filter is_model a) [] a D eq_refl). Qed.

Lemma insert_loop ms : forall done rest,
  fold_left (fun a im => insert (fst im) (snd im) a) (combine (seq (length done) (length ms)) ms) (done ++ rest) =
  done ++ ms ++ rest.
Proof.
  induction ms as [|m ms IH]; intros done rest; [reflexivity|].
  cbn [List.length seq combine fold_left fst snd]. unfold insert at 2.
  rewrite firstn_app, Nat.sub_diag, firstn_all, skipn_app, skipn_all, Nat.sub_diag. cbn [firstn skipn app].
  rewrite app_nil_r. replace (done ++ m :: rest) with ((done ++ [m]) ++ rest) by (rewrite <- app_assoc; reflexivity).
  replace (S (length done)) with (length (done ++ [m])) by (rewrite app_length; cbn; lia).
  rewrite IH. rewrite <- app_assoc. reflexivity.
Qed.

Lemma NoDup_filter' {A} (f : A -> bool) l : NoDup l -> NoDup (filter f l).
Proof. apply NoDup_filter. Qed.

Lemma wanted_spec variables product advance : NoDup variables ->
  exists names models others moving allm,
    pick (fun n => occurs product n /\ (advance = true \/ ~ occurs "cirrus" n /\ ~ occurs "snow" n)) variables names /\
    pick (fun n => ~ occurs "adv" n /\ starts_with "model_" n) names models /\
    pick (fun n => ~ occurs "adv" n /\ ~ starts_with "model_" n) names others /\
    pick (fun n => occurs "adv" n) names moving /\
    pick (fun n => starts_with "model_" n) names allm /\
    let standard := models ++ others in
    let advection := allm ++ moving in
    (length advection < length standard -> parse_wanted_names variables product advance = (standard, [])) /\
    (length standard < length advection -> parse_wanted_names variables product advance = (advection, [])) /\
    (length standard = length advection -> parse_wanted_names variables product advance = (standard, advection)).
Proof.
  intros D. set (names := parse_dataset_keys variables product advance).
  assert (Pn : pick (fun n => occurs product n /\ (advance = true \/ ~ occurs "cirrus" n /\ ~ occurs "snow" n)) variables names).
  { unfold names, parse_dataset_keys. destruct advance.
    - apply pick_filter. intros n. rewrite contains_iff. split; [intros H; split; [exact H|left; reflexivity]|intros [H _]; exact H].
    - assert (E : forall l, filter (fun n => negb (contains "cirrus" n) && negb (contains "snow" n)) (filter (contains product) l)
        = filter (fun n => contains product n && (negb (contains "cirrus" n) && negb (contains "snow" n))) l).
      { induction l as [|x l IH]; [reflexivity|]. cbn [filter]. destruct (contains product x); cbn [andb filter]; rewrite IH; reflexivity. }
      cbv zeta. rewrite E. apply pick_filter. intros n.
      rewrite !andb_true_iff, !negb_true_iff, !contains_false, contains_iff. split.
      + intros (H1 & H2 & H3). split; [exact H1|right; split; assumption].
      + intros (H1 & [H|[H2 H3]]); [discriminate|]. repeat split; assumption. }
  assert (Dn : NoDup names).
  { unfold names, parse_dataset_keys. destruct advance; repeat apply NoDup_filter; exact D. }
  assert (Hp : forall n, In n names -> contains product n = true).
  { intros n I. apply (pick_in _ _ _ Pn) in I. apply contains_iff. apply I. }
  set (std0 := filter (fun n => contains product n && negb (contains "adv" n)) names).
  assert (Es : std0 = filter (fun n => negb (contains "adv" n)) names).
  { unfold std0. apply filter_ext_in. intros n I. rewrite (Hp n I). reflexivity. }
  assert (Ea : filter (fun n => contains product n && contains "adv" n) names = filter (fun n => contains "adv" n) names).
  { apply filter_ext_in. intros n I. rewrite (Hp n I). reflexivity. }
  assert (FF : forall (f g : string -> bool) l, filter g (filter f l) = filter (fun n => f n && g n) l).
  { intros f g. induction l as [|x l IH]; [reflexivity|]. cbn [filter]. destruct (f x); cbn [andb filter]; rewrite IH; reflexivity. }
  exists names, (filter (fun n => negb (contains "adv" n) && is_model n) names),
    (filter (fun n => negb (contains "adv" n) && negb (is_model n)) names),
    (filter (fun n => contains "adv" n) names), (filter is_model names).
  split; [exact Pn|]. split; [|split; [|split; [|split]]].
  - apply pick_filter. intros n. rewrite andb_true_iff, negb_true_iff, contains_false, is_model_iff. reflexivity.
  - apply pick_filter. intros n. rewrite andb_true_iff, !negb_true_iff, contains_false.
    rewrite <- is_model_iff. destruct (is_model n); split; intros [H1 H2]; (split; [exact H1|]); congruence.
  - apply pick_filter. intros n. apply contains_iff.
  - apply pick_filter. intros n. apply is_model_iff.
  - unfold parse_wanted_names. fold names. fold std0. cbv zeta.
    assert (Ds : NoDup std0) by (rewrite Es; apply NoDup_filter; exact Dn).
    rewrite (sort_eq std0 Ds), Es, !FF, Ea.
    pose proof (insert_loop (filter is_model names) [] (filter (fun n => contains "adv" n) names)) as I.
    cbn [List.length app] in I. rewrite I.
    set (s := filter (fun n => negb (contains "adv" n) && is_model n) names ++ _).
    set (a := filter is_model names ++ _). clearbody s a.
    split; [|split]; intros L.
    + assert (T : (length a <? length s) = true) by (apply Nat.ltb_lt; exact L). rewrite T. reflexivity.
    + assert (T : (length a <? length s) = false) by (apply Nat.ltb_ge; lia).
      assert (U : (length s <? length a) = true) by (apply Nat.ltb_lt; exact L). rewrite T, U. reflexivity.
    + rewrite L, Nat.ltb_irrefl. reflexivity.
Qed.

(** ** Panels *)

Lemma firstn_S {A} (l : list A) : forall k x, nth_error l k = Some x -> firstn (S k) l = firstn k l ++ [x].
Proof.
  induction l as [|y l IH]; intros [|k] x H; cbn in H; try discriminate.
  - injection H as ->. reflexivity.
  - change (firstn (S (S k)) (y :: l)) with (y :: firstn (S k) l). rewrite (IH k x H). reflexivity.
Qed.

Lemma comparable_after model obss k o i m x :
  Forall (fun obs : list cell => length obs = length model) obss -> nth_error obss k = Some o ->
  comparable (after model (firstn k obss)) o i m x <->
  comparable_all model (firstn (S k) obss) i m /\ number_at o i x.
Proof.
  intros F Ho. unfold comparable, comparable_all. rewrite (firstn_S obss k o Ho).
  rewrite (after_number (firstn k obss) model i m (Forall_firstn' _ k obss F)). rewrite Forall_app. split.
  - intros ((H1 & H2) & H3 & H4). split; [|exact H3]. split; [exact H1|]. split; [exact H2|].
    constructor; [|constructor]. split; [exists x; exact H3|exact H4].
  - intros ((H1 & H2 & H3) & H4). inversion H3 as [|? ? [_ H5] _]; subst. split; [split; assumption|]. split; assumption.
Qed.

Lemma after_len model obss k o :
  Forall (fun obs : list cell => length obs = length model) obss -> nth_error obss k = Some o ->
  length (after model (firstn k obss)) = length o.
Proof.
  intros F Ho. rewrite after_length by (apply Forall_firstn'; exact F).
  symmetry. exact (proj1 (Forall_forall _ _) F o (nth_error_In _ _ Ho)).
Qed.

Lemma panels_loop product model obss k p :
  nth_error (error_panels product model obss) k = Some p -> nth_error (error_loop product model obss) k = Some p.
Proof. unfold error_panels. destruct (forallb is_masked model); [destruct k; discriminate|exact (fun H => H)]. Qed.

Lemma relative_statistic product : product <> "cf" -> error_statistic product = relative_error.
Proof. intros N. unfold error_statistic. destruct (String.eqb_spec product "cf"); [contradiction|reflexivity]. Qed.

Lemma relative_length model obs : length model = length obs -> length (fst (relative_error model obs)) = length model.
Proof. intros L. rewrite (proj1 (relative_eq model obs L)). apply map2_len. exact L. Qed.
Lemma absolute_length model obs : length model = length obs -> length (fst (absolute_error model obs)) = length model.
Proof. intros L. rewrite (proj1 (absolute_eq model obs L)). apply map2_len. exact L. Qed.

Lemma panels_missing product model obss k :
  product <> "cf" -> Forall (fun obs : list cell => length obs = length model) obss ->
  nth_error (error_panels product model obss) k = None -> k < length obss ->
  exists j o, j <= k /\ nth_error obss j = Some o /\
    forall i m x, comparable_all model (firstn (S j) obss) i m -> number_at o i x -> (x == 0)%Q.
Proof.
  intros N F Hp Hk. unfold error_panels in Hp. destruct (forallb is_masked model) eqn:M.
  - destruct obss as [|o obss]; [cbn in Hk; lia|]. exists 0, o. split; [lia|]. split; [reflexivity|].
    intros i m x [H _] _. exfalso. rewrite forallb_forall in M. specialize (M _ (nth_error_In _ _ H)). discriminate.
  - destruct (loop_missing product obss model k F Hp Hk) as (j & o & Hj & Ho & HM).
    exists j, o. split; [exact Hj|]. split; [exact Ho|]. intros i m x C X.
    destruct (Qeq_dec x 0) as [Z|Z]; [exact Z|exfalso].
    rewrite (relative_statistic product N) in HM. pose proof (after_len model obss j o F Ho) as L.
    assert (K := proj2 (comparable_after model obss j o i m x F Ho) (conj C X)).
    assert (B : i < length (fst (relative_error (after model (firstn j obss)) o))).
    { rewrite (relative_length _ _ L), L. apply nth_error_Some. unfold number_at in X. rewrite X. discriminate. }
    destruct (nth_error (fst (relative_error (after model (firstn j obss)) o)) i) as [c|] eqn:E;
      [|apply nth_error_None in E; lia].
    destruct (proj1 (relative_pixel _ _ _ _ L E) m x K Z) as (v & -> & _).
    rewrite forallb_forall in HM. specialize (HM _ (nth_error_In _ _ E)). discriminate.
Qed.
