(** Lemmas about the averages on the model grid and the bundling of files. *)
From Verif Require Import Base ArrayModel ArrayProofs OutputModel GridModel GridSpec GridProofs TimeModel TimeSpec TimeProofs
  SiteModel ConcatModel MpProofs CliSpec OutputProofs DownModel DownSpec.
From Coq Require Import Lqa.
Open Scope string_scope.
Open Scope nat_scope.
Open Scope list_scope.
Local Notation length := List.length (only parsing).

(** ** Windows *)

Lemma adv_window : forall res wind mt ot k, (0 < res)%Q ->
  (nth_error (get_adv_indices mt (advection_time res wind 1) ot) k = Some true <-> carried res wind mt ot k).
Proof.
  intros res wind mt ot k R. unfold get_adv_indices, carried. rewrite nth_error_map'.
  destruct (nth_error ot k) as [t|]; cbn [option_map]; [|split; [discriminate|intros (w & t & _ & _ & E & _); discriminate]].
  unfold advection_time. change (1 / 1)%Q with 1%Q.
  set (a := if qlt 1 _ then _ else _).
  assert (L : Some (Qle_bool (mt - a / 2) t && qlt t (mt + a / 2)) = Some true <-> (mt - a / 2 <= t /\ t < mt + a / 2)%Q).
  { split; [intros H; assert (Hb : Qle_bool (mt - a / 2) t && qlt t (mt + a / 2) = true) by congruence; apply andb_prop in Hb as [A B]
           |intros [A B]; apply f_equal, andb_true_intro].
    - split; [apply qle_iff; exact A|apply qlt_iff; exact B].
    - split; [apply qle_iff; exact A|apply qlt_iff; exact B]. }
  rewrite L. clear L. destruct wind as [w|].
  - assert (A : (a <= 0 /\ w <= 0)%Q \/ (0 < w)%Q /\ ((a == 1 /\ w * (36 # 10) <= res)%Q \/ (a * (w * (36 # 10)) == res /\ res <= w * (36 # 10))%Q)).
    { subst a. destruct (Qeq_bool w 0) eqn:E0.
      - left. apply Qeq_bool_iff in E0. cbn. lra.
      - apply Qeq_bool_neq in E0. set (h := (res * 1000 / w / 3600)%Q).
        assert (Hh : (h * (w * (36 # 10)) == res)%Q) by (unfold h; field; exact E0). clearbody h.
        destruct (qlt 1 h) eqn:C; [apply qlt_iff in C|apply qlt_false in C].
        + assert (0 < w)%Q by nra. right. split; [assumption|]. left. split; [reflexivity|nra].
        + destruct (Qlt_le_dec 0 w) as [W|W]; [|left; split; nra].
          right. split; [exact W|]. right. split; [exact Hh|nra]. }
    clearbody a. split.
    + intros [B C]. destruct A as [A|(W & A)]; [exfalso; destruct A; assert (E : (a / 2 == a * (1 # 2))%Q) by field; rewrite E in *; lra|].
      exists w, t. split; [reflexivity|]. split; [exact W|]. split; [reflexivity|].
      assert (E : (a / 2 == a * (1 # 2))%Q) by field. rewrite E in *. assert (E' : (res / 2 == res * (1 # 2))%Q) by field. rewrite E'.
      set (d := (t - mt)%Q). assert (D1 : (- (a * (1 # 2)) <= d)%Q) by (unfold d; lra). assert (D2 : (d < a * (1 # 2))%Q) by (unfold d; lra). clearbody d.
      set (v := (w * (36 # 10))%Q) in *. assert (V : (0 < v)%Q) by (unfold v; lra). clearbody v.
      destruct A as [[A1 A2]|[A1 A2]].
      * split; [split; lra|]. split; [assert (0 <= v * (d + (1 # 2)))%Q by (apply Qmult_le_0_compat; lra); lra|].
        assert (0 < v * ((1 # 2) - d))%Q by (apply Qmult_lt_0_compat; lra). lra.
      * assert (A3 : (a <= 1)%Q) by (apply Qnot_lt_le; intros X; assert (0 < v * (a - 1))%Q by (apply Qmult_lt_0_compat; lra); lra).
        split; [split; lra|]. split; [assert (0 <= v * (d + a * (1 # 2)))%Q by (apply Qmult_le_0_compat; lra); lra|].
        assert (0 < v * (a * (1 # 2) - d))%Q by (apply Qmult_lt_0_compat; lra). lra.
    + intros (w' & t' & Ew & W & Et & (D1 & D2) & D3 & D4). assert (w' = w) by congruence. assert (t' = t) by congruence. subst w' t'.
      destruct A as [A|(_ & A)]; [exfalso; lra|].
      assert (E : (a / 2 == a * (1 # 2))%Q) by field. rewrite E in *. assert (E' : (res / 2 == res * (1 # 2))%Q) by field. rewrite E' in *.
      set (d := (t - mt)%Q) in *. set (v := (w * (36 # 10))%Q) in *. assert (V : (0 < v)%Q) by (unfold v; lra). clearbody v.
      assert (D : (- (a * (1 # 2)) <= d /\ d < a * (1 # 2))%Q); [|unfold d in D; lra]. clearbody d.
      destruct A as [[A1 A2]|[A1 A2]]; [lra|]. split.
      * apply Qnot_lt_le. intros X. assert (0 < v * (- (a * (1 # 2)) - d))%Q by (apply Qmult_lt_0_compat; lra). lra.
      * apply Qnot_le_lt. intros X. assert (0 <= v * (d - a * (1 # 2)))%Q by (apply Qmult_le_0_compat; lra). lra.
  - assert (A : (a / 2 == 0)%Q) by reflexivity. rewrite A. split; [intros [B C]; exfalso; lra|]. intros (w & t' & E & _). discriminate.
Qed.

Lemma time_window : forall mt edges ot i k, binvec mt = Ok edges -> i < length mt ->
  (nth_error (window edges ot i) k = Some true <-> in_time ot mt i k).
Proof.
  intros mt edges ot i k B I. assert (H2 : 2 <= length mt).
  { destruct (Nat.le_gt_cases 2 (length mt)) as [H|H]; [exact H|]. rewrite binvec_short in B by exact H. discriminate. }
  destruct (binvec_ok mt H2) as (lo & hi & O & B'). assert (edges = linspace lo hi (length mt)) by congruence. subst edges. clear B B'.
  destruct (nth_error ot k) as [t|] eqn:Et.
  - rewrite (window_spec _ _ i k t Et). rewrite !linspace_nth by lia. unfold in_time. split.
    + intros (a & b & Ea & Eb & A & C). exists lo, hi, t. split; [exact O|]. split; [exact Et|]. unfold in_bin.
      replace a with (lo + nat_q i * ((hi - lo) / nat_q (length mt)))%Q in * by congruence.
      replace b with (lo + nat_q (S i) * ((hi - lo) / nat_q (length mt)))%Q in * by congruence.
      split; [exact A|]. assert (E : (nat_q (S i) == nat_q i + 1)%Q); [|rewrite <- E; exact C].
      unfold nat_q. rewrite Nat2Z.inj_succ, <- Z.add_1_r, inject_Z_plus. reflexivity.
    + intros (lo' & hi' & t' & O' & Et' & A). assert (t' = t) by congruence. subst t'. destruct O as (x0 & x1 & xp & xl & E0 & E1 & Ep & El & Hl & Hh).
      destruct O' as (y0 & y1 & yp & yl & F0 & F1 & Fp & Fl & Gl & Gh). rewrite E0 in F0. rewrite E1 in F1. rewrite Ep in Fp. rewrite El in Fl.
      assert (x0 = y0) by congruence. assert (x1 = y1) by congruence. assert (xp = yp) by congruence. assert (xl = yl) by congruence. subst.
      apply (in_bin_compat lo' hi' lo hi) in A; [|rewrite Hl, Gl; reflexivity|rewrite Hh, Gh; reflexivity].
      destruct A as [A C]. eexists. eexists. split; [reflexivity|]. split; [reflexivity|]. split; [exact A|].
      assert (E : (nat_q (S i) == nat_q i + 1)%Q); [|rewrite E; exact C].
      unfold nat_q. rewrite Nat2Z.inj_succ, <- Z.add_1_r, inject_Z_plus. reflexivity.
  - split.
    + intros H. exfalso. apply nth_error_None in Et. assert (nth_error (window (linspace lo hi (length mt)) ot i) k = None); [|congruence].
      apply nth_error_None. unfold window. destruct (nth_error _ i); [|cbn; lia]. destruct (nth_error _ (S i)); [|cbn; lia]. unfold get_1d_indices. rewrite map_length. lia.
    + intros (lo' & hi' & t & _ & E & _). congruence.
Qed.

Lemma half_eq : forall a b : Q, ((a + b) / 2 * 2 == a + b)%Q.
Proof. intros. field. Qed.
Lemma level_window : forall levels edges oh j l, rebin_edges levels = Ok edges -> j < length levels ->
  (nth_error (window edges oh j) l = Some true <-> in_level oh levels j l).
Proof.
  intros levels edges oh j l B J. destruct (rebin_edges_nth levels edges B) as (H2 & Le & N).
  assert (X : forall k, k < length levels -> exists lo, nth_error edges k = Some lo /\ bottom levels k lo).
  { intros k K. destruct (nth_error edges k) as [e|] eqn:E; [|apply nth_error_None in E; lia]. exists e. split; [reflexivity|].
    destruct (N k e E) as [(-> & a & b & A1 & A2 & ->)|[(Hk & a & b & A1 & A2 & ->)|(Hk & _)]]; [| |lia].
    - exists a, b. left. repeat split; auto. ring.
    - exists a, b. right. split; [lia|]. repeat split; auto. field. }
  assert (Y : exists hi, nth_error edges (S j) = Some hi /\ top levels j hi).
  { destruct (nth_error edges (S j)) as [e|] eqn:E; [|apply nth_error_None in E; lia]. exists e. split; [reflexivity|].
    destruct (N (S j) e E) as [(Hk & _)|[(Hk & a & b & A1 & A2 & ->)|(Hk & a & b & A1 & A2 & ->)]]; [lia| |].
    - replace (S j - 1) with j in A1 by lia. exists a, b. right. split; [lia|]. repeat split; auto. field.
    - replace (S j - 1) with j in A2 by lia. replace (S j - 2) with (j - 1) in A1 by lia. exists a, b. left. split; [lia|]. repeat split; auto. ring. }
  destruct (X j J) as (lo & El & Bo). destruct Y as (hi & Eh & To). clear X N.
  destruct (nth_error oh l) as [z|] eqn:Ez.
  - rewrite (window_spec _ _ j l z Ez). split.
    + intros (lo' & hi' & El' & Eh' & A & C). assert (lo' = lo) by congruence. assert (hi' = hi) by congruence. subst. exists lo, hi, z. auto.
    + intros (lo' & hi' & z' & Bo' & To' & Ez' & A & C). assert (z' = z) by congruence. subst z'. exists lo, hi. split; [exact El|]. split; [exact Eh|].
      assert (Hlo : (lo == lo')%Q).
      { destruct Bo as (a & b & [(K & F1 & F2 & F3)|(K & F1 & F2 & F3)]), Bo' as (a' & b' & [(K' & G1 & G2 & G3)|(K' & G1 & G2 & G3)]); try lia;
          assert (a = a') by congruence; assert (b = b') by congruence; subst; lra. }
      assert (Hhi : (hi == hi')%Q).
      { destruct To as (a & b & [(K & F1 & F2 & F3)|(K & F1 & F2 & F3)]), To' as (a' & b' & [(K' & G1 & G2 & G3)|(K' & G1 & G2 & G3)]); try lia;
          assert (a = a') by congruence; assert (b = b') by congruence; subst; lra. }
      lra.
  - split.
    + intros H. exfalso. apply nth_error_None in Ez. assert (nth_error (window edges oh j) l = None); [|congruence].
      apply nth_error_None. unfold window. rewrite El, Eh. unfold get_1d_indices. rewrite map_length. lia.
    + intros (lo' & hi' & z & _ & _ & E & _). congruence.
Qed.

(** ** The grid *)

Lemma seq_forall2 : forall A (P : nat -> A -> Prop) n s l, Forall2 P (seq s n) l ->
  length l = n /\ forall i x, nth_error l i = Some x -> P (s + i) x.
Proof.
  intros A P n. induction n as [|n IH]; intros s l H; cbn [seq] in H; inversion H; subst.
  - split; [reflexivity|]. intros [|i] x; discriminate.
  - destruct (IH _ _ H4) as [L N]. split; [cbn; lia|]. intros [|i] x E; cbn in E.
    + assert (x = y) by congruence. subst. rewrite Nat.add_0_r. assumption.
    + replace (s + S i) with (S s + i) by lia. apply N. exact E.
Qed.
Lemma bind_ok : forall A B (r : result A) (f : A -> result B) y, bind r f = Ok y -> exists x, r = Ok x /\ f x = Ok y.
Proof. intros A B [x|e] f y H; [exists x; auto|discriminate]. Qed.
Lemma ok_eq : forall A (x y : A), Ok x = Ok y -> x = y.
Proof. congruence. Qed.

(** What is known about a cell that was computed. *)
Lemma downsample_pixel : forall C init fields g (out : image C), downsample init fields g = Ok out ->
  length (gr_model_time g) <= length (gr_model_height g) /\ 2 <= length (gr_model_time g) /\
  length out = length (gr_model_height g) /\
  (forall i levels, nth_error (gr_model_height g) i = Some levels -> exists row, nth_error out i = Some row /\ length row = length levels) /\
  (forall i j c, length (gr_model_time g) <= i -> pixel out i j = Some c -> c = init) /\
  forall i j c, i < length (gr_model_time g) -> pixel out i j = Some c ->
    exists t levels w x_ind x_adv y_ind,
      nth_error (gr_model_time g) i = Some t /\ nth_error (gr_model_height g) i = Some levels /\ j < length levels /\
      pixel (gr_wind g) i j = Some w /\ fields x_ind x_adv y_ind = Ok c /\
      length x_ind = length (gr_obs_time g) /\ length x_adv = length (gr_obs_time g) /\ length y_ind = length (gr_obs_height g) /\
      (forall k, nth_error x_ind k = Some true <-> in_time (gr_obs_time g) (gr_model_time g) i k) /\
      ((0 < gr_resolution g)%Q -> forall k, nth_error x_adv k = Some true <-> carried (gr_resolution g) w t (gr_obs_time g) k) /\
      (forall l, nth_error y_ind l = Some true <-> in_level (gr_obs_height g) levels j l).
Proof.
  intros C init fields g out H. unfold downsample in H.
  apply bind_ok in H as (te & Eb & H). apply bind_ok in H as (rows & Er & H). apply ok_eq in H. subst out.
  apply sequence_iff in Er.
  assert (H2 : 2 <= length (gr_model_time g)).
  { destruct (Nat.le_gt_cases 2 (length (gr_model_time g))) as [Hx|Hx]; [exact Hx|]. rewrite binvec_short in Eb by exact Hx. discriminate. }
  assert (Lt : length te = S (length (gr_model_time g))).
  { destruct (binvec_ok _ H2) as (lo & hi & _ & E). assert (te = linspace lo hi (length (gr_model_time g))) by congruence. subst te. apply linspace_length. }
  replace (length te - 1) with (length (gr_model_time g)) in Er by lia.
  apply seq_forall2 in Er as [Lr Nr].
  assert (Row : forall i row, nth_error rows i = Some row -> exists levels ye, nth_error (gr_model_height g) i = Some levels /\
     rebin_edges levels = Ok ye /\ length row = length levels /\
     forall j c, nth_error row j = Some c -> grid_cell fields g te ye i j = Ok c).
  { intros i row E. specialize (Nr i row E). cbn in Nr. unfold grid_row in Nr.
    destruct (nth_error (gr_model_height g) i) as [levels|]; [|discriminate]. exists levels.
    apply bind_ok in Nr as (ye & Ey & S). exists ye. split; [reflexivity|]. split; [exact Ey|].
    apply sequence_iff, seq_forall2 in S as [L N]. destruct (rebin_edges_nth _ _ Ey) as (_ & Le & _). split; [lia|]. exact N. }
  assert (LH : length rows <= length (gr_model_height g)).
  { destruct rows as [|r0 rs] eqn:Q; [cbn; lia|]. rewrite <- Q in *. 
    destruct (nth_error rows (length rows - 1)) as [row|] eqn:E; [|apply nth_error_None in E; rewrite Q in E; cbn in E; lia].
    destruct (Row _ _ E) as (levels & _ & Eh & _). apply nth_error_Some_lt in Eh. rewrite Q in *. cbn in *. lia. }
  split; [lia|]. split; [exact H2|]. split; [rewrite app_length, map_length, skipn_length; lia|].
  assert (Rest : forall i, length rows <= i -> nth_error (rows ++ map (map (fun _ => init)) (skipn (length rows) (gr_model_height g))) i
     = option_map (map (fun _ => init)) (nth_error (gr_model_height g) i)).
  { intros i I. rewrite nth_error_app2 by exact I. rewrite nth_error_map'. f_equal.
    rewrite <- (firstn_skipn (length rows) (gr_model_height g)) at 2. rewrite nth_error_app2 by (rewrite firstn_length; lia). f_equal. rewrite firstn_length. lia. }
  split; [|split].
  - intros i levels E. destruct (Nat.lt_ge_cases i (length rows)) as [I|I].
    + rewrite nth_error_app1 by exact I. destruct (nth_error rows i) as [row|] eqn:Ei; [|apply nth_error_None in Ei; lia].
      destruct (Row _ _ Ei) as (levels' & _ & E' & _ & L & _). assert (levels' = levels) by congruence. subst. eauto.
    + rewrite Rest by exact I. rewrite E. cbn. eexists. split; [reflexivity|]. apply map_length.
  - intros i j c I P. unfold pixel in P. rewrite Rest in P by lia. destruct (nth_error (gr_model_height g) i) as [levels|]; [|discriminate].
    cbn in P. rewrite nth_error_map' in P. destruct (nth_error levels j); [|discriminate]. cbn in P. congruence.
  - intros i j c I P. unfold pixel in P. rewrite nth_error_app1 in P by lia. destruct (nth_error rows i) as [row|] eqn:Ei; [|discriminate].
    destruct (Row _ _ Ei) as (levels & ye & Eh & Ey & L & N). pose proof (nth_error_Some_lt _ _ _ P) as J. specialize (N j c P). unfold grid_cell in N.
    destruct (nth_error (gr_model_time g) i) as [t|] eqn:Et; [|discriminate]. destruct (nth_error (gr_wind g) i) as [winds|] eqn:Ew; [|discriminate].
    destruct (nth_error winds j) as [w|] eqn:Ej; [|discriminate].
    exists t, levels, w. do 3 eexists. split; [reflexivity|]. split; [exact Eh|]. split; [lia|]. split; [unfold pixel; rewrite Ew; exact Ej|]. split; [exact N|].
    assert (WL : forall e d k, S k < length e -> length (window e d k) = length d).
    { intros e d k K. unfold window. destruct (nth_error e k) eqn:F1; [|apply nth_error_None in F1; lia]. destruct (nth_error e (S k)) eqn:F2; [|apply nth_error_None in F2; lia].
      apply map_length. }
    destruct (rebin_edges_nth _ _ Ey) as (_ & Le & _).
    split; [apply WL; lia|]. split; [apply map_length|]. split; [apply WL; lia|].
    split; [intros k; apply time_window; assumption|]. split; [intros R k; apply adv_window; exact R|]. intros l. apply level_window; [exact Ey|lia].
Qed.

Lemma observations_ext : forall (x x' y y' : nat -> Prop) obs l, (forall k, x k <-> x' k) -> (forall k, y k <-> y' k) ->
  window_observations x y obs l -> window_observations x' y' obs l.
Proof. intros x x' y y' obs l X Y [N I]. split; [exact N|]. intros i j v. rewrite I, X, Y. reflexivity. Qed.
Lemma regrid_mean : forall x_ind y_ind obs (x y : nat -> Prop),
  (forall k, nth_error x_ind k = Some true <-> x k) -> (forall k, nth_error y_ind k = Some true <-> y k) ->
  mean_of x y obs (regrid_product x_ind y_ind obs).
Proof.
  intros x_ind y_ind obs x y X Y. destruct (regrid_product_ok x_ind y_ind obs) as (l & W & A & B).
  exists l. split; [exact (observations_ext _ _ _ _ _ _ X Y W)|]. split; assumption.
Qed.

Lemma product_values : forall obs g out i j std adv t levels w, downsample_product obs g = Ok out ->
  i < length (gr_model_time g) -> pixel out i j = Some (std, adv) -> (0 < gr_resolution g)%Q ->
  nth_error (gr_model_time g) i = Some t -> nth_error (gr_model_height g) i = Some levels -> pixel (gr_wind g) i j = Some w ->
  mean_of (in_time (gr_obs_time g) (gr_model_time g) i) (in_level (gr_obs_height g) levels j) obs std /\
  mean_of (carried (gr_resolution g) w t (gr_obs_time g)) (in_level (gr_obs_height g) levels j) obs adv.
Proof.
  intros obs g out i j std adv t levels w H I P R Et Eh Ew. destruct (downsample_pixel _ _ _ _ _ H) as (_ & _ & _ & _ & _ & X).
  destruct (X i j _ I P) as (t' & levels' & w' & xi & xa & yi & Et' & Eh' & J & Ew' & F & _ & _ & _ & Ti & Ad & Lv).
  assert (t' = t) by congruence. assert (levels' = levels) by congruence. assert (w' = w) by congruence. subst.
  unfold product_fields in F. assert (std = regrid_product xi yi obs) by congruence. assert (adv = regrid_product xa yi obs) by congruence. subst.
  split; apply regrid_mean; auto.
Qed.

(** ** Success *)

Lemma sequence_raise : forall A B (f : A -> result B) l e, sequence (map f l) = Raise e -> exists x, In x l /\ f x = Raise e.
Proof.
  intros A B f. induction l as [|x l IH]; intros e H; cbn [map sequence] in H; [discriminate|].
  destruct (f x) as [y|e'] eqn:E; [|exists x; split; [left; reflexivity|congruence]].
  destruct (sequence (map f l)) as [ys|e'] eqn:S; cbn [bind] in H; [discriminate|]. assert (e' = e) by congruence. subst.
  destruct (IH e eq_refl) as (z & I & F). exists z. split; [right; exact I|exact F].
Qed.
Lemma sequence_total : forall A B (f : A -> result B) l, (forall x, In x l -> exists y, f x = Ok y) -> exists out, sequence (map f l) = Ok out.
Proof.
  intros A B f l H. destruct (sequence (map f l)) as [out|e] eqn:E; [eauto|]. apply sequence_raise in E as (x & I & F).
  destruct (H x I) as (y & Y). congruence.
Qed.

Lemma downsample_total : forall C init fields g, covered (gr_model_time g) (gr_model_height g) (gr_wind g) ->
  (forall lo hi lo' hi' t a, exists c : C,
     fields (get_1d_indices lo hi (gr_obs_time g)) (get_adv_indices t a (gr_obs_time g)) (get_1d_indices lo' hi' (gr_obs_height g)) = Ok c) ->
  exists out, downsample init fields g = Ok out.
Proof.
  intros C init fields g (H2 & LH & Cov) F. unfold downsample. destruct (binvec_ok _ H2) as (lo & hi & _ & Eb). rewrite Eb. cbn [bind].
  rewrite linspace_length. destruct (sequence_total _ _ (grid_row fields g (linspace lo hi (length (gr_model_time g)))) (seq 0 (S (length (gr_model_time g)) - 1))) as (rows & Er).
  - intros i I. apply in_seq in I. destruct (nth_error (gr_model_height g) i) as [levels|] eqn:Eh; [|apply nth_error_None in Eh; lia].
    destruct (Cov i levels ltac:(lia) Eh) as (L2 & Wi). unfold grid_row. rewrite Eh.
    assert (Ey : exists ye, rebin_edges levels = Ok ye).
    { unfold rebin_edges. destruct (nth_error levels 0) eqn:E0; [|apply nth_error_None in E0; lia]. destruct (nth_error levels 1) eqn:E1; [|apply nth_error_None in E1; lia].
      destruct (nth_error levels (length levels - 1)) eqn:E3; [|apply nth_error_None in E3; lia]. destruct (nth_error levels (length levels - 2)) eqn:E4; [|apply nth_error_None in E4; lia].
      eauto. }
    destruct Ey as (ye & Ey). rewrite Ey. cbn [bind]. destruct (rebin_edges_nth _ _ Ey) as (_ & Le & _). apply sequence_total. intros j J. apply in_seq in J.
    unfold grid_cell. destruct (nth_error (gr_model_time g) i) as [t|] eqn:Et; [|apply nth_error_None in Et; lia].
    destruct (Wi j ltac:(lia)) as (w & Ew). unfold pixel in Ew. destruct (nth_error (gr_wind g) i) as [winds|]; [|discriminate]. rewrite Ew.
    unfold window. rewrite !linspace_nth by lia. destruct (nth_error ye j) eqn:E0; [|apply nth_error_None in E0; lia].
    destruct (nth_error ye (S j)) eqn:E1; [|apply nth_error_None in E1; lia]. apply F.
  - rewrite Er. cbn [bind]. eauto.
Qed.
Lemma downsample_covered : forall C init fields g (out : image C), downsample init fields g = Ok out ->
  covered (gr_model_time g) (gr_model_height g) (gr_wind g).
Proof.
  intros C init fields g out H. destruct (downsample_pixel _ _ _ _ _ H) as (A & B & _ & D & _ & X). split; [exact B|]. split; [exact A|].
  intros i levels I Eh. destruct (D i levels Eh) as (row & Er & Lr). split.
  - unfold downsample in H. apply bind_ok in H as (te & Eb & H). apply bind_ok in H as (rows & Es & _). apply sequence_iff in Es.
    destruct (binvec_ok _ B) as (lo & hi & _ & E). assert (te = linspace lo hi (length (gr_model_time g))) by congruence. subst te. rewrite linspace_length in Es.
    apply seq_forall2 in Es as [Ls Ns]. destruct (nth_error rows i) as [r|] eqn:Ei; [|apply nth_error_None in Ei; lia]. specialize (Ns i r Ei). cbn [Nat.add] in Ns.
    unfold grid_row in Ns. rewrite Eh in Ns. apply bind_ok in Ns as (ye & Ey & _). destruct (rebin_edges_nth _ _ Ey) as (L2 & _). exact L2.
  - intros j J. destruct (nth_error row j) as [c|] eqn:Ej; [|apply nth_error_None in Ej; lia].
    destruct (X i j c I) as (_ & _ & w & _ & _ & _ & _ & _ & _ & Ew & _); [unfold pixel; rewrite Er; exact Ej|]. eauto.
Qed.
Lemma downsample_raise : forall C init fields g e, downsample (C := C) init fields g = Raise e ->
  (forall x xa y e', fields x xa y <> Raise e') -> e = IndexError.
Proof.
  intros C init fields g e H F. unfold downsample in H. unfold binvec in H.
  destruct (nth_error (gr_model_time g) 0), (nth_error (gr_model_time g) 1), (nth_error (gr_model_time g) (length (gr_model_time g) - 1)), (nth_error (gr_model_time g) (length (gr_model_time g) - 2)); cbn [bind] in H; try congruence.
  destruct (sequence _) as [rows|e'] eqn:E; cbn [bind] in H; [discriminate|]. assert (e' = e) by congruence. subst e'. apply sequence_raise in E as (i & _ & E).
  unfold grid_row in E. destruct (nth_error (gr_model_height g) i) as [levels|]; [|congruence]. unfold rebin_edges in E.
  destruct (nth_error levels 0), (nth_error levels 1), (nth_error levels (length levels - 1)), (nth_error levels (length levels - 2)); cbn [bind] in E; try congruence.
  apply sequence_raise in E as (j & _ & E). unfold grid_cell in E.
  destruct (nth_error (gr_model_time g) i); [|congruence]. destruct (nth_error (gr_wind g) i) as [winds|]; [|congruence]. destruct (nth_error winds j); [|congruence].
  exfalso. exact (F _ _ _ _ E).
Qed.

(** ** Reshaping *)

Lemma wheres_in : forall l k i, In i (wheres k l) <-> k <= i /\ nth_error l (i - k) = Some true.
Proof.
  induction l as [|b l IH]; intros k i; cbn [wheres].
  - split; [intros []|]. intros [_ H]. destruct (i - k); discriminate.
  - assert (X : In i (wheres (S k) l) <-> S k <= i /\ nth_error (b :: l) (i - k) = Some true).
    { rewrite IH. split; intros [A B]; (split; [exact A|]); replace (i - k) with (S (i - S k)) in * by lia; exact B. }
    destruct b.
    + cbn [In]. rewrite X. split.
      * intros [<-|[A B]]; [split; [lia|]; rewrite Nat.sub_diag; reflexivity|split; [lia|exact B]].
      * intros [A B]. destruct (Nat.eq_dec k i) as [->|N]; [left; reflexivity|right]. split; [lia|exact B].
    + rewrite X. split; intros [A B]; (split; [lia|exact B]) || idtac. split; [|exact B]. destruct (Nat.eq_dec k i) as [->|N]; [|lia]. rewrite Nat.sub_diag in B. discriminate.
Qed.
Lemma wheres_sorted : forall l k, StronglySorted lt (wheres k l).
Proof.
  induction l as [|b l IH]; intros k; cbn [wheres]; [constructor|]. destruct b; [|apply IH]. constructor; [apply IH|].
  apply Forall_forall. intros i I. apply wheres_in in I. lia.
Qed.
Lemma span_ge : forall l x, StronglySorted lt (x :: l) -> length (x :: l) + x <= S (last (x :: l) 0).
Proof.
  induction l as [|y l IH]; intros x S; [cbn; lia|]. inversion S as [|? ? S' F]; subst. specialize (IH y S'). inversion F; subst.
  change (last (x :: y :: l) 0) with (last (y :: l) 0). cbn [length] in *. lia.
Qed.
Lemma select_length : forall A mask (l : list A) k, length mask = length l -> length (select mask l) = length (wheres k mask).
Proof.
  intros A. unfold select. induction mask as [|b mask IH]; intros [|x l] k L; cbn [length] in L; try lia; [reflexivity|].
  cbn [combine filter fst]. destruct b; cbn [map length wheres]; [f_equal|]; apply IH; lia.
Qed.
Lemma select_row_in : forall A mask (l : list A) x, In x (select mask l) <-> exists i, nth_error mask i = Some true /\ nth_error l i = Some x.
Proof.
  intros A. unfold select. induction mask as [|b mask IH]; intros l x.
  - split; [intros []|]. intros ([|i] & E & _); discriminate.
  - destruct l as [|y l]; [split; [intros []|intros ([|i] & _ & E); discriminate]|]. cbn [combine filter fst].
    assert (X : In x (map snd (filter fst (combine mask l))) <-> exists i, nth_error (b :: mask) (S i) = Some true /\ nth_error (y :: l) (S i) = Some x) by apply IH.
    destruct b.
    + cbn [map In snd]. rewrite X. split.
      * intros [<-|(i & H)]; [exists 0; split; reflexivity|exists (S i); exact H].
      * intros ([|i] & E & F); [left; cbn in F; congruence|right; exists i; split; assumption].
    + rewrite X. split; [intros (i & H); exists (S i); exact H|]. intros ([|i] & E & F); [discriminate|]. exists i. split; assumption.
Qed.
Lemma split_rows_concat : forall A m (rows : list (list A)), Forall (fun r => length r = m) rows -> split_rows (length rows) m (List.concat rows) = rows.
Proof.
  intros A m. induction rows as [|r rows IH]; intros F; [reflexivity|]. inversion F as [|? ? E F']; subst. cbn [length split_rows List.concat].
  rewrite firstn_app, Nat.sub_diag, firstn_all, firstn_O, app_nil_r, skipn_app, Nat.sub_diag, skipn_all. cbn [skipn app]. f_equal. apply IH. exact F'.
Qed.
Lemma concat_length : forall A m (rows : list (list A)), Forall (fun r => length r = m) rows -> length (List.concat rows) = length rows * m.
Proof. intros A m. induction rows as [|r rows IH]; intros F; [reflexivity|]. inversion F; subst. cbn [List.concat length]. rewrite app_length, IH by assumption. lia. Qed.

Lemma selected_rows : forall x_ind y_ind obs, length obs = length x_ind -> Forall (fun row => length row = length y_ind) obs ->
  Forall (fun r => length r = length (wheres 0 y_ind)) (map (select y_ind) (select x_ind obs)) /\
  length (map (select y_ind) (select x_ind (obs : image (masked Q)))) = length (wheres 0 x_ind).
Proof.
  intros x_ind y_ind obs L F. split.
  - apply Forall_map, Forall_forall. intros row I. apply select_row_in in I as (i & _ & E). apply nth_error_In in E.
    rewrite Forall_forall in F. apply select_length. symmetry. apply F, E.
  - rewrite map_length. apply select_length. congruence.
Qed.
Lemma reshape_window : forall x_ind y_ind obs r, length obs = length x_ind -> Forall (fun row => length row = length y_ind) obs ->
  reshape_data_to_window x_ind y_ind obs = Ok r ->
  (r = None /\ ((forall k, nth_error x_ind k <> Some true) \/ (forall k, nth_error y_ind k <> Some true))) \/
  (r = Some (map (select y_ind) (select x_ind obs)) /\ (exists k, nth_error x_ind k = Some true) /\ (exists k, nth_error y_ind k = Some true)).
Proof.
  intros x_ind y_ind obs r L F H. destruct (selected_rows _ _ _ L F) as [Fr Lr]. unfold reshape_data_to_window, get_obs_window_size in H.
  pose proof (wheres_in x_ind 0) as Ix. pose proof (wheres_in y_ind 0) as Iy. pose proof (wheres_sorted x_ind 0) as Sx. pose proof (wheres_sorted y_ind 0) as Sy.
  assert (Nx : wheres 0 x_ind = [] -> forall k, nth_error x_ind k <> Some true).
  { intros E k K. rewrite E in Ix. apply (Ix k). rewrite Nat.sub_0_r. split; [lia|exact K]. }
  assert (Ny : wheres 0 y_ind = [] -> forall k, nth_error y_ind k <> Some true).
  { intros E k K. rewrite E in Iy. apply (Iy k). rewrite Nat.sub_0_r. split; [lia|exact K]. }
  destruct (wheres 0 x_ind) as [|x0 xs] eqn:Ex; [left; split; [congruence|left; apply Nx; reflexivity]|].
  destruct (wheres 0 y_ind) as [|y0 ys] eqn:Ey; [left; split; [congruence|right; apply Ny; reflexivity]|]. right.
  pose proof (span_ge _ _ Sx) as Gx. pose proof (span_ge _ _ Sy) as Gy.
  unfold reshape in H. destruct (Nat.eqb_spec (length (select_window x_ind y_ind obs)) ((last (x0 :: xs) 0 - x0 + 1) * (last (y0 :: ys) 0 - y0 + 1))) as [E|E]; cbn [bind] in H; [|discriminate].
  assert (r = Some (split_rows (last (x0 :: xs) 0 - x0 + 1) (last (y0 :: ys) 0 - y0 + 1) (select_window x_ind y_ind obs))) by congruence. subst r. clear H.
  unfold select_window in *. rewrite flat_map_concat_map in *. rewrite (concat_length _ _ _ Fr), Lr in E.
  set (lx := length (x0 :: xs)) in *. set (ly := length (y0 :: ys)) in *. set (px := last (x0 :: xs) 0 - x0 + 1) in *. set (py := last (y0 :: ys) 0 - y0 + 1) in *.
  assert (1 <= lx) by (unfold lx; cbn; lia). assert (1 <= ly) by (unfold ly; cbn; lia). assert (lx <= px) by lia. assert (ly <= py) by lia.
  assert (px = lx) by nia. assert (py = ly) by nia. rewrite H3, H4. rewrite <- Lr at 1. rewrite (split_rows_concat _ _ _ Fr). split; [reflexivity|]. split.
  - exists x0. destruct (proj1 (Ix x0) (or_introl eq_refl)) as [_ B]. rewrite Nat.sub_0_r in B. exact B.
  - exists y0. destruct (proj1 (Iy y0) (or_introl eq_refl)) as [_ B]. rewrite Nat.sub_0_r in B. exact B.
Qed.

(** Ordered coordinates give windows without gaps. *)
Lemma below_block : forall f l, ascending l -> (forall a b, (a <= b)%Q -> f b = true -> f a = true) ->
  exists n m, map f l = repeat true n ++ repeat false m.
Proof.
  intros f l St M. induction St as [|x l St IH F]; [exists 0, 0; reflexivity|]. destruct IH as (n & m & E). cbn [map]. rewrite E.
  destruct (f x) eqn:X; [exists (S n), m; reflexivity|]. destruct n as [|n]; [exists 0, (S m); reflexivity|].
  exfalso. destruct l as [|y l]; [discriminate|]. cbn in E. inversion E. inversion F; subst. rewrite (M x y) in X; congruence.
Qed.
Lemma block : forall (lo hi : Q) f l, ascending l -> (forall x, f x = true <-> (lo <= x /\ x < hi)%Q) ->
  exists a n b, map f l = repeat false a ++ repeat true n ++ repeat false b.
Proof.
  intros lo hi f l St D. induction St as [|x l St IH F]; [exists 0, 0, 0; reflexivity|].
  destruct (Qlt_le_dec x lo) as [X|X].
  - destruct IH as (a & n & b & E). exists (S a), n, b. cbn [map]. rewrite E. destruct (f x) eqn:Fx; [|reflexivity]. apply D in Fx. lra.
  - exists 0. assert (E : map f (x :: l) = map (fun y => qlt y hi) (x :: l)).
    { apply map_ext_in. intros y I. assert (Y : (lo <= y)%Q) by (destruct I as [<-|I]; [exact X|rewrite Forall_forall in F; specialize (F _ I); lra]).
      destruct (f y) eqn:Fy, (qlt y hi) eqn:Q; try reflexivity.
      - apply D in Fy. apply qlt_false in Q. lra.
      - apply qlt_iff in Q. rewrite (proj2 (D y)) in Fy; [discriminate|]. split; assumption. }
    rewrite E. apply below_block; [constructor; assumption|]. intros u v L H. apply qlt_iff in H. apply qlt_iff. lra.
Qed.
Lemma wheres_app : forall l1 l2 k, wheres k (l1 ++ l2) = wheres k l1 ++ wheres (k + length l1) l2.
Proof.
  induction l1 as [|b l1 IH]; intros l2 k; [rewrite Nat.add_0_r; reflexivity|]. cbn [app wheres length]. replace (k + S (length l1)) with (S k + length l1) by lia.
  destruct b; rewrite IH; reflexivity.
Qed.
Lemma wheres_false : forall n k, wheres k (repeat false n) = [].
Proof. induction n as [|n IH]; intros k; [reflexivity|]. cbn. apply IH. Qed.
Lemma wheres_true : forall n k, wheres k (repeat true n) = seq k n.
Proof. induction n as [|n IH]; intros k; [reflexivity|]. cbn. f_equal. apply IH. Qed.
Lemma block_span : forall (lo hi : Q) f l x0 xs, ascending l -> (forall x, f x = true <-> (lo <= x /\ x < hi)%Q) ->
  wheres 0 (map f l) = x0 :: xs -> last (x0 :: xs) 0 - x0 + 1 = length (x0 :: xs).
Proof.
  intros lo hi f l x0 xs St D E. destruct (block lo hi f l St D) as (a & n & b & B). rewrite B, !wheres_app, !wheres_false, wheres_true, app_nil_r in E. cbn [app Nat.add] in E.
  rewrite repeat_length in E. destruct n as [|n]; [discriminate|]. rewrite <- E. rewrite seq_length. assert (x0 = a) by (cbn in E; congruence). subst x0.
  replace (S n) with (n + 1) by lia. rewrite seq_app. change (seq (a + n) 1) with [a + n]. rewrite last_last. lia.
Qed.

(** ** Cloud fractions *)

Lemma unmasked_in : forall A (l : list (masked A)) v, In v (unmasked l) <-> In (Some v) l.
Proof.
  intros A. induction l as [|[w|] l IH]; intros v; cbn [unmasked In]; [reflexivity| |].
  - rewrite IH. split; intros [H|H]; auto; left; congruence.
  - rewrite IH. split; [auto|]. intros [H|H]; [discriminate|exact H].
Qed.
(** Selected rows with a property, by number. *)
Fixpoint rows_with {A} (p : list A -> bool) (k : nat) (x : list bool) (obs : image A) : list nat :=
  match x, obs with
  | b :: x', row :: obs' => if b && p row then k :: rows_with p (S k) x' obs' else rows_with p (S k) x' obs'
  | _, _ => []
  end.
Lemma rows_with_in : forall A (p : list A -> bool) x obs k i, In i (rows_with p k x obs) <->
  k <= i /\ nth_error x (i - k) = Some true /\ exists row, nth_error obs (i - k) = Some row /\ p row = true.
Proof.
  intros A p. induction x as [|b x IH]; intros obs k i.
  - split; [intros []|]. intros (_ & E & _). destruct (i - k); discriminate.
  - destruct obs as [|row obs].
    + split; [intros []|]. intros (_ & _ & row & E & _). destruct (i - k); discriminate.
    + assert (X : In i (rows_with p (S k) x obs) <-> S k <= i /\ nth_error (b :: x) (i - k) = Some true /\ exists r, nth_error (row :: obs) (i - k) = Some r /\ p r = true).
      { rewrite IH. split; intros (Ge & B); (split; [exact Ge|]); replace (i - k) with (S (i - S k)) in * by lia; exact B. }
      cbn [rows_with]. destruct (b && p row) eqn:E.
      * apply andb_prop in E as [-> P]. cbn [In]. rewrite X. split.
        -- intros [<-|(Ge & B)]; [|split; [lia|exact B]]. rewrite Nat.sub_diag. split; [lia|]. split; [reflexivity|]. exists row. auto.
        -- intros (Ge & B). destruct (Nat.eq_dec k i) as [->|N]; [left; reflexivity|right; split; [lia|exact B]].
      * rewrite X. split; [intros (Ge & B); split; [lia|exact B]|]. intros (Ge & B & C). destruct (Nat.eq_dec k i) as [->|N]; [|split; [lia|split; assumption]].
        exfalso. rewrite Nat.sub_diag in *. destruct C as (r & R & P). cbn in B, R. assert (b = true) by congruence. assert (r = row) by congruence. subst. rewrite P in E. discriminate.
Qed.
Lemma rows_with_nodup : forall A (p : list A -> bool) x obs k, NoDup (rows_with p k x obs).
Proof.
  intros A p. induction x as [|b x IH]; intros [|row obs] k; cbn [rows_with]; try constructor. destruct (b && p row); [|apply IH].
  constructor; [|apply IH]. intros I. apply rows_with_in in I as (Ge & _). lia.
Qed.

Definition row_valid (y : list bool) (row : list (masked Q)) : bool := match unmasked (select y row) with [] => false | _ => true end.
Definition row_cloudy (y : list bool) (row : list (masked Q)) : bool := existsb (qlt 0) (unmasked (select y row)).
Lemma row_in : forall y row (v : Q), In v (unmasked (select y row)) <-> exists l, nth_error y l = Some true /\ nth_error row l = Some (Some v).
Proof. intros y row v. rewrite unmasked_in. apply select_row_in. Qed.
Lemma row_valid_iff : forall y row, row_valid y row = true <-> exists l v, nth_error y l = Some true /\ nth_error row l = Some (Some v).
Proof.
  intros y row. unfold row_valid. pose proof (row_in y row) as R. destruct (unmasked (select y row)) as [|v r].
  - split; [discriminate|]. intros (l & v & H). exfalso. apply (R v). eauto.
  - split; [|auto]. intros _. destruct (proj1 (R v) (or_introl eq_refl)) as (l & H). eauto.
Qed.
Lemma row_cloudy_iff : forall y row, row_cloudy y row = true <-> exists l v, nth_error y l = Some true /\ nth_error row l = Some (Some v) /\ (0 < v)%Q.
Proof.
  intros y row. unfold row_cloudy. rewrite existsb_exists. split.
  - intros (v & I & P). apply row_in in I as (l & E & F). apply qlt_iff in P. eauto 6.
  - intros (l & v & E & F & P). exists v. split; [apply row_in; eauto|apply qlt_iff; exact P].
Qed.
Lemma sum_positive : forall l, Forall (fun v => 0 <= v)%Q l -> (0 <= fold_right Qplus 0 l)%Q /\ (qlt 0 (fold_right Qplus 0%Q l) = existsb (qlt 0) l).
Proof.
  intros l F. induction F as [|v l V F [IH1 IH2]]; [split; [cbn; lra|reflexivity]|]. cbn [fold_right existsb]. split; [lra|]. rewrite <- IH2.
  destruct (qlt 0 (v + fold_right Qplus 0%Q l)) eqn:A, (qlt 0 v) eqn:B, (qlt 0 (fold_right Qplus 0%Q l)) eqn:C; cbn [orb]; try reflexivity;
    repeat match goal with H : qlt _ _ = true |- _ => apply qlt_iff in H | H : qlt _ _ = false |- _ => apply qlt_false in H end; lra.
Qed.
Definition cloudy_row (row : list (masked Q)) : masked Q :=
  option_map (fun s => if qlt 0 s then 1%Q else 0%Q) (ma_stat (fold_right Qplus 0%Q) row).
Lemma nat_q_S : forall n, (nat_q (S n) == 1 + nat_q n)%Q.
Proof. intros n. unfold nat_q. rewrite Nat2Z.inj_succ, <- Z.add_1_l, inject_Z_plus. reflexivity. Qed.
Lemma cloudy_counts : forall y x obs k, (forall row v, In row obs -> In (Some v) row -> (0 <= v)%Q) ->
  length (unmasked (map cloudy_row (map (select y) (select x obs)))) = length (rows_with (row_valid y) k x obs) /\
  (fold_right Qplus 0 (unmasked (map cloudy_row (map (select y) (select x obs)))) == nat_q (length (rows_with (row_cloudy y) k x obs)))%Q.
Proof.
  intros y. unfold select at 2 4. induction x as [|b x IH]; intros [|row obs] k P; cbn [combine filter fst map rows_with]; try (split; [reflexivity|vm_compute; reflexivity]).
  destruct (IH obs (S k)) as [A B]; [intros r v I; apply P; right; exact I|].
  destruct b; cbn [andb]; [|split; assumption]. cbn [map snd]. unfold cloudy_row at 1 3. unfold ma_stat, row_valid, row_cloudy.
  assert (F : Forall (fun v => 0 <= v)%Q (unmasked (select y row))).
  { apply Forall_forall. intros v I. apply row_in in I as (l & _ & E). apply nth_error_In in E. exact (P row v (or_introl eq_refl) E). }
  destruct (sum_positive _ F) as [_ S]. destruct (unmasked (select y row)) as [|v r] eqn:E.
  - cbn [option_map unmasked existsb]. split; assumption.
  - cbn [option_map]. rewrite S. destruct (existsb (qlt 0) (v :: r)); cbn [unmasked length fold_right].
    + split; [f_equal; exact A|]. rewrite B, nat_q_S. reflexivity.
    + split; [f_equal; exact A|]. rewrite Qplus_0_l. exact B.
Qed.
Lemma fraction_area : forall x_ind y_ind obs (x y : nat -> Prop),
  (forall k, nth_error x_ind k = Some true <-> x k) -> (forall k, nth_error y_ind k = Some true <-> y k) ->
  (forall i j v, pixel obs i j = Some (Some v) -> (0 <= v)%Q) ->
  area_of x y obs (fraction_of_cloudy_columns (map (select y_ind) (select x_ind obs))).
Proof.
  intros x_ind y_ind obs x y X Y P. assert (P' : forall row v, In row obs -> In (Some v) row -> (0 <= v)%Q).
  { intros row v I J. apply In_nth_error in I as (i & I). apply In_nth_error in J as (j & J). apply (P i j v). unfold pixel. rewrite I. exact J. }
  destruct (cloudy_counts y_ind x_ind obs 0 P') as [A B].
  exists (rows_with (row_valid y_ind) 0 x_ind obs), (rows_with (row_cloudy y_ind) 0 x_ind obs).
  split; [apply rows_with_nodup|]. split; [apply rows_with_nodup|]. split; [|split].
  - intros k. rewrite rows_with_in, Nat.sub_0_r. unfold profile_with. rewrite <- X. split.
    + intros (_ & E & row & R & V). split; [exact E|]. apply row_valid_iff in V as (l & v & El & Ev). exists l, v. rewrite <- Y. unfold pixel. rewrite R. auto.
    + intros (E & l & v & El & Ev & _). unfold pixel in Ev. destruct (nth_error obs k) as [row|]; [|discriminate]. split; [lia|]. split; [exact E|]. exists row. split; [reflexivity|].
      apply row_valid_iff. exists l, v. rewrite Y. auto.
  - intros k. rewrite rows_with_in, Nat.sub_0_r. unfold profile_with. rewrite <- X. split.
    + intros (_ & E & row & R & V). split; [exact E|]. apply row_cloudy_iff in V as (l & v & El & Ev & Pv). exists l, v. rewrite <- Y. unfold pixel. rewrite R. auto.
    + intros (E & l & v & El & Ev & Pv). unfold pixel in Ev. destruct (nth_error obs k) as [row|]; [|discriminate]. split; [lia|]. split; [exact E|]. exists row. split; [reflexivity|].
      apply row_cloudy_iff. exists l, v. rewrite Y. auto.
  - unfold fraction_of_cloudy_columns. change (fun row => option_map (fun s => if qlt 0 s then 1%Q else 0%Q) (ma_stat (fold_right Qplus 0%Q) row)) with cloudy_row.
    unfold ma_stat. rewrite <- A. destruct (unmasked _) as [|q r] eqn:E.
    + split; [reflexivity|]. intros N. exfalso. destruct (rows_with (row_valid y_ind) 0 x_ind obs); [congruence|cbn in A; lia].
    + split; [intros N; rewrite N in A; cbn in A; lia|]. intros _. eexists. split; [reflexivity|]. rewrite <- B. unfold mean. change (inject_Z (Z.of_nat (length (q :: r)))) with (nat_q (length (q :: r))).
      field. pose proof (nat_q_pos (length (q :: r)) ltac:(cbn; lia)). lra.
Qed.

Lemma concat_valid : forall (x_ind y_ind : list bool) (obs : image (masked Q)), unmasked (List.concat (map (select y_ind) (select x_ind obs))) = [] ->
  fraction_of_cloudy_columns (map (select y_ind) (select x_ind obs)) = None.
Proof.
  intros x y obs. unfold fraction_of_cloudy_columns. generalize (map (select y) (select x obs)). intros rows H. unfold ma_stat at 1.
  assert (E : unmasked (map (fun row => option_map (fun s => if qlt 0 s then 1%Q else 0%Q) (ma_stat (fold_right Qplus 0%Q) row)) rows) = []); [|rewrite E; reflexivity].
  induction rows as [|r rows IH]; [reflexivity|]. cbn [List.concat] in H. rewrite unmasked_app in H. apply app_eq_nil in H as [H1 H2]. cbn [map]. unfold ma_stat at 1. rewrite H1. cbn [option_map unmasked]. apply IH, H2.
Qed.

Lemma cell_values : forall x_ind y_ind obs (x y : nat -> Prop),
  (forall k, nth_error x_ind k = Some true <-> x k) -> (forall k, nth_error y_ind k = Some true <-> y k) ->
  (forall i j v, pixel obs i j = Some (Some v) -> (0 <= v)%Q) ->
  mean_of x y obs (fst (cf_cell (map (select y_ind) (select x_ind obs)))) /\
  area_of x y obs (snd (cf_cell (map (select y_ind) (select x_ind obs)))).
Proof.
  intros x_ind y_ind obs x y X Y P. split.
  - unfold cf_cell. cbn [fst]. rewrite <- flat_map_concat_map. exact (regrid_mean x_ind y_ind obs x y X Y).
  - assert (E : snd (cf_cell (map (select y_ind) (select x_ind obs))) = fraction_of_cloudy_columns (map (select y_ind) (select x_ind obs))).
    { unfold cf_cell. cbn [snd]. destruct (unmasked _) eqn:E; [|reflexivity]. rewrite (concat_valid _ _ _ E). unfold ma_stat. rewrite E. reflexivity. }
    rewrite E. apply fraction_area; assumption.
Qed.

(** The four values of a cell: filled according to the windows. *)
Lemma cf_values : forall obs g out i j c t levels w, downsample_cf obs g = Ok out -> shaped obs (gr_obs_time g) (gr_obs_height g) ->
  (forall i j v, pixel obs i j = Some (Some v) -> (0 <= v)%Q) ->
  i < length (gr_model_time g) -> pixel out i j = Some c -> (0 < gr_resolution g)%Q ->
  nth_error (gr_model_time g) i = Some t -> nth_error (gr_model_height g) i = Some levels -> pixel (gr_wind g) i j = Some w ->
  let x := in_time (gr_obs_time g) (gr_model_time g) i in
  let xa := carried (gr_resolution g) w t (gr_obs_time g) in
  let y := in_level (gr_obs_height g) levels j in
  ((exists k, x k) /\ (exists l, y l) /\ mean_of x y obs (cf_V c) /\ area_of x y obs (cf_A c) /\
     (((exists k, xa k) /\ mean_of xa y obs (cf_V_adv c) /\ area_of xa y obs (cf_A_adv c)) \/
      ((forall k, ~ xa k) /\ cf_V_adv c = Some 0%Q /\ cf_A_adv c = Some 0%Q))) \/
  (((forall k, ~ x k) \/ (forall l, ~ y l)) /\ c = no_fractions).
Proof.
  intros obs g out i j c t levels w H [Ls Fs] P I Px R Et Eh Ew x xa y. destruct (downsample_pixel _ _ _ _ _ H) as (_ & _ & _ & _ & _ & X).
  destruct (X i j _ I Px) as (t' & levels' & w' & xi & xd & yi & Et' & Eh' & J & Ew' & F & Lx & La & Ly & Ti & Ad & Lv).
  assert (t' = t) by congruence. assert (levels' = levels) by congruence. assert (w' = w) by congruence. subst. specialize (Ad R). fold x in Ti. fold xa in Ad. fold y in Lv.
  unfold cf_fields in F. apply bind_ok in F as (data & E & F). rewrite <- Ly in Fs.
  apply reshape_window in E; [|congruence|exact Fs]. destruct E as [(-> & E)|(-> & (k & Ek) & (l & El))].
  - right. split; [|congruence]. destruct E as [E|E]; [left|right]; intros k K; [apply (E k), Ti, K|apply (E k), Lv, K].
  - left. split; [exists k; apply Ti, Ek|]. split; [exists l; apply Lv, El|]. apply bind_ok in F as (adv & E & F).
    apply reshape_window in E; [|congruence|exact Fs]. destruct (cell_values _ _ _ _ _ Ti Lv P) as [V A]. destruct (cf_cell (map (select yi) (select xi obs))) as [v a]. cbn [fst snd] in V, A.
    destruct E as [(-> & E)|(-> & (k' & Ek') & _)].
    + apply ok_eq in F. subst c. cbn. split; [exact V|]. split; [exact A|]. right. split; [|auto]. destruct E as [E|E]; [intros k0 K; apply (E k0), Ad, K|exfalso; exact (E l El)].
    + destruct (cell_values _ _ _ _ _ Ad Lv P) as [V' A']. destruct (cf_cell (map (select yi) (select xd obs))) as [v' a']. apply ok_eq in F. subst c. cbn in *. split; [exact V|]. split; [exact A|].
      left. split; [exists k'; apply Ad, Ek'|]. split; assumption.
Qed.

Lemma cf_total : forall obs g, covered (gr_model_time g) (gr_model_height g) (gr_wind g) -> shaped obs (gr_obs_time g) (gr_obs_height g) ->
  ascending (gr_obs_time g) -> ascending (gr_obs_height g) -> exists out, downsample_cf obs g = Ok out.
Proof.
  intros obs g C [Ls Fs] At Ah. apply downsample_total; [exact C|]. intros lo hi lo' hi' t a.
  assert (W : forall x y, (forall x0 xs, wheres 0 x = x0 :: xs -> last (x0 :: xs) 0 - x0 + 1 = length (x0 :: xs)) ->
     (forall x0 xs, wheres 0 y = x0 :: xs -> last (x0 :: xs) 0 - x0 + 1 = length (x0 :: xs)) -> length x = length (gr_obs_time g) -> length y = length (gr_obs_height g) ->
     exists r, reshape_data_to_window x y obs = Ok r).
  { intros x y X Y Lx Ly. unfold reshape_data_to_window, get_obs_window_size. rewrite <- Ly in Fs. destruct (selected_rows x y obs ltac:(congruence) Fs) as [Fr Lr].
    destruct (wheres 0 x) as [|x0 xs] eqn:Ex; [eauto|]. destruct (wheres 0 y) as [|y0 ys] eqn:Ey; [eauto|]. rewrite (X _ _ eq_refl), (Y _ _ eq_refl).
    unfold reshape, select_window. rewrite flat_map_concat_map, (concat_length _ _ _ Fr), Lr, Nat.eqb_refl. cbn [bind]. eauto. }
  assert (D : forall (l h : Q) q, Qle_bool l q && qlt q h = true <-> (l <= q /\ q < h)%Q).
  { intros l h q. rewrite andb_true_iff, qle_iff, qlt_iff. reflexivity. }
  unfold cf_fields. destruct (W (get_1d_indices lo hi (gr_obs_time g)) (get_1d_indices lo' hi' (gr_obs_height g))) as (r & Er);
    [intros; apply (block_span lo hi _ (gr_obs_time g) _ _ At (D lo hi)); assumption|intros; apply (block_span lo' hi' _ (gr_obs_height g) _ _ Ah (D lo' hi')); assumption|apply map_length|apply map_length|].
  rewrite Er. cbn [bind]. destruct r as [d|]; [|eauto].
  destruct (W (get_adv_indices t a (gr_obs_time g)) (get_1d_indices lo' hi' (gr_obs_height g))) as (r' & Er');
    [intros; apply (block_span (t - a / 2) (t + a / 2) _ (gr_obs_time g) _ _ At (D _ _)); assumption|intros; apply (block_span lo' hi' _ (gr_obs_height g) _ _ Ah (D lo' hi')); assumption|apply map_length|apply map_length|].
  rewrite Er'. cbn [bind]. destruct (cf_cell d) as [v b]. destruct r' as [d'|]; [|eauto]. destruct (cf_cell d') as [v' b']. eauto.
Qed.
Lemma product_total : forall obs g, (exists out, downsample_product obs g = Ok out) <-> covered (gr_model_time g) (gr_model_height g) (gr_wind g).
Proof.
  intros obs g. split; [intros (out & H); exact (downsample_covered _ _ _ _ _ H)|]. intros C. apply downsample_total; [exact C|]. intros. eexists. reflexivity.
Qed.

(** ** Volume and area *)

Definition cloud_ind (r : list Q) : Q := if qlt 0 (fold_right Qplus 0%Q r) then 1%Q else 0%Q.
Lemma sum_le : forall r, Forall (fun v => 0 <= v /\ v <= 1)%Q r -> (fold_right Qplus 0 r <= nat_q (length r))%Q.
Proof.
  intros r F. induction F as [|v r [A B] F IH]; [vm_compute; discriminate|]. cbn [fold_right length]. rewrite nat_q_S. lra.
Qed.
Lemma row_le : forall r, Forall (fun v => 0 <= v /\ v <= 1)%Q r -> (fold_right Qplus 0 r <= nat_q (length r) * cloud_ind r)%Q.
Proof.
  intros r F. pose proof (sum_le r F). unfold cloud_ind. destruct (qlt 0 (fold_right Qplus 0%Q r)) eqn:E; [lra|]. apply qlt_false in E. lra.
Qed.
Lemma sum_app : forall l m, (fold_right Qplus 0 (l ++ m) == fold_right Qplus 0 l + fold_right Qplus 0 m)%Q.
Proof. induction l as [|x l IH]; intros m; cbn [app fold_right]; [ring|]. rewrite IH. ring. Qed.
Lemma rows_le : forall m rows, Forall (fun r => length r = m) rows -> Forall (Forall (fun v => 0 <= v /\ v <= 1)%Q) rows ->
  (fold_right Qplus 0 (List.concat rows) <= nat_q m * fold_right Qplus 0 (map cloud_ind rows))%Q.
Proof.
  intros m. induction rows as [|r rows IH]; intros L F; [cbn; lra|]. inversion L as [|? ? L1 L2]; subst. inversion F as [|? ? F1 F2]; subst. cbn [List.concat map fold_right]. rewrite sum_app.
  specialize (IH L2 F2). pose proof (row_le r F1). lra.
Qed.
Lemma unmasked_some : forall A (l : list A), unmasked (map Some l) = l.
Proof. intros A. induction l as [|x l IH]; [reflexivity|]. cbn. f_equal. exact IH. Qed.
Lemma all_some : forall A (P : A -> Prop) (l : list (masked A)), (forall x, In x l -> exists v, x = Some v /\ P v) -> exists l', l = map Some l' /\ Forall P l'.
Proof.
  intros A P. induction l as [|x l IH]; intros H; [exists []; split; [reflexivity|constructor]|].
  destruct (H x (or_introl eq_refl)) as (v & -> & Pv). destruct IH as (l' & -> & F); [intros y I; apply H; right; exact I|]. exists (v :: l'). split; [reflexivity|constructor; assumption].
Qed.
Lemma cell_le : forall (data : image (masked Q)) m v a, 0 < m -> Forall (fun r => length r = m) data ->
  (forall row x, In row data -> In x row -> exists q, x = Some q /\ (0 <= q /\ q <= 1)%Q) ->
  cf_cell data = (Some v, Some a) -> (v <= a)%Q.
Proof.
  intros data m v a M L H E.
  assert (R : exists rows, data = map (map Some) rows /\ Forall (Forall (fun q => 0 <= q /\ q <= 1)%Q) rows /\ Forall (fun r => length r = m) rows).
  { clear E. induction data as [|row data IH]; [exists []; repeat constructor|]. inversion L; subst.
    destruct IH as (rows & -> & F & Lr); [assumption|intros r x I; apply H; right; exact I|].
    destruct (all_some _ (fun q => 0 <= q /\ q <= 1)%Q row) as (r & -> & Fr); [intros x I; exact (H row x (or_introl eq_refl) I)|].
    exists (r :: rows). split; [reflexivity|]. split; constructor; try assumption. rewrite map_length. reflexivity. }
  destruct R as (rows & -> & F & Lr). unfold cf_cell in E. rewrite <- concat_map in E. unfold ma_stat in E. rewrite !unmasked_some in E.
  pose proof (rows_le m rows Lr F) as S. pose proof (concat_length _ _ _ Lr) as N.
  destruct (List.concat rows) as [|q qs] eqn:Ec; [discriminate|]. rewrite <- Ec in *.
  assert (Ea : fraction_of_cloudy_columns (map (map Some) rows) = ma_stat mean (map (fun r => Some (cloud_ind r)) rows)).
  { unfold fraction_of_cloudy_columns. f_equal. rewrite map_map. apply map_ext_in. intros r I. unfold ma_stat. rewrite unmasked_some.
    rewrite Forall_forall in Lr. specialize (Lr r I). destruct r; [cbn in Lr; lia|reflexivity]. }
  rewrite Ea in E. unfold ma_stat in E. rewrite <- map_map with (f := cloud_ind) (g := Some) in E. rewrite unmasked_some in E.
  destruct rows as [|r0 rs]; [discriminate|]. set (rows := r0 :: rs) in *. change (map cloud_ind rows) with (cloud_ind r0 :: map cloud_ind rs) in E. cbn [map] in E.
  change (cloud_ind r0 :: map cloud_ind rs) with (map cloud_ind rows) in E. assert (Ev : v = mean (List.concat rows)) by congruence. assert (Ew : a = mean (map cloud_ind rows)) by congruence. clear E Ea. subst v a.
  unfold mean. rewrite N, map_length. change (inject_Z (Z.of_nat (length rows * m))) with (nat_q (length rows * m)). change (inject_Z (Z.of_nat (length rows))) with (nat_q (length rows)).
  assert (Nm : (nat_q (length rows * m) == nat_q (length rows) * nat_q m)%Q) by (unfold nat_q; rewrite Nat2Z.inj_mul, inject_Z_mult; reflexivity).
  rewrite Nm. assert (P1 : (0 < nat_q (length rows))%Q) by (apply nat_q_pos; unfold rows; cbn; lia). pose proof (nat_q_pos m M) as P2.
  set (n := nat_q (length rows)) in *. set (mq := nat_q m) in *. set (s := fold_right Qplus 0%Q (List.concat rows)) in *. set (c := fold_right Qplus 0%Q (map cloud_ind rows)) in *.
  apply Qle_shift_div_r; [apply Qmult_lt_0_compat; assumption|]. assert (X : (c / n * (n * mq) == mq * c)%Q) by (field; lra). rewrite X. exact S.
Qed.
Lemma volume_le_area : forall obs g out i j c levels v a, downsample_cf obs g = Ok out -> shaped obs (gr_obs_time g) (gr_obs_height g) ->
  i < length (gr_model_time g) -> pixel out i j = Some c -> nth_error (gr_model_height g) i = Some levels ->
  (forall k l, in_time (gr_obs_time g) (gr_model_time g) i k -> in_level (gr_obs_height g) levels j l ->
     exists q, pixel obs k l = Some (Some q) /\ (0 <= q /\ q <= 1)%Q) ->
  cf_V c = Some v -> cf_A c = Some a -> (v <= a)%Q.
Proof.
  intros obs g out i j c levels v a H [Ls Fs] I Px Eh P Ev Ea. destruct (downsample_pixel _ _ _ _ _ H) as (_ & _ & _ & _ & _ & X).
  destruct (X i j _ I Px) as (t' & levels' & w' & xi & xd & yi & Et' & Eh' & J & Ew' & F & Lx & La & Ly & Ti & Ad & Lv).
  assert (levels' = levels) by congruence. subst levels'.
  unfold cf_fields in F. apply bind_ok in F as (data & E & F). rewrite <- Ly in Fs.
  apply reshape_window in E; [|congruence|exact Fs]. destruct E as [(-> & E)|(-> & (k & Ek) & (l & El))].
  - apply ok_eq in F. subst c. cbn in *. assert (v = 0%Q) by congruence. assert (a = 0%Q) by congruence. subst. lra.
  - destruct (selected_rows xi yi obs ltac:(congruence) Fs) as [Fr _]. apply bind_ok in F as (adv & _ & F).
    destruct (cf_cell (map (select yi) (select xi obs))) as [v0 a0] eqn:Ec. assert (cf_V c = v0 /\ cf_A c = a0).
    { destruct adv as [d|]; [destruct (cf_cell d)|]; apply ok_eq in F; subst c; split; reflexivity. }
    destruct H0 as [H0 H1]. rewrite Ev in H0. rewrite Ea in H1. subst v0 a0.
    refine (cell_le _ _ v a _ Fr _ Ec).
    + pose proof (proj2 (wheres_in yi 0 l)) as W. rewrite Nat.sub_0_r in W. specialize (W (conj (Nat.le_0_l _) El)). destruct (wheres 0 yi); [destruct W|cbn; lia].
    + intros row x Ir Ix. apply in_map_iff in Ir as (r & <- & Ir). apply select_row_in in Ir as (k0 & K0 & R0). apply select_row_in in Ix as (l0 & L0 & X0).
      destruct (P k0 l0 (proj1 (Ti k0) K0) (proj1 (Lv l0) L0)) as (q & Eq & B). exists q. split; [|exact B]. unfold pixel in Eq. rewrite R0 in Eq. congruence.
Qed.

(** ** Bundling *)

Lemma leap_iff : forall y, leap y = true <-> leap_year y.
Proof.
  intros y. unfold leap, leap_year. rewrite andb_true_iff, orb_true_iff, negb_true_iff, Z.eqb_neq, !Z.eqb_eq. split.
  - intros [A [B|B]]; [right|left]; [split|].
    + exists (y / 4)%Z. (Z.to_euclidean_division_equations; lia).
    + intros (q & ->). apply B. rewrite Z.mul_comm, Z.mod_mul by (Z.to_euclidean_division_equations; lia). reflexivity.
    + exists (y / 400)%Z. (Z.to_euclidean_division_equations; lia).
  - intros [(q & ->)|[(q & ->) N]].
    + split; [|right; Z.to_euclidean_division_equations; lia]. (Z.to_euclidean_division_equations; lia).
    + split; [Z.to_euclidean_division_equations; lia|]. left. intros M. apply N. exists (4 * q / 100)%Z. (Z.to_euclidean_division_equations; lia).
Qed.
Lemma month_length_days : forall y m n, month_length y m n -> month_days y m = n /\ (1 <= m <= 12)%Z.
Proof.
  intros y m n [(I & ->)|[(I & ->)|[(-> & L & ->)|(-> & L & ->)]]].
  - cbn in I. repeat (destruct I as [<-|I]; [split; [reflexivity|lia]|]). destruct I.
  - cbn in I. repeat (destruct I as [<-|I]; [split; [reflexivity|lia]|]). destruct I.
  - apply leap_iff in L. unfold month_days. cbn. rewrite L. split; [reflexivity|lia].
  - split; [|lia]. unfold month_days. cbn. destruct (leap y) eqn:E; [apply leap_iff in E; contradiction|reflexivity].
Qed.
Lemma year_step : forall y, (year_days (y + 1) - year_days y = 365 + if leap y then 1 else 0)%Z.
Proof.
  intros y. unfold year_days, leap. replace (y + 1 - 1)%Z with y by lia.
  destruct (Z.eqb_spec (y mod 4) 0), (Z.eqb_spec (y mod 100) 0), (Z.eqb_spec (y mod 400) 0); cbn [andb negb orb]; Z.to_euclidean_division_equations; lia.
Qed.
Lemma day_step : forall a b, next_day a b -> day_number b = (day_number a + 1)%Z.
Proof.
  intros a b H. destruct H as [y m d n M D|y m n M L|y].
  - unfold day_number. lia.
  - destruct (month_length_days _ _ _ M) as [<- R]. unfold day_number.
    replace (Z.to_nat (m + 1) - 1) with ((Z.to_nat m - 1) + 1) by lia. rewrite seq_app, map_app.
    assert (F : forall l k, fold_right Z.add 0%Z (l ++ [k]) = (fold_right Z.add 0%Z l + k)%Z) by (induction l as [|x l IH]; intros k; cbn; [lia|rewrite IH; lia]).
    cbn [seq map]. rewrite F. replace (Z.of_nat (1 + (Z.to_nat m - 1))) with m by lia. lia.
  - unfold day_number. change (Z.to_nat 1 - 1) with 0. change (Z.to_nat 12 - 1) with 11. cbn [seq map fold_right].
    pose proof (year_step y). unfold month_days. cbn -[Z.add year_days leap]. destruct (leap y); lia.
Qed.

Lemma bundle_valid : forall cy date files fs, valid_on_date cy date files = Ok fs -> CliSpec.kept (dated cy date) files fs.
Proof.
  intros cy date. induction files as [|f files IH]; intros fs H; cbn [valid_on_date] in H; [apply ok_eq in H; subst; constructor|].
  apply bind_ok in H as (b & E & H). apply bind_ok in H as (gs & Eg & H). apply ok_eq in H. specialize (IH gs Eg).
  assert (B : b = true <-> dated cy date f).
  { unfold file_on_date in E. unfold dated. destruct (bf_readable f); [|apply ok_eq in E; subst b; split; [discriminate|intros [X _]; discriminate]].
    destruct (bf_time f) as [time|]; [|discriminate]. destruct (bf_units f) as [units|]; [|discriminate]. apply bind_ok in E as (epoch & Ee & E). apply ok_eq in E. subst b.
    rewrite existsb_exists. split.
    - intros (t & It & D). apply Z.eqb_eq, day_of_iff in D. split; [reflexivity|]. exists time, units, epoch, t. auto.
    - intros (_ & time' & units' & epoch' & t & Et & Eu & Ee' & It & D). assert (time' = time) by congruence. assert (units' = units) by congruence. subst.
      assert (epoch' = epoch) by congruence. subst. exists t. split; [exact It|]. apply Z.eqb_eq, day_of_iff. exact D. }
  subst fs. destruct b; [apply CliSpec.KeptTake|apply CliSpec.KeptSkip]; try exact IH; [apply B; reflexivity|]. intros D. apply B in D. discriminate.
Qed.
Lemma first_dimension_iff : forall wanted present d, first_dimension wanted present = Some d <->
  exists a b, wanted = a ++ d :: b /\ In d present /\ forall x, In x a -> ~ In x present.
Proof.
  induction wanted as [|k wanted IH]; intros present d; cbn [first_dimension].
  - split; [discriminate|]. intros ([|? ?] & b & E & _); discriminate.
  - destruct (mem_string k present) eqn:M.
    + apply mem_string_iff in M. split.
      * intros E. assert (k = d) by congruence. subst. exists [], wanted. split; [reflexivity|]. split; [exact M|]. intros x [].
      * intros ([|x a] & b & E & I & N); cbn in E; [congruence|]. exfalso. assert (x = k) by congruence. subst. apply (N k); [left; reflexivity|exact M].
    + assert (K : ~ In k present) by (intros I; apply mem_string_iff in I; congruence). rewrite IH. split.
      * intros (a & b & -> & I & N). exists (k :: a), b. split; [reflexivity|]. split; [exact I|]. intros x [<-|X]; [exact K|apply N, X].
      * intros ([|x a] & b & E & I & N); cbn in E; [exfalso; apply K; assert (k = d) by congruence; subst; exact I|]. assert (x = k) by congruence. subst. exists a, b. split; [congruence|]. split; [exact I|]. intros z Z. apply N. right. exact Z.
Qed.
Lemma first_dimension_none : forall wanted present, first_dimension wanted present = None <-> forall d, In d wanted -> ~ In d present.
Proof.
  induction wanted as [|k wanted IH]; intros present; cbn [first_dimension]; [split; [intros _ d []|auto]|]. destruct (mem_string k present) eqn:M.
  - apply mem_string_iff in M. split; [discriminate|]. intros H. exfalso. exact (H k (or_introl eq_refl) M).
  - rewrite IH. assert (K : ~ In k present) by (intros I; apply mem_string_iff in I; congruence). split; [intros H d [<-|I]; [exact K|apply H, I]|]. intros H d I. apply H. right. exact I.
Qed.
