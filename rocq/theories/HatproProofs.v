(** Proofs about the files of RPG microwave radiometers. *)
From Verif Require Import Base ArrayModel ArrayProofs TimeModel TimeSpec TimeProofs OutputModel InstrumentModel InstrumentSpec InstrumentProofs
  MeltModel RadarModel MpProofs NwpProofs RpgModel RpgProofs HatproModel HatproSpec.
From Verif Require OutputProofs ConcatProofs GridProofs.
From Coq Require Import String Ascii Lqa.
Open Scope string_scope.
Open Scope nat_scope.
Open Scope list_scope.
Local Notation length := List.length (only parsing).
Local Notation dict := OutputModel.dict (only parsing).

(** ** One file *)
Lemma version_iff k f v : version_of k f = Ok v <-> exists c, b_code f = Some c /\ code k v c.
Proof.
  unfold version_of, code. destruct (b_code f) as [c|].
  - split.
    + intros H. exists c. split; [reflexivity|]. destruct k.
      * destruct (Z.eqb_spec c 934501978) as [E|_]; [left; repeat split; congruence|]. destruct (Z.eqb_spec c 934501000) as [E|_]; [right; left; repeat split; congruence|discriminate].
      * destruct (Z.eqb_spec c 594811068) as [E|_]; [right; right; left; repeat split; congruence|]. destruct (Z.eqb_spec c 594811000) as [E|_]; [right; right; right; repeat split; congruence|discriminate].
    + intros (c' & E & H). assert (c' = c) by congruence. subst c'. destruct H as [(-> & -> & ->)|[(-> & -> & ->)|[(-> & -> & ->)|(-> & -> & ->)]]]; reflexivity.
  - split; [discriminate|]. intros (c & E & _). discriminate.
Qed.
Lemma version_one k v c : code k v c -> v = 1%Z \/ v = 2%Z.
Proof. intros [(_ & -> & _)|[(_ & -> & _)|[(_ & -> & _)|(_ & -> & _)]]]; auto. Qed.
Definition ele_of (v : Z) (x : Q) : Q := if (v =? 1)%Z then fst (decode_v1 x) else fst (decode_v2 x).
Definition reading (k : kind) (v : Z) (s : sample) : hrow :=
  {| w_time := s_time s; w_flag := s_flag s; w_value := (scaled k (s_value s), false); w_zenith := (90 - ele_of v (s_angles s))%Q |}.
Definition hits (samples : list sample) : list sample :=
  match gather samples (unique_index (map (fun s => inject_Z (s_time s)) samples)) with Ok l => l | Raise _ => [] end.
Lemma nth_split_iff {A} (l : list A) x : (exists before after, l = before ++ x :: after) <-> In x l.
Proof. split; [intros (b & a & ->); apply in_elt|apply in_split]. Qed.
Lemma first_of_time_iff samples s : first_of_time samples s <->
  exists i, nth_error samples i = Some s /\ forall j s', j < i -> nth_error samples j = Some s' -> s_time s' <> s_time s.
Proof.
  split.
  - intros (b & a & -> & H). exists (length b). rewrite nth_error_app2, Nat.sub_diag by lia. split; [reflexivity|]. intros j s' L N.
    rewrite nth_error_app1 in N by exact L. apply H. apply (nth_error_In _ _ N).
  - intros (i & N & H). apply nth_error_split in N. destruct N as (b & a & -> & L). exists b, a. split; [reflexivity|]. intros s' I.
    apply In_nth_error in I. destruct I as (j & J). assert (Lj : j < length b) by (apply nth_error_Some; congruence).
    apply (H j s'); [lia|]. rewrite nth_error_app1 by exact Lj. exact J.
Qed.
Lemma hits_spec samples : gather samples (unique_index (map (fun s => inject_Z (s_time s)) samples)) = Ok (hits samples) /\
  StronglySorted Z.lt (map s_time (hits samples)) /\ forall s, In s (hits samples) <-> first_of_time samples s.
Proof.
  set (times := map (fun s => inject_Z (s_time s)) samples).
  assert (B : Forall (fun i => i < length samples) (unique_index times)).
  { pose proof (unique_bound times) as B. subst times. rewrite map_length in B. exact B. }
  destruct (gather_ok _ _ B) as (o & O & Lo & No). unfold hits. fold times. rewrite O. split; [reflexivity|].
  destruct (unique_spec times) as (U1 & U2).
  assert (Nt : forall i, nth_error times i = option_map (fun s => inject_Z (s_time s)) (nth_error samples i)) by (intros i; apply nth_error_map').
  split.
  - apply GridProofs.strong_nth. intros i j a b L A Bq. rewrite nth_error_map' in A, Bq. rewrite No in A, Bq.
    destruct (nth_error (unique_index times) i) as [p|] eqn:P; [|discriminate]. destruct (nth_error (unique_index times) j) as [q|] eqn:Qq; [|discriminate].
    destruct (nth_error samples p) as [sa|] eqn:Sa; [|discriminate]. destruct (nth_error samples q) as [sb|] eqn:Sb; [|discriminate].
    cbn [option_map] in A, Bq. pose proof (GridProofs.strong_nth_inv _ _ U2 i j p q L P Qq) as H. cbv beta in H.
    specialize (H (inject_Z (s_time sa)) (inject_Z (s_time sb))). rewrite !Nt, Sa, Sb in H. specialize (H eq_refl eq_refl). rewrite <- Zlt_Qlt in H. congruence.
  - intros s. rewrite first_of_time_iff. split.
    + intros I. apply In_nth_error in I. destruct I as (i & N). rewrite No in N. destruct (nth_error (unique_index times) i) as [p|] eqn:P; [|discriminate].
      exists p. split; [exact N|]. apply nth_error_In, U1 in P. destruct P as (x & X & F). rewrite Nt, N in X. cbn [option_map] in X.
      intros j s' Lj Nj Et. apply (F j (inject_Z (s_time s')) Lj); [rewrite Nt, Nj; reflexivity|]. assert (x = inject_Z (s_time s)) by congruence. subst x. rewrite Et. reflexivity.
    + intros (p & N & F). assert (I : In p (unique_index times)).
      { apply U1. exists (inject_Z (s_time s)). split; [rewrite Nt, N; reflexivity|]. intros j y Lj Nj E. rewrite Nt in Nj.
        destruct (nth_error samples j) as [s'|] eqn:Sj; [|discriminate]. cbn [option_map] in Nj. assert (y = inject_Z (s_time s')) by congruence. subst y.
        apply (F j s' Lj Sj). symmetry. rewrite <- inject_Z_injective. exact E. }
      apply In_nth_error in I. destruct I as (i & P). apply (nth_error_In _ i). rewrite No, P. exact N.
Qed.
Lemma map2_map {A B C} (f : A -> B -> C) (g : A -> B) l : map2 f l (map g l) = map (fun x => f x (g x)) l.
Proof. induction l as [|x l IH]; [reflexivity|]. cbn [map map2]. rewrite IH. reflexivity. Qed.
Lemma read_spec k f : read_hatpro k f = bind (version_of k f) (fun v => Ok (map (reading k v) (hits (b_samples f)))).
Proof.
  unfold read_hatpro. destruct (version_of k f) as [v|e] eqn:V; [|reflexivity]. cbn [bind]. destruct (hits_spec (b_samples f)) as (G & _). rewrite G. cbn [bind].
  apply version_iff in V. destruct V as (c & _ & C). apply version_one in C. unfold decode_angles, reading, ele_of. destruct C as [-> | ->]; cbn [Z.eqb Pos.eqb bind fst]; rewrite map_map, map2_map; reflexivity.
Qed.
Lemma land_six x : (Z.land x 6 =? 6)%Z = true <-> Z.testbit x 1 = true /\ Z.testbit x 2 = true.
Proof.
  rewrite Z.eqb_eq. split.
  - intros H. assert (B : forall n, Z.testbit (Z.land x 6) n = Z.testbit 6 n) by (intros n; rewrite H; reflexivity).
    pose proof (B 1%Z) as B1. pose proof (B 2%Z) as B2. rewrite Z.land_spec in B1, B2. change (Z.testbit 6 1) with true in *. change (Z.testbit 6 2) with true in *.
    rewrite andb_true_r in B1, B2. split; assumption.
  - intros (B1 & B2). apply Z.bits_inj'. intros n N. rewrite Z.land_spec.
    destruct (Z.eq_dec n 1) as [->|N1]; [rewrite B1; reflexivity|]. destruct (Z.eq_dec n 2) as [->|N2]; [rewrite B2; reflexivity|].
    destruct (Z.eq_dec n 0) as [->|N0]; [apply andb_false_r|].
    assert (E : Z.testbit 6 n = false) by (apply Z.bits_above_log2; [lia|]; change (Z.log2 6) with 2%Z; lia). rewrite E. apply andb_false_r.
Qed.
Definition screened (k : kind) (v : Z) (samples : list sample) (s : sample) : hrow :=
  if forallb (fun w => Qeq_bool (fst (w_value w)) 0) (map (reading k v) (hits samples)) then hide (reading k v s)
  else if low_quality (reading k v s) then hide (reading k v s) else reading k v s.
Lemma scaled_zero k x : (scaled k x == 0)%Q <-> (x == 0)%Q.
Proof. destruct k; cbn [scaled]; split; intros H; lra. Qed.
Lemma zero_iff k v samples : forallb (fun w => Qeq_bool (fst (w_value w)) 0) (map (reading k v) (hits samples)) = true <-> all_zero samples.
Proof.
  rewrite forallb_forall. destruct (hits_spec samples) as (_ & _ & H). unfold all_zero. split.
  - intros F s S. apply H in S. specialize (F (reading k v s) (in_map _ _ _ S)). apply Qeq_bool_iff in F. cbn [reading w_value fst] in F. apply (scaled_zero k), F.
  - intros A w W. apply in_map_iff in W. destruct W as (s & <- & S). apply Qeq_bool_iff. cbn [reading w_value fst]. apply scaled_zero, A, H, S.
Qed.
Lemma low_iff k v s : low_quality (reading k v s) = true <-> low s.
Proof. apply land_six. Qed.
Lemma screened_shows k v c samples s : code k v c -> shows k v samples s (screened k v samples s).
Proof.
  intros C. assert (Hr : w_time (screened k v samples s) = s_time s /\ fst (w_value (screened k v samples s)) = scaled k (s_value s) /\
     w_zenith (screened k v samples s) = (90 - ele_of v (s_angles s))%Q).
  { unfold screened. destruct (forallb _ _); [repeat split|]. destruct (low_quality _); repeat split. }
  destruct Hr as (H1 & H2 & H3). split; [exact H1|]. split; [rewrite H2; destruct k; cbn [scaled]; field|]. split.
  - unfold screened. destruct (forallb _ _) eqn:Z.
    + apply zero_iff in Z. cbn [hide w_value snd]. split; [intros _; right; exact Z|reflexivity].
    + assert (NZ : ~ all_zero samples) by (intros A; apply (zero_iff k v) in A; congruence). destruct (low_quality (reading k v s)) eqn:L.
      * apply low_iff in L. cbn [hide w_value snd]. split; [intros _; left; exact L|reflexivity].
      * cbn [reading w_value snd]. split; [discriminate|]. intros [X|X]; [apply (low_iff k v) in X; congruence|contradiction].
  - intros ele (azi & E). rewrite H3. unfold ele_of. destruct E as [(-> & T & E)|(-> & E)]; cbn [Z.eqb Pos.eqb].
    + destruct (decode_v1_spec ele azi (s_angles s) T E) as (A & _). rewrite A. reflexivity.
    + destruct (decode_v2_spec ele azi (s_angles s) E) as (A & _). rewrite A. reflexivity.
Qed.
Lemma filter_all {A} (p : A -> bool) l : length (filter p l) = length l <-> forall x, In x l -> p x = true.
Proof.
  assert (Le : forall l, length (filter p l) <= length l). { clear. intros l. induction l as [|x l IH]; cbn; [lia|]. destruct (p x); cbn; lia. }
  induction l as [|x l IH]; [cbn; split; [intros _ y []|reflexivity]|]. cbn [filter List.length]. destruct (p x) eqn:P.
  - cbn [List.length]. split.
    + intros H y [<-|I]; [exact P|]. apply IH; [lia|exact I].
    + intros H. f_equal. apply IH. intros y I. apply H. right. exact I.
  - split; [intros H; specialize (Le l); lia|]. intros H. rewrite (H x (or_introl eq_refl)) in P. discriminate.
Qed.
Lemma screen_spec k v samples : 
  match screen_bad (map (reading k v) (hits samples)) with
  | Ok rows => rows = map (screened k v samples) (hits samples) /\ (all_zero samples \/ exists s, first_of_time samples s /\ ~ low s)
  | Raise e => e = ValidTimeStampError /\ ~ all_zero samples /\ forall s, first_of_time samples s -> low s
  end.
Proof.
  unfold screen_bad. destruct (hits_spec samples) as (_ & _ & Hh). destruct (forallb _ _) eqn:Z.
  - split; [|left; apply (zero_iff k v), Z]. rewrite map_map. apply map_ext. intros s. unfold screened. rewrite Z. reflexivity.
  - assert (NZ : ~ all_zero samples) by (intros A; apply (zero_iff k v) in A; congruence). destruct (Nat.eqb_spec (length (filter low_quality (map (reading k v) (hits samples)))) (length (map (reading k v) (hits samples)))) as [E|E].
    + split; [reflexivity|]. split; [exact NZ|]. intros s S. apply Hh in S. apply (low_iff k v). apply (proj1 (filter_all _ _) E). apply in_map, S.
    + split; [rewrite map_map; apply map_ext; intros s; unfold screened; rewrite Z; reflexivity|]. right.
      destruct (existsb (fun w => negb (low_quality w)) (map (reading k v) (hits samples))) eqn:X.
      * apply existsb_exists in X. destruct X as (w & I & L). apply in_map_iff in I. destruct I as (s & <- & S). exists s. split; [apply Hh, S|].
        intros Lw. apply (low_iff k v) in Lw. rewrite Lw in L. discriminate.
      * exfalso. apply E, filter_all. intros w I. destruct (low_quality w) eqn:L; [reflexivity|].
        assert (T : existsb (fun w => negb (low_quality w)) (map (reading k v) (hits samples)) = true) by (apply existsb_exists; exists w; split; [exact I|rewrite L; reflexivity]). congruence.
Qed.

(** ** Dates and loading *)
Lemma sorted_filter {A B} (R : B -> B -> Prop) (f : A -> B) p l : StronglySorted R (map f l) -> StronglySorted R (map f (filter p l)).
Proof.
  induction l as [|x l IH]; intros H; [constructor|]. cbn [map] in H. inversion H as [|? ? S F]; subst. cbn [filter]. destruct (p x); [|apply IH, S].
  cbn [map]. constructor; [apply IH, S|]. apply Forall_forall. intros y Y. apply in_map_iff in Y. destruct Y as (z & <- & Z). apply filter_In in Z.
  rewrite Forall_forall in F. apply F, in_map, Z.
Qed.
Definition datedb (epoch : Z) (expected : option Z) (t : Z) : bool :=
  match expected with None => true | Some day => (day_of epoch (inject_Z t) =? day)%Z end.
Lemma datedb_iff epoch expected s : datedb epoch expected (s_time s) = true <-> dated epoch expected s.
Proof. destruct expected as [d|]; cbn [datedb dated]; [rewrite Z.eqb_eq; apply day_of_iff|split; auto]. Qed.
Lemma screened_time k v samples s : w_time (screened k v samples s) = s_time s.
Proof. unfold screened. destruct (forallb _ _); [reflexivity|]. destruct (low_quality _); reflexivity. Qed.
Lemma rows_contents epoch expected k v c f : b_code f = Some c -> code k v c ->
  contents epoch expected k f (filter (fun w => datedb epoch expected (w_time w)) (map (screened k v (b_samples f)) (hits (b_samples f)))).
Proof.
  intros Cf C. destruct (hits_spec (b_samples f)) as (_ & Hs & Hh). exists v, c. split; [exact Cf|]. split; [exact C|]. split; [|split].
  - apply sorted_filter. rewrite map_map. rewrite (map_ext _ s_time); [exact Hs|]. intros s. apply screened_time.
  - intros w W. apply filter_In in W. destruct W as (I & D). apply in_map_iff in I. destruct I as (s & <- & S). exists s. split; [apply Hh, S|]. split.
    + apply datedb_iff. rewrite screened_time in D. exact D.
    + apply (screened_shows k v c), C.
  - intros s S D. exists (screened k v (b_samples f) s). split; [|apply (screened_shows k v c), C]. apply filter_In. split; [apply in_map, Hh, S|].
    rewrite screened_time. apply datedb_iff, D.
Qed.
(** What [load] does with a file. *)
Lemma load_cases epoch expected k f :
  match load epoch expected k f with
  | Ok o => h_stem o = d_stem f /\ h_suffix o = d_suffix f /\ h_kind o = k /\ contents epoch expected k (d_file f) (h_rows o) /\ acceptable epoch expected k (d_file f)
  | Raise e => ~ acceptable epoch expected k (d_file f) /\
      ((e = IndexError /\ b_code (d_file f) = None) \/
       (e = ValueError /\ exists c, b_code (d_file f) = Some c /\ forall v, ~ code k v c) \/
       (e = ValidTimeStampError /\ ~ all_zero (b_samples (d_file f)) /\ forall s, first_of_time (b_samples (d_file f)) s -> low s) \/
       (e = ValueError /\ exists day, expected = Some day /\
          (b_reference (d_file f) <> 1%Z \/ forall s, first_of_time (b_samples (d_file f)) s -> ~ on_date epoch day (inject_Z (s_time s)))))
  end.
Proof.
  unfold load. rewrite read_spec. set (b := d_file f). destruct (version_of k b) as [v|e] eqn:V.
  2:{ cbn [bind]. split.
      - intros ((v & c & Ec & C) & _). assert (X : version_of k b = Ok v) by (apply version_iff; exists c; auto). congruence.
      - destruct (b_code b) as [c|] eqn:Ec.
        + right. left. assert (e = ValueError) by (unfold version_of in V; rewrite Ec in V; destruct k; repeat (destruct (c =? _)%Z in V); congruence).
          subst e. split; [reflexivity|]. exists c. split; [reflexivity|]. intros v C. assert (X : version_of k b = Ok v) by (apply version_iff; exists c; auto). congruence.
        + left. split; [unfold version_of in V; rewrite Ec in V; congruence|reflexivity]. }
  cbn [bind]. pose proof (screen_spec k v (b_samples b)) as Sc. apply version_iff in V. destruct V as (c & Ec & C).
  destruct (screen_bad (map (reading k v) (hits (b_samples b)))) as [rows|e]; cbn [bind].
  2:{ destruct Sc as (-> & NZ & L). split; [|right; right; left; auto]. intros (_ & [Z|(s & S & NL)] & _); [contradiction|apply NL, L, S]. }
  destruct Sc as (-> & Q). assert (H1 : exists v c, b_code b = Some c /\ code k v c) by (exists v, c; auto).
  destruct (hits_spec (b_samples b)) as (_ & _ & Hh). pose proof (rows_contents epoch expected k v c b Ec C) as RC.
  destruct expected as [day|].
  - unfold rows_of_date. destruct (Z.eqb_spec (b_reference b) 1) as [R|R]; cbn [negb].
    + cbn [datedb] in RC. set (rows := filter _ _). fold rows in RC. destruct rows as [|w l] eqn:Er; cbn [bind].
      * assert (N : forall s, first_of_time (b_samples b) s -> ~ on_date epoch day (inject_Z (s_time s))).
        { intros s S D. destruct RC as (v' & c' & _ & _ & _ & _ & K). destruct (K s S D) as (w & [] & _). }
        split; [|right; right; right; split; [reflexivity|]; exists day; auto]. intros (_ & _ & [X|(_ & s & S & D)]); [discriminate|]. apply (N s S D).
      * cbn [h_stem h_suffix h_kind h_rows]. split; [reflexivity|]. split; [reflexivity|]. split; [reflexivity|]. split; [exact RC|].
        split; [exact H1|]. split; [exact Q|]. right. split; [exact R|]. destruct RC as (v' & c' & _ & _ & _ & K & _). destruct (K w (or_introl eq_refl)) as (s & S & D & _). exists s. auto.
    + cbn [bind]. split; [intros (_ & _ & [X|(X & _)]); [discriminate|contradiction]|]. right. right. right. split; [reflexivity|]. exists day. auto.
  - cbn [bind h_stem h_suffix h_kind h_rows]. split; [reflexivity|]. split; [reflexivity|]. split; [reflexivity|]. split.
    + assert (E : forall (l : list hrow), filter (fun w => datedb epoch None (w_time w)) l = l) by (clear; intros l; induction l as [|x l IH]; [reflexivity|]; cbn in *; rewrite IH; reflexivity).
      rewrite E in RC. exact RC.
    + split; [exact H1|]. split; [exact Q|]. left. reflexivity.
Qed.
Definition picked (epoch : Z) (expected : option Z) (f : dir_file) : list hobject :=
  match kind_of (d_suffix f) with
  | None => []
  | Some k => match load epoch expected k f with Ok o => [o] | Raise _ => [] end
  end.
Lemma kind_of_iff x k : kind_of x = Some k <-> suffix_of k x.
Proof.
  unfold kind_of, suffix_of. destruct (String.eqb_spec (lower x) ".lwp") as [E|N].
  - rewrite E. destruct k; split; congruence.
  - destruct (String.eqb_spec (lower x) ".iwv") as [E|M]; [rewrite E|]; destruct k; split; congruence.
Qed.
Lemma load_all_ok epoch expected files : (forall f k, In f files -> suffix_of k (d_suffix f) -> b_code (d_file f) <> None) ->
  load_all epoch expected files = Ok (flat_map (picked epoch expected) files).
Proof.
  induction files as [|f files IH]; intros H; [reflexivity|]. cbn [load_all flat_map]. unfold picked at 1.
  assert (IH' := IH (fun g k G => H g k (or_intror G))). destruct (kind_of (d_suffix f)) as [k|] eqn:K; [|exact IH'].
  pose proof (load_cases epoch expected k f) as L. destruct (load epoch expected k f) as [o|e]; [rewrite IH'; reflexivity|].
  apply kind_of_iff in K. specialize (H f k (or_introl eq_refl) K). destruct L as (_ & [(-> & X)|[(-> & X)|[(-> & X)|(-> & X)]]]); try exact IH'. contradiction.
Qed.
Lemma load_all_inv epoch expected files objs : load_all epoch expected files = Ok objs -> objs = flat_map (picked epoch expected) files.
Proof.
  revert objs. induction files as [|f files IH]; intros objs H; [cbn in H; cbn; congruence|]. cbn [load_all] in H. cbn [flat_map]. unfold picked at 1.
  destruct (kind_of (d_suffix f)) as [k|]; [|apply IH, H]. destruct (load epoch expected k f) as [o|e].
  - apply bind_ok in H. destruct H as (l & L & H). apply IH in L. subst l. cbn. congruence.
  - destruct e; try discriminate; apply IH, H.
Qed.
Lemma load_all_raise epoch expected files e : load_all epoch expected files = Raise e ->
  e = IndexError /\ exists f k, In f files /\ suffix_of k (d_suffix f) /\ b_code (d_file f) = None.
Proof.
  induction files as [|f files IH]; intros H; [discriminate|]. cbn [load_all] in H.
  assert (IH' : load_all epoch expected files = Raise e -> e = IndexError /\ exists g k, In g (f :: files) /\ suffix_of k (d_suffix g) /\ b_code (d_file g) = None).
  { intros X. destruct (IH X) as (E & g & k & I & K). split; [exact E|]. exists g, k. split; [right; exact I|exact K]. }
  destruct (kind_of (d_suffix f)) as [k|] eqn:K; [|apply IH', H]. apply kind_of_iff in K.
  pose proof (load_cases epoch expected k f) as L. destruct (load epoch expected k f) as [o|e'].
  - destruct (load_all epoch expected files); [discriminate|]. apply IH'. cbn in H. congruence.
  - destruct L as (_ & [(-> & X)|[(-> & X)|[(-> & X)|(-> & X)]]]); try (apply IH', H). split; [congruence|]. exists f, k. split; [left; reflexivity|]. auto.
Qed.
Lemma picked_in epoch expected f o : In o (picked epoch expected f) <->
  exists k, suffix_of k (d_suffix f) /\ load epoch expected k f = Ok o.
Proof.
  unfold picked. split.
  - destruct (kind_of (d_suffix f)) as [k|] eqn:K; [|intros []]. destruct (load epoch expected k f) as [o'|] eqn:L; [|intros []]. intros [<-|[]].
    exists k. split; [apply kind_of_iff, K|exact L].
  - intros (k & K & L). apply kind_of_iff in K. rewrite K, L. left. reflexivity.
Qed.
(** ** Stems *)
Lemma ascii_compare_trans a b c : (a ?= b)%char = Lt -> (b ?= c)%char = Lt -> (a ?= c)%char = Lt.
Proof. unfold Ascii.compare. rewrite !N.compare_lt_iff. lia. Qed.
Lemma before_trans a : forall b c, before a b -> before b c -> before a c.
Proof.
  unfold before. induction a as [|x a IH]; intros [|y b] [|z c]; cbn [String.compare]; try congruence.
  destruct (x ?= y)%char eqn:XY; try discriminate.
  - apply Ascii.compare_eq_iff in XY. subst y. intros H. destruct (x ?= z)%char; try congruence. apply IH, H.
  - intros _. destruct (y ?= z)%char eqn:YZ; try discriminate.
    + apply Ascii.compare_eq_iff in YZ. subst z. rewrite XY. reflexivity.
    + intros _. rewrite (ascii_compare_trans _ _ _ XY YZ). reflexivity.
Qed.
Lemma before_cases s t : s <> t -> if (s <=? t)%string then before s t else before t s.
Proof.
  intros N. unfold before, String.leb. destruct (s ?= t)%string eqn:E; [|reflexivity|].
  - apply String.compare_eq_iff in E. contradiction.
  - rewrite String.compare_antisym, E. reflexivity.
Qed.
Lemma insert_stem_in s l x : In x (insert_stem s l) <-> x = s \/ In x l.
Proof.
  induction l as [|t l IH]; cbn [insert_stem]; [cbn; split; [intros [<-|[]]; auto|intros [->|[]]; auto]|].
  destruct (String.eqb_spec s t) as [<-|N]; [split; [auto|intros [->|H]; [left; reflexivity|exact H]]|].
  destruct (s <=? t)%string; cbn [In]; [split; [intros [H|H]; auto|intros [H|H]; auto]|]. rewrite IH. split; [intros [H|[H|H]]; auto|intros [H|[H|H]]; auto].
Qed.
Lemma insert_stem_sorted s l : StronglySorted before l -> StronglySorted before (insert_stem s l).
Proof.
  induction 1 as [|t l S IH F]; cbn [insert_stem]; [constructor; constructor|].
  destruct (String.eqb_spec s t) as [<-|N]; [constructor; assumption|]. pose proof (before_cases s t N) as B. destruct (s <=? t)%string.
  - constructor; [constructor; assumption|]. constructor; [exact B|]. rewrite Forall_forall in *. intros x X. apply (before_trans s t x B), F, X.
  - constructor; [exact IH|]. rewrite Forall_forall in *. intros x X. apply insert_stem_in in X. destruct X as [->|X]; [exact B|apply F, X].
Qed.
Lemma stems_spec objs : StronglySorted before (stems objs) /\ forall s, In s (stems objs) <-> exists o, In o objs /\ h_stem o = s.
Proof.
  unfold stems. assert (G : forall objs acc, StronglySorted before acc ->
    StronglySorted before (fold_left (fun l o => insert_stem (h_stem o) l) objs acc) /\
    forall s, In s (fold_left (fun l o => insert_stem (h_stem o) l) objs acc) <-> In s acc \/ exists o, In o objs /\ h_stem o = s).
  { clear. induction objs as [|o objs IH]; intros acc A; cbn [fold_left].
    - split; [exact A|]. intros s. split; [auto|intros [H|(o & [] & _)]; exact H].
    - destruct (IH _ (insert_stem_sorted (h_stem o) acc A)) as (I1 & I2). split; [exact I1|]. intros s. rewrite I2, insert_stem_in. split.
      + intros [[->|H]|(o' & I & E)]; [right; exists o; split; [left|]; reflexivity|left; exact H|right; exists o'; split; [right; exact I|exact E]].
      + intros [H|(o' & [<-|I] & E)]; [left; right; exact H|left; left; congruence|right; exists o'; auto]. }
  destruct (G objs [] (SSorted_nil _)) as (G1 & G2). split; [exact G1|]. intros s. rewrite G2. split; [intros [[]|H]; exact H|auto].
Qed.
(** ** Joining *)
Lemma insert_time_in s l x : In x (insert_time s l) <-> x = s \/ In x l.
Proof.
  induction l as [|t l IH]; cbn [insert_time]; [cbn; split; [intros [<-|[]]; auto|intros [->|[]]; auto]|].
  destruct (Z.eqb_spec s t) as [<-|N]; [split; [auto|intros [->|H]; [left; reflexivity|exact H]]|].
  destruct (s <? t)%Z; cbn [In]; [split; [intros [H|H]; auto|intros [H|H]; auto]|]. rewrite IH. split; [intros [H|[H|H]]; auto|intros [H|[H|H]]; auto].
Qed.
Lemma insert_time_sorted s l : StronglySorted Z.lt l -> StronglySorted Z.lt (insert_time s l).
Proof.
  induction 1 as [|t l S IH F]; cbn [insert_time]; [constructor; constructor|].
  destruct (Z.eqb_spec s t) as [<-|N]; [constructor; assumption|]. rewrite Forall_forall in F. destruct (Z.ltb_spec s t) as [B|B].
  - constructor; [constructor; [assumption|apply Forall_forall; exact F]|]. constructor; [exact B|]. apply Forall_forall. intros x X. specialize (F x X). lia.
  - constructor; [exact IH|]. apply Forall_forall. intros x X. apply insert_time_in in X. destruct X as [->|X]; [lia|apply F, X].
Qed.
Lemma times_spec l : StronglySorted Z.lt (fold_left (fun l t => insert_time t l) l []) /\
  forall t, In t (fold_left (fun l t => insert_time t l) l []) <-> In t l.
Proof.
  assert (G : forall l acc, StronglySorted Z.lt acc -> StronglySorted Z.lt (fold_left (fun l t => insert_time t l) l acc) /\
    forall t, In t (fold_left (fun l t => insert_time t l) l acc) <-> In t acc \/ In t l).
  { clear. induction l as [|o l IH]; intros acc A; cbn [fold_left].
    - split; [exact A|]. intros s. split; [auto|intros [H|[]]; exact H].
    - destruct (IH _ (insert_time_sorted o acc A)) as (I1 & I2). split; [exact I1|]. intros s. rewrite I2, insert_time_in. cbn [In]. split.
      + intros [[->|H]|H]; auto.
      + intros [H|[H|H]]; auto. }
  destruct (G l [] (SSorted_nil _)) as (G1 & G2). split; [exact G1|]. intros t. rewrite G2. split; [intros [[]|H]; exact H|auto].
Qed.
Lemma sorted_unique rows : StronglySorted Z.lt (map w_time rows) -> forall x y, In x rows -> In y rows -> w_time x = w_time y -> x = y.
Proof.
  induction rows as [|w rows IH]; intros S x y; [intros []|]. cbn [map] in S. inversion S as [|? ? S' F]; subst. rewrite Forall_forall in F.
  intros [<-|X] [<-|Y] E; [reflexivity| | |apply IH; assumption].
  - specialize (F _ (in_map w_time _ _ Y)). lia.
  - specialize (F _ (in_map w_time _ _ X)). lia.
Qed.
Lemma row_at_some rows t w : StronglySorted Z.lt (map w_time rows) -> In w rows -> w_time w = t -> row_at rows t = Some w.
Proof.
  intros S I E. unfold row_at. destruct (find _ rows) as [w'|] eqn:F.
  - apply find_some in F. destruct F as (I' & E'). apply Z.eqb_eq in E'. f_equal. apply (sorted_unique rows S); [assumption|assumption|congruence].
  - apply (find_none _ _ F) in I. apply Z.eqb_neq in I. congruence.
Qed.
Lemma row_at_none rows t : (forall w, In w rows -> w_time w <> t) -> row_at rows t = None.
Proof. intros H. unfold row_at. destruct (find _ rows) as [w|] eqn:F; [|reflexivity]. apply find_some in F. destruct F as (I & E). apply Z.eqb_eq in E. destruct (H w I E). Qed.
Lemma row_at_inv rows t w : row_at rows t = Some w -> In w rows /\ w_time w = t.
Proof. intros F. apply find_some in F. destruct F as (I & E). apply Z.eqb_eq in E. auto. Qed.
Lemma value_shown rows ts : StronglySorted Z.lt (map w_time rows) -> Forall2 (shown rows) ts (map (value_at rows) ts).
Proof.
  intros S. induction ts as [|t ts IH]; [apply Forall2_nil|]. cbn [map]. apply Forall2_cons; [|exact IH]. unfold value_at. split.
  - intros w I E. rewrite (row_at_some rows t w S I E). reflexivity.
  - intros N. rewrite (row_at_none rows t N). reflexivity.
Qed.
Lemma agree_iff a b : StronglySorted Z.lt (map w_time a) -> StronglySorted Z.lt (map w_time b) ->
  forallb (fun t => same_zenith (row_at a t) (row_at b t)) (fold_left (fun l t => insert_time t l) (map w_time a ++ map w_time b) []) = true <-> agree a b.
Proof.
  intros Sa Sb. destruct (times_spec (map w_time a ++ map w_time b)) as (_ & T). rewrite forallb_forall. split.
  - intros H x y X Y E. specialize (H (w_time x)). rewrite T, in_app_iff in H. specialize (H (or_introl (in_map w_time _ _ X))).
    rewrite (row_at_some a _ x Sa X eq_refl), (row_at_some b _ y Sb Y (eq_sym E)) in H. apply Qeq_bool_iff, H.
  - intros A t _. destruct (row_at a t) as [x|] eqn:X; [|reflexivity]. destruct (row_at b t) as [y|] eqn:Y; [|reflexivity]. cbn [same_zenith].
    apply row_at_inv in X, Y. apply Qeq_bool_iff. apply A; [apply X|apply Y|]. destruct X, Y. congruence.
Qed.
Lemma joined_swap l i time lwp iwv zenith : joined_files l i time lwp iwv zenith -> joined_files i l time iwv lwp zenith.
Proof.
  intros (ts & S & T & E & L & I & Z). exists ts. split; [exact S|]. split; [|split; [exact E|split; [exact I|split; [exact L|]]]].
  - intros t. rewrite T. split; intros (w & [W|W] & X); exists w; auto.
  - clear - Z. induction Z as [|t z ts zs H _ IH]; [apply Forall2_nil|apply Forall2_cons; [|exact IH]]. intros w [W|W]; apply H; auto.
Qed.
Lemma joined_two a b : StronglySorted Z.lt (map w_time a) -> StronglySorted Z.lt (map w_time b) -> agree a b ->
  let ts := fold_left (fun l t => insert_time t l) (map w_time a ++ map w_time b) [] in
  joined_files a b (time_column ts) (map (value_at a) ts) (map (value_at b) ts) (map (fun t => zenith_at (row_at a t) (row_at b t)) ts).
Proof.
  intros Sa Sb A ts. destruct (times_spec (map w_time a ++ map w_time b)) as (S & T). fold ts in S, T. exists ts. split; [exact S|]. split.
  { intros t. rewrite T, in_app_iff, !in_map_iff. split; [intros [(w & E & I)|(w & E & I)]; exists w; auto|intros (w & [I|I] & E); [left|right]; exists w; auto]. }
  split; [reflexivity|]. split; [apply value_shown, Sa|]. split; [apply value_shown, Sb|].
  clear S T. induction ts as [|t ts IH]; [apply Forall2_nil|cbn [map]; apply Forall2_cons; [|exact IH]].
  intros w [W|W] E.
  - rewrite (row_at_some a t w Sa W E). cbn [zenith_at]. exists (w_zenith w). split; reflexivity.
  - rewrite (row_at_some b t w Sb W E). destruct (row_at a t) as [x|] eqn:X; cbn [zenith_at].
    + apply row_at_inv in X. destruct X as (X & Et). exists (w_zenith x). split; [reflexivity|]. apply (A x w X W). congruence.
    + exists (w_zenith w). split; reflexivity.
Qed.
Lemma joined_one rows : StronglySorted Z.lt (map w_time rows) ->
  joined_files rows [] (time_column (map w_time rows)) (map visible_value rows) (map (fun _ => None) rows) (map (fun w => Some (w_zenith w)) rows).
Proof.
  intros S. exists (map w_time rows). split; [exact S|]. split.
  { intros t. rewrite in_map_iff. split; [intros (w & E & I); exists w; auto|intros (w & [I|[]] & E); exists w; auto]. }
  split; [reflexivity|]. assert (U := sorted_unique rows S).
  assert (G : forall l, (forall w, In w l -> In w rows) -> Forall2 (shown rows) (map w_time l) (map visible_value l) /\ Forall2 (shown []) (map w_time l) (map (fun _ => None) l) /\
    Forall2 (fun t z => forall w, In w rows \/ In w [] -> w_time w = t -> exists x, z = Some x /\ (x == w_zenith w)%Q) (map w_time l) (map (fun w => Some (w_zenith w)) l)).
  { induction l as [|w l IH]; intros Sub; [split; [|split]; apply Forall2_nil|]. destruct (IH (fun x I => Sub x (or_intror I))) as (I1 & I2 & I3).
    assert (W := Sub w (or_introl eq_refl)). cbn [map]. split; [|split]; apply Forall2_cons; try assumption.
    - split; [intros x X E; rewrite (U x w X W E); reflexivity|]. intros N. destruct (N w W eq_refl).
    - split; [intros x []|reflexivity].
    - intros x [X|[]] E. rewrite (U x w X W E). exists (w_zenith w). split; reflexivity. }
  apply G. auto.
Qed.
(** ** Groups of files with one stem *)
Definition key (o : hobject) := (h_stem o, lower (h_suffix o)).
Lemma picked_key epoch expected f o : In o (picked epoch expected f) -> key o = (d_stem f, lower (d_suffix f)) /\ suffix_of (h_kind o) (h_suffix o) /\
  contents epoch expected (h_kind o) (d_file f) (h_rows o) /\ acceptable epoch expected (h_kind o) (d_file f).
Proof.
  intros H. apply picked_in in H. destruct H as (k & K & L). pose proof (load_cases epoch expected k f) as C. rewrite L in C.
  destruct C as (C1 & C2 & C3 & C4 & C5). unfold key. rewrite C1, C2, C3. auto.
Qed.
Lemma objs_nodup epoch expected files : distinct_names files -> NoDup (map key (flat_map (picked epoch expected) files)).
Proof.
  unfold distinct_names. induction files as [|f files IH]; intros N; [constructor|]. cbn [map] in N. inversion N as [|? ? N1 N2]; subst. cbn [flat_map].
  assert (P : picked epoch expected f = [] \/ exists o, picked epoch expected f = [o]).
  { unfold picked. destruct (kind_of _); [|auto]. destruct (load _ _ _ _) as [o|]; [right; exists o; reflexivity|auto]. }
  destruct P as [P|(o & P)]; rewrite P; cbn [List.app map]; [apply IH, N2|]. constructor; [|apply IH, N2].
  assert (K : key o = (d_stem f, lower (d_suffix f))) by (apply (picked_key epoch expected); rewrite P; left; reflexivity). rewrite K.
  intros I. apply N1. apply in_map_iff in I. destruct I as (o' & E & I). apply in_flat_map in I. destruct I as (g & G & I). apply in_map_iff. exists g. split; [|exact G].
  destruct (picked_key _ _ _ _ I) as (K' & _). congruence.
Qed.
Lemma nodup_map_filter {A B} (f : A -> B) p l : NoDup (map f l) -> NoDup (map f (filter p l)).
Proof.
  induction l as [|x l IH]; intros N; [constructor|]. cbn [map] in N. inversion N as [|? ? N1 N2]; subst. cbn [filter]. destruct (p x); [|apply IH, N2].
  cbn [map]. constructor; [|apply IH, N2]. intros I. apply N1. apply in_map_iff in I. destruct I as (y & E & Y). apply filter_In in Y. apply in_map_iff. exists y. tauto.
Qed.
Lemma nodup_map_inj {A B C} (f : A -> B) (g : A -> C) l : NoDup (map f l) -> (forall x y, In x l -> In y l -> g x = g y -> f x = f y) -> NoDup (map g l).
Proof.
  induction l as [|x l IH]; intros N H; [constructor|]. cbn [map] in *. inversion N as [|? ? N1 N2]; subst. constructor.
  - intros I. apply N1. apply in_map_iff in I. destruct I as (y & E & Y). rewrite (H x y (or_introl eq_refl) (or_intror Y) (eq_sym E)). apply in_map, Y.
  - apply IH; [exact N2|]. intros a b Ia Ib. apply H; right; assumption.
Qed.
Definition grp (objs : list hobject) (s : string) := filter (fun o => (h_stem o =? s)%string) objs.
Lemma grp_in objs s o : In o (grp objs s) <-> In o objs /\ h_stem o = s.
Proof. unfold grp. rewrite filter_In, String.eqb_eq. reflexivity. Qed.
(** What is known about the objects. *)
Definition well (epoch : Z) (expected : option Z) (files : list dir_file) (o : hobject) : Prop :=
  exists f, In f files /\ h_stem o = d_stem f /\ h_suffix o = d_suffix f /\ suffix_of (h_kind o) (d_suffix f) /\
    contents epoch expected (h_kind o) (d_file f) (h_rows o) /\ acceptable epoch expected (h_kind o) (d_file f).
Lemma objs_well epoch expected files o : In o (flat_map (picked epoch expected) files) -> well epoch expected files o.
Proof.
  intros I. apply in_flat_map in I. destruct I as (f & F & I). apply picked_in in I. destruct I as (k & K & L). pose proof (load_cases epoch expected k f) as C. rewrite L in C.
  destruct C as (C1 & C2 & C3 & C4 & C5). exists f. rewrite C3. auto 10.
Qed.
Lemma objs_of_file epoch expected files k f : In f files -> suffix_of k (d_suffix f) -> acceptable epoch expected k (d_file f) ->
  exists o, In o (flat_map (picked epoch expected) files) /\ h_stem o = d_stem f /\ h_suffix o = d_suffix f /\ h_kind o = k /\ contents epoch expected k (d_file f) (h_rows o).
Proof.
  intros F K A. pose proof (load_cases epoch expected k f) as C. destruct (load epoch expected k f) as [o|e] eqn:L; [|destruct C as (C & _); contradiction].
  destruct C as (C1 & C2 & C3 & C4 & C5). exists o. split; [|auto 10]. apply in_flat_map. exists f. split; [exact F|]. apply picked_in. exists k. auto.
Qed.
Lemma grp_kinds epoch expected files s : distinct_names files -> NoDup (map h_kind (grp (flat_map (picked epoch expected) files) s)).
Proof.
  intros D. apply (nodup_map_inj key); [apply nodup_map_filter, objs_nodup, D|]. intros x y X Y E. apply grp_in in X, Y. destruct X as (X & Sx), Y as (Y & Sy).
  apply objs_well in X, Y. destruct X as (f & _ & _ & X1 & X2 & _), Y as (g & _ & _ & Y1 & Y2 & _). unfold key. rewrite <- X1 in X2. rewrite <- Y1 in Y2.
  unfold suffix_of in X2, Y2. rewrite X2, Y2, E, Sx, Sy. reflexivity.
Qed.
Lemma contents_sorted epoch expected k f rows : contents epoch expected k f rows -> StronglySorted Z.lt (map w_time rows).
Proof. intros (v & c & _ & _ & S & _). exact S. Qed.
Lemma agree_sym a b : agree a b -> agree b a.
Proof. intros H x y X Y E. symmetry. apply H; auto. Qed.
Definition sorted_rows (o : hobject) := StronglySorted Z.lt (map w_time (h_rows o)).
Lemma combined_iff group : group <> [] -> NoDup (map h_kind group) -> Forall sorted_rows group ->
  ((exists t, combined group = Ok t) /\ (forall a b, In a group -> In b group -> h_kind a = Lwp -> h_kind b = Iwv -> agree (h_rows a) (h_rows b))) \/
  (combined group = Raise ValueError /\ exists a b, In a group /\ In b group /\ h_kind a = Lwp /\ h_kind b = Iwv /\ ~ agree (h_rows a) (h_rows b)).
Proof.
  intros Ne N F. destruct group as [|a [|b [|c r]]]; [congruence| | |].
  - left. split; [eexists; reflexivity|]. intros x y [<-|[]] [<-|[]] E E'. congruence.
  - inversion F as [|? ? Fa F']; subst. inversion F' as [|? ? Fb _]; subst. cbn [map] in N. inversion N as [|? ? N1 _]; subst.
    assert (Nk : h_kind a <> h_kind b) by (intros E; apply N1; left; congruence). cbn [combined].
    pose proof (agree_iff (h_rows a) (h_rows b) Fa Fb) as A. destruct (forallb _ _).
    + assert (G : agree (h_rows a) (h_rows b)) by (apply A; reflexivity). left. split; [eexists; reflexivity|].
      intros x y [<-|[<-|[]]] [<-|[<-|[]]] E E'; try congruence; [exact G|apply agree_sym, G].
    + right. split; [reflexivity|]. assert (G : ~ agree (h_rows a) (h_rows b)) by (intros X; apply A in X; discriminate).
      destruct (h_kind a) eqn:Ka, (h_kind b) eqn:Kb; try congruence.
      * exists a, b. split; [left; reflexivity|]. split; [right; left; reflexivity|]. auto.
      * exists b, a. split; [right; left; reflexivity|]. split; [left; reflexivity|]. split; [exact Kb|]. split; [exact Ka|]. intros X. apply G, agree_sym, X.
  - exfalso. cbn [map] in N. inversion N as [|? ? N1 N']; subst. inversion N' as [|? ? N2 _]; subst. cbn [In] in N1, N2.
    destruct (h_kind a), (h_kind b), (h_kind c); try (apply N1; auto; fail); apply N2; auto.
Qed.
(** Columns of a table, whose variable is missing if no file has it. *)
Definition column_of (k : kind) (group : list hobject) (rows : list hrow) (t : table) (time col : list (masked Q)) : Prop :=
  (exists o, In o group /\ h_kind o = k /\ h_rows o = rows /\ lookup (variable k) t = Some col) \/
  (rows = [] /\ (forall o, In o group -> h_kind o <> k) /\ lookup (variable k) t = None /\ col = map (fun _ => None) time).
Lemma group_table group t : NoDup (map h_kind group) -> Forall sorted_rows group -> combined group = Ok t ->
  exists l i c, column_of Lwp group l t (c_time c) (c_lwp c) /\ column_of Iwv group i t (c_time c) (c_iwv c) /\
    joined_files l i (c_time c) (c_lwp c) (c_iwv c) (c_zenith c) /\ lookup "time" t = Some (c_time c) /\ lookup "zenith_angle" t = Some (c_zenith c) /\ NoDup (map fst t) /\
    (forall k, lookup k t <> None -> hidden k = false).
Proof.
  intros N F C. destruct group as [|a [|b [|c r]]]; try discriminate.
  - inversion F as [|? ? Fa _]; subst. cbn [combined] in C. set (T := time_column (map w_time (h_rows a))) in *. set (V := map visible_value (h_rows a)) in *.
    set (Zs := map (fun w => Some (w_zenith w)) (h_rows a)) in *. pose proof (joined_one (h_rows a) Fa) as J. fold T V Zs in J.
    assert (Em : map (fun _ : hrow => None) (h_rows a) = map (fun _ : masked Q => @None Q) T) by (unfold T, time_column; rewrite !map_map; reflexivity). rewrite Em in J.
    assert (t = [("time", T); (variable (h_kind a), V); ("zenith_angle", Zs)]) by congruence. subst t.
    assert (Hid : forall k, lookup k [("time", T); (variable (h_kind a), V); ("zenith_angle", Zs)] <> None -> hidden k = false).
    { intros k H. apply OutputProofs.lookup_in in H. cbn [map fst In] in H. destruct (h_kind a); destruct H as [<-|[<-|[<-|[]]]]; reflexivity. }
    destruct (h_kind a) eqn:K; cbn [variable] in *.
    + exists (h_rows a), [], (T, V, map (fun _ => None) T, Zs). split; [left; exists a; split; [left; reflexivity|]; split; [exact K|]; split; [reflexivity|reflexivity]|].
      split; [right; split; [reflexivity|]; split; [intros o [<-|[]]; congruence|split; reflexivity]|]. split; [exact J|]. split; [reflexivity|]. split; [reflexivity|]. split; [|exact Hid].
      repeat constructor; cbn; intros X; repeat (destruct X as [X|X]; [discriminate|]); exact X.
    + exists [], (h_rows a), (T, map (fun _ => None) T, V, Zs).
      split; [right; split; [reflexivity|]; split; [intros o [<-|[]]; congruence|split; reflexivity]|].
      split; [left; exists a; split; [left; reflexivity|]; split; [exact K|]; split; [reflexivity|reflexivity]|].
      split; [apply joined_swap, J|]. split; [reflexivity|]. split; [reflexivity|]. split; [|exact Hid].
      repeat constructor; cbn; intros X; repeat (destruct X as [X|X]; [discriminate|]); exact X.
  - inversion F as [|? ? Fa F']; subst. inversion F' as [|? ? Fb _]; subst. cbn [map] in N. inversion N as [|? ? N1 _]; subst.
    assert (Nk : h_kind a <> h_kind b) by (intros E; apply N1; left; congruence). cbn [combined] in C.
    pose proof (agree_iff (h_rows a) (h_rows b) Fa Fb) as A. set (ts := fold_left _ _ _) in *. destruct (forallb _ _); [|discriminate].
    pose proof (joined_two (h_rows a) (h_rows b) Fa Fb (proj1 A eq_refl)) as J. cbv zeta in J. fold ts in J.
    set (T := time_column ts) in *. set (Va := map (value_at (h_rows a)) ts) in *. set (Vb := map (value_at (h_rows b)) ts) in *. set (Zs := map (fun t => zenith_at _ _) ts) in *.
    destruct (h_kind a) eqn:Ka, (h_kind b) eqn:Kb; try congruence.
    + assert (t = [("time", T); ("lwp", Va); ("iwv", Vb); ("zenith_angle", Zs)]) by (cbn in C; congruence). subst t.
      exists (h_rows a), (h_rows b), (T, Va, Vb, Zs). split; [left; exists a; split; [left; reflexivity|]; split; [exact Ka|]; split; reflexivity|].
      split; [left; exists b; split; [right; left; reflexivity|]; split; [exact Kb|]; split; reflexivity|]. split; [exact J|]. split; [reflexivity|]. split; [reflexivity|]. split.
      * repeat constructor; cbn; intros X; repeat (destruct X as [X|X]; [discriminate|]); exact X.
      * intros k H. apply OutputProofs.lookup_in in H. cbn [map fst In] in H. destruct H as [<-|[<-|[<-|[<-|[]]]]]; reflexivity.
    + assert (t = [("time", T); ("iwv", Va); ("lwp", Vb); ("zenith_angle", Zs)]) by (cbn in C; congruence). subst t.
      exists (h_rows b), (h_rows a), (T, Vb, Va, Zs). split; [left; exists b; split; [right; left; reflexivity|]; split; [exact Kb|]; split; reflexivity|].
      split; [left; exists a; split; [left; reflexivity|]; split; [exact Ka|]; split; reflexivity|]. split; [apply joined_swap, J|]. split; [reflexivity|]. split; [reflexivity|]. split.
      * repeat constructor; cbn; intros X; repeat (destruct X as [X|X]; [discriminate|]); exact X.
      * intros k H. apply OutputProofs.lookup_in in H. cbn [map fst In] in H. destruct H as [<-|[<-|[<-|[<-|[]]]]]; reflexivity.
Qed.
Definition tab (objs : list hobject) (s : string) : list table := match combined (grp objs s) with Ok t => [t] | Raise _ => [] end.
Definition okb (objs : list hobject) (s : string) : bool := match combined (grp objs s) with Ok t => true | Raise _ => false end.
Definition ids (objs : list hobject) (s : string) : list (string * string) :=
  if okb objs s then map (fun o => (h_stem o, h_suffix o)) (grp objs s) else [].
Lemma combine_all_spec objs names : (forall s, In s names -> (exists t, combined (grp objs s) = Ok t) \/ combined (grp objs s) = Raise ValueError) ->
  combine_all objs names = Ok (flat_map (tab objs) names, flat_map (ids objs) names).
Proof.
  induction names as [|s names IH]; intros H; [reflexivity|]. cbn [combine_all flat_map]. fold (grp objs s). unfold tab at 1, ids at 1, okb.
  rewrite (IH (fun x X => H x (or_intror X))). destruct (H s (or_introl eq_refl)) as [(t & E)|E]; rewrite E; reflexivity.
Qed.
Lemma parts_of {C} (P : string -> C -> table -> Prop) objs names : (forall s t, In s names -> combined (grp objs s) = Ok t -> exists c, P s c t) ->
  exists parts, Forall2 (fun p t => P (fst p) (snd p) t) parts (flat_map (tab objs) names) /\ map fst parts = filter (okb objs) names.
Proof.
  induction names as [|s names IH]; intros H; [exists []; split; [apply Forall2_nil|reflexivity]|].
  destruct (IH (fun x t X => H x t (or_intror X))) as (parts & P1 & P2). cbn [flat_map filter]. unfold tab at 1, okb at 1.
  destruct (combined (grp objs s)) as [t|e] eqn:E; [|exists parts; auto]. destruct (H s t (or_introl eq_refl) E) as (c & Pc).
  exists ((s, c) :: parts). split; [apply Forall2_cons; assumption|]. cbn [map fst]. rewrite P2. reflexivity.
Qed.
Lemma joined_app : forall (ls : list (list (masked Q))) a, joined (fun a b => Ok (a ++ b)) (Some a) (map Some ls) = Ok (Some (a ++ List.concat ls)).
Proof. induction ls as [|l ls IH]; intros a; cbn [map joined List.concat bind]; [rewrite app_nil_r; reflexivity|]. rewrite IH, <- app_assoc. reflexivity. Qed.
Lemma joined_app_all (ls : list (list (masked Q))) : ls <> [] -> joined (fun a b => Ok (a ++ b)) None (map Some ls) = Ok (Some (List.concat ls)).
Proof. destruct ls as [|l ls]; [congruence|]. intros _. cbn [map joined List.concat]. apply joined_app. Qed.
Lemma stack_app_ok (srcs : list table) : forall dst, exists out, stack (fun a b => Ok (a ++ b)) srcs dst = Ok out.
Proof.
  assert (G : forall (src dst : table), exists out, stack_into (fun a b => Ok (a ++ b)) src dst = Ok out).
  { induction src as [|[k v] src IH]; intros dst; cbn [stack_into]; [eexists; reflexivity|]. destruct (hidden k); [apply IH|]. destruct (lookup k dst); cbn [bind]; apply IH. }
  induction srcs as [|s srcs IH]; intros dst; cbn [stack]; [eexists; reflexivity|]. destruct (G s dst) as (d & E). rewrite E. cbn [bind]. apply IH.
Qed.
(** ** The record *)
Definition full (t : table) : table := add_missing "iwv" (add_missing "lwp" t).
Lemma add_missing_lookup k t x time : lookup "time" t = Some time ->
  lookup x (add_missing k t) = if (x =? k)%string then Some (match lookup k t with Some c => c | None => map (fun _ => None) time end) else lookup x t.
Proof.
  intros T. unfold add_missing. rewrite T. destruct (lookup k t) as [c|] eqn:K.
  - destruct (String.eqb_spec x k) as [E|N]; [subst x; exact K|reflexivity].
  - rewrite OutputProofs.set_key_lookup. destruct (x =? k)%string; reflexivity.
Qed.
Lemma add_missing_nodup k t : NoDup (map fst t) -> NoDup (map fst (add_missing k t)).
Proof. intros N. unfold add_missing. destruct (lookup k t); [exact N|apply set_key_nodup, N]. Qed.
Lemma full_lookup t time x : lookup "time" t = Some time ->
  lookup x (full t) = if (x =? "iwv")%string then Some (match lookup "iwv" t with Some c => c | None => map (fun _ => None) time end)
                      else if (x =? "lwp")%string then Some (match lookup "lwp" t with Some c => c | None => map (fun _ => None) time end) else lookup x t.
Proof.
  intros T. unfold full. rewrite (add_missing_lookup "iwv" (add_missing "lwp" t) x time), !(add_missing_lookup "lwp" t _ time) by (try rewrite (add_missing_lookup "lwp" t _ time T); exact T).
  reflexivity.
Qed.
(** Which files are used. *)
Lemma ids_in objs names s x : In (s, x) (flat_map (ids objs) names) <->
  In s names /\ okb objs s = true /\ exists o, In o objs /\ h_stem o = s /\ h_suffix o = x.
Proof.
  rewrite in_flat_map. split.
  - intros (s' & I & J). unfold ids in J. destruct (okb objs s') eqn:O; [|destruct J]. apply in_map_iff in J. destruct J as (o & E & G). apply grp_in in G.
    destruct G as (G & Es). assert (h_stem o = s /\ h_suffix o = x) as (E1 & E2) by (split; congruence). assert (s' = s) by congruence. clear Es. subst s'. split; [exact I|]. split; [exact O|]. exists o. auto.
  - intros (I & O & o & G & E1 & E2). exists s. split; [exact I|]. unfold ids. rewrite O. apply in_map_iff. exists o. split; [congruence|]. apply grp_in. auto.
Qed.
Section Day.
  Variables (epoch : Z) (expected : option Z) (files : list dir_file).
  Hypothesis D : distinct_names files.
  Let objs := flat_map (picked epoch expected) files.
  Let used := flat_map (ids objs) (stems objs).
  Lemma grp_sorted s : Forall sorted_rows (grp objs s).
  Proof.
    apply Forall_forall. intros o O. apply grp_in in O. destruct O as (O & _). apply objs_well in O. destruct O as (f & _ & _ & _ & _ & C & _). apply (contents_sorted _ _ _ _ _ C).
  Qed.
  Lemma stem_grp s : In s (stems objs) <-> grp objs s <> [].
  Proof.
    destruct (stems_spec objs) as (_ & S). rewrite S. split.
    - intros (o & O & E) G. assert (I : In o (grp objs s)) by (apply grp_in; auto). rewrite G in I. destruct I.
    - intros N. destruct (grp objs s) as [|o l] eqn:G; [congruence|]. exists o. apply grp_in. rewrite G. left. reflexivity.
  Qed.
  Lemma groups_ok s : In s (stems objs) -> (exists t, combined (grp objs s) = Ok t) \/ combined (grp objs s) = Raise ValueError.
  Proof.
    intros S. apply stem_grp in S. destruct (combined_iff _ S (grp_kinds epoch expected files s D) (grp_sorted s)) as [(H & _)|(H & _)]; auto.
  Qed.
  Lemma objects_ok : load_all epoch expected files = Ok objs -> hatpro_objects epoch expected files = Ok (flat_map (tab objs) (stems objs), used).
  Proof. intros L. unfold hatpro_objects. rewrite L. cbn [bind]. apply combine_all_spec, groups_ok. Qed.
  Lemma used_in s x : In (s, x) used <-> okb objs s = true /\ exists o, In o objs /\ h_stem o = s /\ h_suffix o = x.
  Proof.
    unfold used. rewrite ids_in. split; [tauto|]. intros (O & o & I & E1 & E2). split; [|split; [exact O|exists o; auto]]. destruct (stems_spec objs) as (_ & S). apply S. exists o. auto.
  Qed.
  Lemma okb_iff s : grp objs s <> [] -> (okb objs s = true <->
    forall a b, In a objs -> In b objs -> h_stem a = s -> h_stem b = s -> h_kind a = Lwp -> h_kind b = Iwv -> agree (h_rows a) (h_rows b)).
  Proof.
    intros Ne. unfold okb. destruct (combined_iff _ Ne (grp_kinds epoch expected files s D) (grp_sorted s)) as [((t & E) & H)|(E & a & b & A & B & Ka & Kb & N)]; unfold objs in *; rewrite E.
    - split; [|reflexivity]. intros _ a b A B Sa Sb. apply H; apply grp_in; auto.
    - split; [discriminate|]. intros H. exfalso. apply N. apply grp_in in A, B. apply H; tauto.
  Qed.
  (** Rows of a column come from a file. *)
  Lemma column_from k s rows t time col : okb objs s = true -> column_of k (grp objs s) rows t time col -> from_file epoch expected files s k used rows.
  Proof.
    intros O [(o & I & K & R & _)|(R & N & _)].
    - left. apply grp_in in I. destruct I as (I & Es). pose proof (objs_well _ _ _ _ I) as (f & F & E1 & E2 & E3 & E4 & _). exists f. split; [exact F|]. split; [congruence|].
      rewrite K in E3, E4. rewrite R in E4. split; [exact E3|]. split; [|exact E4]. apply used_in. split; [exact O|]. exists o. auto.
    - right. split; [exact R|]. intros x X Sx. apply used_in in X. destruct X as (_ & o & I & E1 & E2). apply (N o); [apply grp_in; auto|].
      pose proof (objs_well _ _ _ _ I) as (f & F & _ & E4 & E5 & _). rewrite <- E4, E2 in E5. apply kind_of_iff in E5, Sx. congruence.
  Qed.
  Definition cut (p : string -> columns -> table -> Prop) : Prop := forall s t, In s (stems objs) -> combined (grp objs s) = Ok t -> exists c, p s c t.
  Definition common (s : string) (c : columns) (t : table) : Prop :=
    (exists l i, from_file epoch expected files s Lwp used l /\ from_file epoch expected files s Iwv used i /\
      joined_files l i (c_time c) (c_lwp c) (c_iwv c) (c_zenith c)) /\ NoDup (map fst t) /\
    lookup "time" t = Some (c_time c) /\ lookup "zenith_angle" t = Some (c_zenith c) /\ lookup "lwp" t = Some (c_lwp c).
  Lemma cut_full : cut (fun s c t => common s c (full t) /\ lookup "iwv" (full t) = Some (c_iwv c)).
  Proof.
    intros s t S E. destruct (group_table _ _ (grp_kinds epoch expected files s D) (grp_sorted s) E) as (l & i & c & Cl & Ci & J & T & Z & N & _).
    assert (O : okb objs s = true) by (unfold okb, objs in *; rewrite E; reflexivity). exists c. unfold common. rewrite !(full_lookup t (c_time c) _ T). cbn [String.eqb Ascii.eqb Bool.eqb].
    split; [split; [exists l, i; split; [apply (column_from _ _ _ _ _ _ O Cl)|]; split; [apply (column_from _ _ _ _ _ _ O Ci)|exact J]|]; split; [apply add_missing_nodup, add_missing_nodup, N|]; split; [exact T|]; split; [exact Z|]|].
    - destruct Cl as [(o & _ & _ & _ & L)|(_ & _ & L & ->)]; cbn [variable] in L; rewrite L; reflexivity.
    - destruct Ci as [(o & _ & _ & _ & L)|(_ & _ & L & ->)]; cbn [variable] in L; rewrite L; reflexivity.
  Qed.
  Lemma cut_plain : (forall s x, In (s, x) used -> ~ suffix_of Iwv x) -> cut (fun s c t => common s c t /\ lookup "iwv" t = None).
  Proof.
    intros W s t S E. destruct (group_table _ _ (grp_kinds epoch expected files s D) (grp_sorted s) E) as (l & i & c & Cl & Ci & J & T & Z & N & _).
    assert (O : okb objs s = true) by (unfold okb, objs in *; rewrite E; reflexivity).
    assert (K : forall o, In o (grp objs s) -> h_kind o = Lwp).
    { intros o I. apply grp_in in I. destruct I as (I & Es). pose proof (objs_well _ _ _ _ I) as (f & F & _ & E4 & E5 & _). destruct (h_kind o); [reflexivity|]. exfalso.
      apply (W s (h_suffix o)); [apply used_in; split; [exact O|exists o; auto]|rewrite E4; exact E5]. }
    exists c. unfold common. split; [split; [exists l, i; split; [apply (column_from _ _ _ _ _ _ O Cl)|]; split; [apply (column_from _ _ _ _ _ _ O Ci)|exact J]|]; split; [exact N|]; split; [exact T|]; split; [exact Z|]|].
    - destruct Cl as [(o & _ & _ & _ & L)|(_ & M & _)]; [exact L|]. exfalso. apply stem_grp in S. destruct (grp objs s) as [|o r] eqn:Eg; [congruence|]. apply (M o); [fold objs; rewrite Eg; left; reflexivity|]. apply K. left. reflexivity.
    - destruct Ci as [(o & I & Ko & _)|(_ & _ & L & _)]; [|exact L]. apply K in I. congruence.
  Qed.
  Lemma parts_day (R : string -> columns -> table -> Prop) (g : table -> table) :
    cut (fun s c t => common s c (g t) /\ R s c (g t)) -> used <> [] -> forall out, stack (fun a b => Ok (a ++ b)) (map g (flat_map (tab objs) (stems objs))) [] = Ok out ->
    exists parts, day_parts epoch expected files used parts /\ parts <> [] /\ Forall2 (fun p t => R (fst p) (snd p) t) parts (map g (flat_map (tab objs) (stems objs))) /\
      lookup "time" out = Some (List.concat (map (fun p => c_time (snd p)) parts)) /\
      lookup "lwp" out = Some (List.concat (map (fun p => c_lwp (snd p)) parts)) /\
      lookup "zenith_angle" out = Some (List.concat (map (fun p => c_zenith (snd p)) parts)) /\
      (forall k, hidden k = false -> joined (fun a b => Ok (a ++ b)) None (map (lookup k) (map g (flat_map (tab objs) (stems objs)))) = Ok (lookup k out)).
  Proof.
    intros Cc Un out St. destruct (parts_of _ objs (stems objs) Cc) as (parts & F & Fs).
    assert (F' : Forall2 (fun p t => common (fst p) (snd p) t /\ R (fst p) (snd p) t) parts (map g (flat_map (tab objs) (stems objs)))).
    { clear - F. induction F; cbn [map]; [apply Forall2_nil|apply Forall2_cons; assumption]. }
    set (tabs := map g (flat_map (tab objs) (stems objs))) in *.
    assert (ND : Forall (fun d => NoDup (map fst d)) tabs). { clear - F'. induction F' as [|p t ps ts H _ IH]; [constructor|]. constructor; [|exact IH]. destruct H as ((_ & N & _) & _). exact N. }
    destruct (stack_spec _ _ ND _ _ St (NoDup_nil _)) as (_ & J & _). exists parts.
    assert (Ss : In (fst (nth 0 used ("", ""))) (map fst parts) /\ (forall s, In s (map fst parts) <-> exists x, In (s, x) used)).
    { assert (I2 : forall s, In s (map fst parts) <-> exists x, In (s, x) used).
      { intros s. rewrite Fs, filter_In. split.
        - intros (I & O). destruct (stems_spec objs) as (_ & S). apply S in I. destruct I as (o & I & E). exists (h_suffix o). apply used_in. split; [exact O|]. exists o. auto.
        - intros (x & X). apply used_in in X. destruct X as (O & o & I & E & _). split; [|exact O]. destruct (stems_spec objs) as (_ & S). apply S. exists o. auto. }
      split; [|exact I2]. apply I2. destruct used as [|[s x] u]; [congruence|]. exists x. left. reflexivity. }
    destruct Ss as (S0 & Ss). assert (Pn : parts <> []) by (intros Z; rewrite Z in S0; destruct S0).
    split; [|split; [exact Pn|split]].
    - split; [|split; [exact Ss|]].
      + rewrite Fs. pose proof (sorted_filter before (fun s => s) (okb objs) (stems objs)) as G. rewrite !map_id in G. apply G, (stems_spec objs).
      + clear - F'. induction F' as [|p t ps ts H _ IH]; constructor; [|exact IH]. destruct H as ((H & _) & _). exact H.
    - clear - F'. induction F' as [|p t ps ts H _ IH]; [apply Forall2_nil|apply Forall2_cons; [apply H|exact IH]].
    - assert (G : forall k (col : columns -> list (masked Q)), hidden k = false -> Forall2 (fun p t => lookup k t = Some (col (snd p))) parts tabs -> lookup k out = Some (List.concat (map (fun p => col (snd p)) parts))).
      { intros k col H Fk. specialize (J k H). cbn [lookup] in J. assert (E : map (lookup k) tabs = map Some (map (fun p => col (snd p)) parts)).
        { clear - Fk. induction Fk as [|p t ps ts X _ IH]; [reflexivity|]. cbn [map]. rewrite IH. f_equal. exact X. }
        rewrite E in J. rewrite joined_app_all in J by (destruct parts; [congruence|discriminate]). congruence. }
      split; [apply G; [reflexivity|]|split; [apply G; [reflexivity|]|split; [apply G; [reflexivity|]|exact J]]]; clear - F'; (induction F' as [|p t ps ts X _ IH]; [apply Forall2_nil|apply Forall2_cons; [|exact IH]]); destruct X as ((_ & _ & X1 & X2 & X3) & _); assumption.
  Qed.
End Day.
Lemma record_inv epoch expected files t used : distinct_names files -> hatpro_record epoch expected files = Ok (t, used) ->
  used = flat_map (ids (flat_map (picked epoch expected) files)) (stems (flat_map (picked epoch expected) files)) /\
  (exists s, In (s, ".LWP") used) /\
  stack (fun a b => Ok (a ++ b)) (map (fun t => if existsb (fun u => (snd u =? ".IWV")%string) used then full t else t)
     (flat_map (tab (flat_map (picked epoch expected) files)) (stems (flat_map (picked epoch expected) files)))) [] = Ok t.
Proof.
  intros D H. unfold hatpro_record in H. apply bind_ok in H. destruct H as ([objs' used'] & O & H). pose proof O as O'. unfold hatpro_objects in O'. apply bind_ok in O'. destruct O' as (l & L & _).
  pose proof (load_all_inv _ _ _ _ L) as E. subst l. rewrite (objects_ok epoch expected files D L) in O. destruct (existsb (fun u => (snd u =? ".LWP")%string) used') eqn:X; [|discriminate]. cbn [negb] in H.
  apply bind_ok in H. destruct H as (t' & St & H). assert (used' = used) by congruence. assert (t' = t) by congruence. subst t' used'.
  split; [congruence|]. split.
  - apply existsb_exists in X. destruct X as ([s x] & I & E). apply String.eqb_eq in E. cbn [snd] in E. subst x. exists s. exact I.
  - assert (E : objs' = flat_map (tab (flat_map (picked epoch expected) files)) (stems (flat_map (picked epoch expected) files))) by congruence. rewrite <- E.
    destruct (existsb (fun u => (snd u =? ".IWV")%string) used); [exact St|rewrite map_id; exact St].
Qed.
(** ** Files that agree *)
Lemma code_unique k v v' c : code k v c -> code k v' c -> v = v'.
Proof.
  intros [(-> & -> & ->)|[(-> & -> & ->)|[(-> & -> & ->)|(-> & -> & ->)]]] [(? & -> & ?)|[(? & -> & ?)|[(? & -> & ?)|(? & -> & ?)]]]; try reflexivity; try discriminate; lia.
Qed.
Lemma shows_zenith epoch expected k f rows w : contents epoch expected k f rows -> In w rows ->
  exists s, first_of_time (b_samples f) s /\ dated epoch expected s /\ w_time w = s_time s /\ forall ele, points k f s ele -> (w_zenith w == 90 - ele)%Q.
Proof.
  intros (v & c & Ec & C & _ & H & _) I. destruct (H w I) as (s & S & Ds & T & _ & _ & Z). exists s. split; [exact S|]. split; [exact Ds|]. split; [exact T|].
  intros ele (v' & c' & Ec' & C' & E). assert (c' = c) by congruence. subst c'. rewrite (code_unique _ _ _ _ C' C) in E. apply Z, E.
Qed.
Lemma sample_row epoch expected k f rows s : contents epoch expected k f rows -> first_of_time (b_samples f) s -> dated epoch expected s ->
  exists w, In w rows /\ w_time w = s_time s /\ forall ele, points k f s ele -> (w_zenith w == 90 - ele)%Q.
Proof.
  intros (v & c & Ec & C & _ & _ & H) S Ds. destruct (H s S Ds) as (w & I & T & _ & _ & Z). exists w. split; [exact I|]. split; [exact T|].
  intros ele (v' & c' & Ec' & C' & E). assert (c' = c) by congruence. subst c'. rewrite (code_unique _ _ _ _ C' C) in E. apply Z, E.
Qed.
Lemma alike_agree epoch expected fl fi l i : contents epoch expected Lwp fl l -> contents epoch expected Iwv fi i -> alike epoch expected fl fi -> agree l i.
Proof.
  intros Cl Ci A x y X Y E. destruct (shows_zenith _ _ _ _ _ _ Cl X) as (s & S & Ds & Tx & Zx). destruct (shows_zenith _ _ _ _ _ _ Ci Y) as (s' & S' & _ & Ty & Zy).
  destruct (A s s' S S' Ds) as (ele & P & P'); [congruence|]. rewrite (Zx ele P), (Zy ele P'). reflexivity.
Qed.
Lemma apart_disagree epoch expected fl fi l i : contents epoch expected Lwp fl l -> contents epoch expected Iwv fi i -> apart epoch expected fl fi -> ~ agree l i.
Proof.
  intros Cl Ci (s & s' & ele & ele' & S & S' & Ds & T & P & P' & N) A.
  assert (Ds' : dated epoch expected s') by (unfold dated in *; rewrite <- T; exact Ds).
  destruct (sample_row _ _ _ _ _ _ Cl S Ds) as (x & X & Tx & Zx). destruct (sample_row _ _ _ _ _ _ Ci S' Ds') as (y & Y & Ty & Zy).
  assert (E : w_time x = w_time y) by congruence. specialize (A x y X Y E). apply N. rewrite (Zx ele P), (Zy ele' P') in A. lra.
Qed.
Section Used.
  Variables (epoch : Z) (expected : option Z) (files : list dir_file).
  Hypothesis D : distinct_names files.
  Let objs := flat_map (picked epoch expected) files.
  Let used := flat_map (ids objs) (stems objs).
  Lemma used_candidate s x : In (s, x) used -> exists f k, candidate epoch expected files s k f /\ d_suffix f = x.
  Proof.
    intros U. apply used_in in U. destruct U as (_ & o & I & E1 & E2). pose proof (objs_well _ _ _ _ I) as (f & F & A1 & A2 & A3 & A4 & A5).
    exists f, (h_kind o). split; [|congruence]. split; [exact F|]. split; [congruence|]. auto.
  Qed.
  Lemma alike_used f k s : candidate epoch expected files s k f ->
    (forall l i, candidate epoch expected files s Lwp l -> candidate epoch expected files s Iwv i -> alike epoch expected (d_file l) (d_file i)) ->
    In (s, d_suffix f) used.
  Proof.
    intros (F & Es & K & A) H. destruct (objs_of_file epoch expected files k f F K A) as (o & I & O1 & O2 & O3 & _). fold objs in I.
    apply used_in. split; [|exists o; split; [exact I|split; congruence]].
    apply (okb_iff epoch expected files D s); [intros G; assert (X : In o (grp objs s)) by (apply grp_in; split; [exact I|congruence]); unfold objs in X; rewrite G in X; destruct X|].
    intros a b Ia Ib Sa Sb Ka Kb. pose proof (objs_well _ _ _ _ Ia) as (fa & Fa & A1 & A2 & A3 & A4 & A5). pose proof (objs_well _ _ _ _ Ib) as (fb & Fb & B1 & B2 & B3 & B4 & B5).
    rewrite Ka in A3, A4, A5. rewrite Kb in B3, B4, B5. apply (alike_agree _ _ _ _ _ _ A4 B4). apply H; (split; [assumption|]; split; [congruence|auto]).
  Qed.
  Lemma apart_unused s l i : candidate epoch expected files s Lwp l -> candidate epoch expected files s Iwv i -> apart epoch expected (d_file l) (d_file i) ->
    forall x, ~ In (s, x) used.
  Proof.
    intros (Fl & El & Kl & Al) (Fi & Ei & Ki & Ai) Ap x X. apply used_in in X. destruct X as (O & _).
    destruct (objs_of_file epoch expected files Lwp l Fl Kl Al) as (a & Ia & A1 & A2 & A3 & A4). destruct (objs_of_file epoch expected files Iwv i Fi Ki Ai) as (b & Ib & B1 & B2 & B3 & B4).
    apply (apart_disagree _ _ _ _ _ _ A4 B4 Ap). pose proof (okb_iff epoch expected files D s) as OK.
    assert (G : grp (flat_map (picked epoch expected) files) s <> []) by (intros Z; assert (X : In a (grp (flat_map (picked epoch expected) files) s)) by (apply grp_in; split; [exact Ia|congruence]); rewrite Z in X; destruct X).
    apply (proj1 (OK G) O a b Ia Ib); congruence.
  Qed.
End Used.
Lemma record_raise epoch expected files e : distinct_names files -> hatpro_record epoch expected files = Raise e ->
  (e = IndexError /\ exists f k, In f files /\ suffix_of k (d_suffix f) /\ b_code (d_file f) = None) \/
  (e = ValidTimeStampError /\ forall s, ~ In (s, ".LWP") (flat_map (ids (flat_map (picked epoch expected) files)) (stems (flat_map (picked epoch expected) files)))).
Proof.
  intros D H. unfold hatpro_record in H. destruct (load_all epoch expected files) as [l|e'] eqn:L.
  - pose proof (load_all_inv _ _ _ _ L) as E. subst l. rewrite (objects_ok epoch expected files D L) in H. cbn [bind] in H.
    match type of H with context[existsb ?p ?u] => destruct (existsb p u) eqn:X end; cbn [negb] in H.
    + match type of H with bind (stack _ ?a ?b) _ = _ => destruct (stack_app_ok a b) as (out & St); rewrite St in H end. discriminate.
    + right. split; [congruence|]. intros s I. match type of X with existsb ?p ?u = _ => assert (Y : existsb p u = true) by (apply existsb_exists; exists (s, ".LWP"); split; [exact I|reflexivity]) end. congruence.
  - unfold hatpro_objects in H. rewrite L in H. cbn [bind] in H. destruct (load_all_raise _ _ _ _ L) as (-> & X). left. split; [congruence|exact X].
Qed.
Lemma hits_unique samples s s' : first_of_time samples s -> first_of_time samples s' -> s_time s = s_time s' -> s = s'.
Proof.
  intros F F' E. apply first_of_time_iff in F, F'. destruct F as (i & I & Hi), F' as (j & J & Hj). destruct (Nat.lt_trichotomy i j) as [L|[L|L]].
  - destruct (Hj i s L I E).
  - subst j. congruence.
  - destruct (Hi j s' L J). congruence.
Qed.
Lemma concat_column (t : table) tabs (parts : list (string * columns)) (col : columns -> list (masked Q)) k :
  (forall k, hidden k = false -> joined (fun a b => Ok (a ++ b)) None (map (lookup k) tabs) = Ok (lookup k t)) -> hidden k = false -> parts <> [] ->
  Forall2 (fun p t => lookup k t = Some (col (snd p))) parts tabs -> lookup k t = Some (List.concat (map (fun p => col (snd p)) parts)).
Proof.
  intros J H Pn F. specialize (J k H). assert (E : map (lookup k) tabs = map Some (map (fun p => col (snd p)) parts)).
  { clear - F. induction F as [|p x ps ts X _ IH]; [reflexivity|]. cbn [map]. rewrite IH. f_equal. exact X. }
  rewrite E in J. rewrite joined_app_all in J by (destruct parts; [congruence|discriminate]). congruence.
Qed.
Lemma joined_lengths l i time lwp iwv zenith : joined_files l i time lwp iwv zenith ->
  length lwp = length time /\ length iwv = length time /\ length zenith = length time.
Proof.
  intros (ts & _ & _ & -> & L & I & Z). rewrite map_length. apply forall2_len in L, I, Z. auto.
Qed.
