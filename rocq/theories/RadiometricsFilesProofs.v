(** Proofs about several files of Radiometrics radiometers. *)
From Verif Require Import Base ArrayModel FillModel LayerModel GridModel OutputModel
  RadiometricsModel TimeSpec RadiometricsSpec ArrayProofs FillProofs GridProofs TimeProofs
  WeatherRadarProofs RadiometricsProofs MpProofs.
From Coq Require Import String Lqa Permutation.
Open Scope string_scope.
Open Scope nat_scope.
Open Scope list_scope.
Local Notation length := List.length (only parsing).

Section Append.
Context {P : Type}.
Definition or_nil (o : option (list P)) : list P := match o with Some l => l | None => [] end.
Lemma append_rows_lookup key (rows : list P) d k :
  lookup k (append_rows key rows d) = if String.eqb k key then Some (or_nil (lookup key d) ++ rows) else lookup k d.
Proof.
  induction d as [|[k' v] d IH]; cbn [append_rows lookup].
  - destruct (String.eqb k key); reflexivity.
  - destruct (String.eqb key k') eqn:E; cbn [lookup].
    + apply String.eqb_eq in E. subst k'. destruct (String.eqb k key) eqn:F; cbn [or_nil]; reflexivity.
    + rewrite IH. destruct (String.eqb k k') eqn:F; [|reflexivity]. apply String.eqb_eq in F. subst k'.
      rewrite String.eqb_sym, E. reflexivity.
Qed.
Lemma lookup_in {A} k (d : list (string * A)) : NoDup (map fst d) -> forall v, lookup k d = Some v <-> In (k, v) d.
Proof.
  induction d as [|[k' w] d IH]; cbn [map fst lookup In]; intros N v; [split; [discriminate|tauto]|].
  inversion N as [|? ? Nk Nd]; subst. destruct (String.eqb k k') eqn:E.
  - apply String.eqb_eq in E. subst k'. split; [intros H; left; congruence|]. intros [H|H]; [congruence|].
    exfalso. apply Nk. apply in_map_iff. exists (k, v). auto.
  - apply String.eqb_neq in E. rewrite IH by exact Nd. split; [auto|]. intros [H|H]; [congruence|exact H].
Qed.
Lemma lookup_key {A} k (d : list (string * A)) : lookup k d <> None <-> In k (map fst d).
Proof.
  induction d as [|[k' w] d IH]; cbn [map fst lookup In]; [split; [congruence|tauto]|]. destruct (String.eqb k k') eqn:E.
  - apply String.eqb_eq in E. subst k'. split; [auto|discriminate].
  - apply String.eqb_neq in E. rewrite IH. split; [auto|]. intros [X|X]; [congruence|exact X].
Qed.
Lemma append_rows_keys key (rows : list P) d : NoDup (map fst d) -> NoDup (map fst (append_rows key rows d)).
Proof.
  induction d as [|[k' v] d IH]; cbn [append_rows map fst]; intros N; [constructor; [tauto|constructor]|].
  inversion N as [|? ? Nk Nd]; subst. destruct (String.eqb key k') eqn:E; cbn [map fst]; [exact N|]. constructor; [|apply IH; exact Nd].
  intros I. apply lookup_key in I. rewrite append_rows_lookup in I. rewrite String.eqb_sym, E in I. apply lookup_key in I. contradiction.
Qed.
Lemma append_all_keys vars : forall d : list (string * list P), NoDup (map fst d) ->
  NoDup (map fst (fold_left (fun d kv => append_rows (fst kv) (snd kv) d) vars d)).
Proof. induction vars as [|[k v] vars IH]; intros d N; [exact N|]. cbn [fold_left]. apply IH. apply append_rows_keys. exact N. Qed.
Lemma append_all_lookup vars : NoDup (map fst vars) -> forall (d : list (string * list P)) k,
  lookup k (fold_left (fun d kv => append_rows (fst kv) (snd kv) d) vars d) =
  match lookup k vars with Some rows => Some (or_nil (lookup k d) ++ rows) | None => lookup k d end.
Proof.
  induction vars as [|[k' v] vars IH]; intros N d k; [reflexivity|]. cbn [fold_left fst snd lookup map] in *.
  inversion N as [|? ? Nk Nd]; subst. rewrite IH by exact Nd. rewrite append_rows_lookup.
  destruct (String.eqb k k') eqn:E; [|reflexivity]. apply String.eqb_eq in E. subst k'.
  destruct (lookup k vars) eqn:L; [|reflexivity]. exfalso. apply Nk. apply lookup_key. congruence.
Qed.

(** ** Combining *)
Variable to_float : string -> option (masked Q).
Definition joined (names : list string) (done : list (obj P)) (time : list Z) (vars : list (string * list P)) : Prop :=
  time = all_times done /\ NoDup (map fst vars) /\
  (forall k rows, lookup k vars = Some rows <-> (done <> [] /\ In k names /\ rows = all_rows k done)).
Lemma complete_lookup names (o : obj P) k : complete names o -> In k names -> exists rows, lookup k (o_vars o) = Some rows /\ length rows = length (o_time o).
Proof.
  intros (N & K & L) I. apply K in I. apply lookup_key in I. destruct (lookup k (o_vars o)) as [rows|] eqn:E; [|congruence].
  exists rows. split; [reflexivity|]. apply (L k). apply lookup_in; assumption.
Qed.
Lemma all_rows_app k (a b : list (obj P)) : all_rows k (a ++ b) = all_rows k a ++ all_rows k b.
Proof. unfold all_rows. apply flat_map_app. Qed.
Lemma all_times_app (a b : list (obj P)) : all_times (a ++ b) = all_times a ++ all_times b.
Proof. unfold all_times. apply flat_map_app. Qed.
Lemma all_rows_length names k (objs : list (obj P)) : Forall (complete names) objs -> In k names -> length (all_rows k objs) = length (all_times objs).
Proof.
  intros F I. induction F as [|o objs C _ IH]; [reflexivity|]. unfold all_rows, all_times in *. cbn [flat_map]. rewrite !app_length, IH.
  destruct (complete_lookup names o k C I) as (rows & -> & ->). reflexivity.
Qed.
Lemma add_obj_joined names ranges done st o st' : joined names done (o_time st) (o_vars st) -> complete names o ->
  add_obj ranges st o = Ok st' -> joined names (done ++ [o]) (o_time st') (o_vars st').
Proof.
  intros (T & N & L) C H. unfold add_obj in H. destruct (list_eq_dec string_dec (o_ranges o) ranges); [|discriminate].
  assert (st' = {| o_ranges := ranges; o_time := o_time st ++ o_time o;
     o_vars := fold_left (fun d kv => append_rows (fst kv) (snd kv) d) (o_vars o) (o_vars st) |}) by congruence.
  subst st'. cbn [o_time o_vars]. split; [rewrite all_times_app, T; unfold all_times; cbn [flat_map]; rewrite app_nil_r; reflexivity|].
  split; [apply append_all_keys; exact N|]. intros k rows. rewrite append_all_lookup by (apply (proj1 C)).
  rewrite all_rows_app. replace (all_rows k [o]) with (or_nil (lookup k (o_vars o))) by (unfold all_rows; cbn [flat_map]; rewrite app_nil_r; reflexivity).
  destruct (lookup k (o_vars o)) as [more|] eqn:E.
  - assert (I : In k names) by (apply (proj1 (proj2 C)), lookup_key; congruence). cbn [or_nil].
    assert (X : or_nil (lookup k (o_vars st)) = all_rows k done).
    { destruct (lookup k (o_vars st)) as [r|] eqn:F; cbn [or_nil]; [apply L in F; tauto|]. destruct done as [|o1 done]; [reflexivity|].
      assert (Y : lookup k (o_vars st) = Some (all_rows k (o1 :: done))) by (apply L; split; [discriminate|auto]). congruence. }
    rewrite X. split; [intros H'; split; [destruct done; discriminate|]; split; [exact I|congruence]|]. intros (_ & _ & ->). reflexivity.
  - assert (I : ~ In k names) by (intros I; apply (proj1 (proj2 C)) in I; apply lookup_key in I; congruence).
    rewrite L. split; intros (_ & J & _); contradiction.
Qed.
Lemma fold_joined names ranges objs : forall done st, joined names done (o_time st) (o_vars st) -> Forall (complete names) objs ->
  (forall o, In o objs -> o_ranges o = ranges) ->
  exists st', fold_result (add_obj ranges) objs st = Ok st' /\ joined names (done ++ objs) (o_time st') (o_vars st').
Proof.
  induction objs as [|o objs IH]; intros done st J F R; cbn [fold_result].
  - exists st. rewrite app_nil_r. auto.
  - inversion F as [|? ? C F']; subst.
    assert (E : exists st1, add_obj ranges st o = Ok st1).
    { unfold add_obj. destruct (list_eq_dec string_dec (o_ranges o) ranges) as [_|N]; [eauto|]. exfalso. apply N, R. left. reflexivity. }
    destruct E as [st1 E]. rewrite E. cbn [bind]. destruct (IH (done ++ [o]) st1) as (st' & E' & J').
    + eapply add_obj_joined; eassumption.
    + exact F'.
    + intros o' I. apply R. right. exact I.
    + exists st'. rewrite <- app_assoc in J'. auto.
Qed.
Lemma fold_inconsistent ranges objs : forall st : obj P, (exists o, In o objs /\ o_ranges o <> ranges) ->
  fold_result (add_obj ranges) objs st = Raise InconsistentDataError.
Proof.
  induction objs as [|o objs IH]; intros st (o' & I & N); [destruct I|]. cbn [fold_result]. unfold add_obj at 1.
  destruct (list_eq_dec string_dec (o_ranges o) ranges) as [E|_]; [|reflexivity]. cbn [bind]. apply IH.
  destruct I as [->|I]; [contradiction|]. eauto.
Qed.

Local Notation in_metres := (in_metres to_float).
Lemma forall2_self_map {A B} (f : A -> B) (R : A -> B -> Prop) l : (forall x, R x (f x)) -> Forall2 R l (map f l).
Proof. intros H. induction l; constructor; auto. Qed.
Lemma combine_ok names o0 objs altitude : Forall (complete names) (o0 :: objs) ->
  (forall o, In o objs -> o_ranges o = o_ranges o0) ->
  (o_ranges o0 <> [] -> altitude <> None) -> Forall (fun x => to_float x <> None) (o_ranges o0) ->
  exists c, combine_objs to_float (o0 :: objs) altitude = Ok c /\ joined names (o0 :: objs) (c_time c) (c_vars c) /\
    in_metres altitude (o_ranges o0) (c_range c) (c_height c).
Proof.
  intros F R Al Fl. unfold combine_objs.
  destruct (fold_joined names (o_ranges o0) (o0 :: objs) [] {| o_ranges := o_ranges o0; o_time := []; o_vars := [] |}) as (st & E & J).
  - split; [reflexivity|]. split; [constructor|]. intros k rows. cbn. split; [discriminate|]. intros (X & _). congruence.
  - exact F.
  - intros o [<-|I]; [reflexivity|apply R; exact I].
  - rewrite E. cbn [bind]. cbn [app] in J. unfold in_metres. revert Al Fl. generalize (o_ranges o0). intros ranges Al Fl.
    assert (X : exists ys, sequence (map (fun x => ok_or ValueError (to_float x)) ranges) = Ok ys /\
      Forall2 (fun text x => to_float text = Some x) ranges ys).
    { apply sequence_map_ok. intros x I. rewrite Forall_forall in Fl. specialize (Fl x I).
      destruct (to_float x) as [y|]; [exists y; auto|congruence]. }
    destruct X as (ys & Ey & Fy). destruct ranges as [|r0 ranges]; [eexists; split; [reflexivity|]; auto|].
    rewrite Ey. cbn [bind]. destruct altitude as [alt|]; [|exfalso; apply Al; [discriminate|reflexivity]]. cbn [ok_or bind].
    eexists. split; [reflexivity|]. cbn [c_time c_vars c_range c_height]. split; [exact J|].
    exists alt, (map (scale 1000) ys), (map (option_map (fun r => (r + alt)%Q)) (map (scale 1000) ys)).
    split; [reflexivity|]. split; [reflexivity|]. split; [reflexivity|]. split.
    + clear - Fy. induction Fy as [|x y xs ys H _ IH]; cbn [map]; constructor; [|exact IH]. exists y. split; [exact H|apply scale_scaled].
    + apply forall2_self_map. intros [x|]; cbn [option_map]; [reflexivity|exact I].
Qed.

(** ** Screening and sorting *)
Lemma day_of_iff t d : day_of t = d <-> on_day d t.
Proof. unfold day_of, on_day. split; [intros <-|intros H]; [|symmetry; apply Z.div_unique with (r := (t - 86400 * d)%Z); lia].
  assert (X := Z.div_mod t 86400 ltac:(lia)). assert (Y := Z.mod_pos_bound t 86400 ltac:(lia)). lia. Qed.
Lemma rows_of_all {A} (l : list A) : rows_of (seq 0 (length l)) l l.
Proof.
  split; [rewrite seq_length; reflexivity|]. intros i k H.
  assert (L : i < length l) by (rewrite <- (seq_length (length l) 0); eapply nth_error_Some_lt; exact H).
  assert (k = i). { assert (X := H). apply nth_error_nth with (d := 0) in X. rewrite seq_nth in X by exact L. lia. }
  subst k. destruct (nth_error_lt_Some l i L) as [x X]. eauto.
Qed.
Lemma joined_rows names (objs : list (obj P)) time vars : objs <> [] -> Forall (complete names) objs -> joined names objs time vars ->
  rows_are names objs (seq 0 (length (all_times objs))) time vars /\ NoDup (map fst vars).
Proof.
  intros Ne F (-> & N & L). split; [|exact N]. split; [apply rows_of_all|]. split.
  - intros k. split.
    + destruct (lookup k vars) as [r|] eqn:E; [|congruence]. intros _. apply L in E. tauto.
    + intros I E. assert (X : lookup k vars = Some (all_rows k objs)) by (apply L; auto). congruence.
  - intros k rows E. apply L in E as (_ & I & ->). rewrite <- (all_rows_length names k objs F I). apply rows_of_all.
Qed.
Lemma change_rows (f : list P -> result (list P)) vars : (forall kv, In kv vars -> exists r, f (snd kv) = Ok r) ->
  exists out, sequence (map (fun kv => bind (f (snd kv)) (fun rows => Ok (fst kv, rows))) vars) = Ok out /\
    map fst out = map fst vars /\ forall k rows, lookup k out = Some rows -> exists r, lookup k vars = Some r /\ f r = Ok rows.
Proof.
  induction vars as [|[k v] vars IH]; intros H; [exists []; split; [reflexivity|]; split; [reflexivity|discriminate]|].
  destruct (H (k, v)) as [r E]; [left; reflexivity|]. destruct IH as (out & Eo & K & L); [intros kv I; apply H; right; exact I|].
  cbn [map sequence fst snd] in *. rewrite E. cbn [bind]. rewrite Eo. cbn [bind]. exists ((k, r) :: out). split; [reflexivity|].
  cbn [map fst]. rewrite K. split; [reflexivity|]. intros k' rows. cbn [lookup]. destruct (String.eqb k' k); [|apply L].
  intros X. exists v. split; [reflexivity|]. congruence.
Qed.
Lemma select_length {A} mask (l : list A) : length mask = length l -> length (select mask l) = length (where1 mask).
Proof. intros L. apply (proj1 (select_rows mask l L)). Qed.
Lemma bind_if {A B} (b : bool) (x : A) e (f : A -> result B) :
  (if b then f x else Raise e) = bind (if b then Ok x else Raise e) f.
Proof. destruct b; reflexivity. Qed.

Lemma map_nth_seq (l : list nat) : map (fun i => nth i l 0) (seq 0 (length l)) = l.
Proof.
  apply nth_error_ext. intros k. destruct (Nat.lt_ge_cases k (length l)) as [L|L].
  - rewrite nth_error_map', nth_error_seq0 by exact L. cbn [option_map]. symmetry. apply nth_error_nth'. exact L.
  - rewrite (proj2 (nth_error_None _ _)) by (rewrite map_length, seq_length; exact L). symmetry. apply nth_error_None. exact L.
Qed.

Lemma sort_ok argsort names (objs : list (obj P)) idx (c : combined P) : sorts argsort -> rows_are names objs idx (c_time c) (c_vars c) -> NoDup (map fst (c_vars c)) ->
  exists c', sort_time argsort c = Ok c' /\ c_range c' = c_range c /\ c_height c' = c_height c /\
    exists idx', Permutation idx' idx /\ rows_are names objs idx' (c_time c') (c_vars c') /\
      StronglySorted Z.le (c_time c').
Proof.
  intros So (T & K & V) N. destruct (So (c_time c)) as [Pe Ss]. set (ind := argsort (c_time c)) in *.
  assert (B : forall i, In i ind -> i < length idx).
  { intros i I. apply (Permutation_in _ Pe) in I. apply in_seq in I. rewrite <- (proj1 T). lia. }
  assert (G : forall A (l : list A), length l = length idx -> exists out, gather l ind = Ok out /\ rows_of ind l out).
  { intros A l L. apply gather_rows_of. apply Forall_forall. intros i I. rewrite L. apply B. exact I. }
  unfold sort_time. fold ind. destruct (G _ (c_time c) (proj1 T)) as (time & Et & Rt). rewrite Et. cbn [bind].
  destruct (change_rows (fun rows => gather rows ind) (c_vars c)) as (vars & Ev & Kv & Lv).
  { intros [k v] I. apply lookup_in in I; [|exact N]. destruct (G _ v (proj1 (V k v I))) as (out & E & _). eauto. }
  rewrite Ev. cbn [bind]. eexists. split; [reflexivity|]. cbn [c_range c_height c_time c_vars]. split; [reflexivity|]. split; [reflexivity|].
  exists (map (fun i => nth i idx 0) ind). split; [|split; [split; [|split]|]].
  - assert (X := Permutation_map (fun i => nth i idx 0) Pe). rewrite (proj1 T), map_nth_seq in X. exact X.
  - eapply rows_of_trans; [exact T|exact Rt|exact B].
  - intros k. rewrite <- K. rewrite !lookup_key, Kv. reflexivity.
  - intros k rows E. apply Lv in E as (r & E & Eg). apply V in E. destruct (G _ r (proj1 E)) as (out & Eo & Ro).
    assert (out = rows) by congruence. subst out. eapply rows_of_trans; [exact E|exact Ro|exact B].
  - clear - Rt Ss. destruct Rt as [L R]. revert time L R. induction Ss as [|i ind Ss IH F]; intros [|t time] L R; cbn [length] in L; try discriminate; [constructor|].
    constructor.
    + apply IH; [lia|]. intros j k H. apply (R (Datatypes.S j) k H).
    + destruct (R 0 i eq_refl) as (x & X & Y). cbn [nth_error] in Y. assert (x = t) by congruence. subst x.
      apply Forall_forall. intros u I. apply In_nth_error in I as [j J].
      assert (Lj : j < length ind) by (apply nth_error_Some_lt in J; lia).
      destruct (nth_error_lt_Some ind j Lj) as [k K']. destruct (R (Datatypes.S j) k K') as (y & Y1 & Y2). cbn [nth_error] in Y2.
      assert (y = u) by congruence. subst y. rewrite Forall_forall in F. apply (F k (nth_error_In _ _ K') t u X Y1).
Qed.

Lemma rows_of_full {A} (l : list A) : forall out, rows_of (seq 0 (length l)) l out -> out = l.
Proof.
  intros out [L R]. rewrite seq_length in L. apply nth_error_ext. intros k. destruct (Nat.lt_ge_cases k (length l)) as [K|K].
  - destruct (R k k (nth_error_seq0 _ _ K)) as (x & X & Y). congruence.
  - rewrite (proj2 (nth_error_None l k)) by exact K. apply nth_error_None. lia.
Qed.
Lemma screen_ok names (objs : list (obj P)) d (c : combined P) : Forall (complete names) objs -> objs <> [] -> joined names objs (c_time c) (c_vars c) ->
  (exists t, In t (all_times objs) /\ on_day d t) ->
  exists c', screen_time (Some d) c = Ok (d, c') /\ c_range c' = c_range c /\ c_height c' = c_height c /\ NoDup (map fst (c_vars c')) /\
    exists idx, NoDup idx /\ (forall i, In i idx <-> exists t, nth_error (all_times objs) i = Some t /\ on_day d t) /\
      rows_are names objs idx (c_time c') (c_vars c').
Proof.
  intros F Ne (T & N & L) (t & It & D). unfold screen_time. set (mask := map (fun t => (day_of t =? d)%Z) (c_time c)).
  assert (X : existsb (fun b => b) mask = true).
  { apply existsb_exists. exists true. split; [|reflexivity]. unfold mask. rewrite T. apply in_map_iff. exists t. split; [|exact It].
    apply Z.eqb_eq, day_of_iff. exact D. }
  rewrite X. cbn [negb].
  assert (Lm : length mask = length (all_times objs)) by (unfold mask; rewrite map_length, T; reflexivity).
  destruct (change_rows (fun rows => if length rows =? length mask then Ok (select mask rows) else Raise IndexError) (c_vars c)) as (vars & Ev & Kv & Lv).
  { intros [k v] I. apply lookup_in in I; [|exact N]. apply L in I as (_ & I & E). cbn [snd]. subst v.
    rewrite (all_rows_length names k objs F I), Lm, Nat.eqb_refl. eauto. }
  replace (sequence (map _ (c_vars c))) with (Ok vars).
  2:{ rewrite <- Ev. f_equal. apply map_ext. intros [k v]. cbn [fst snd]. destruct (length v =? length mask); reflexivity. }
  cbn [bind]. eexists. split; [reflexivity|]. cbn [c_range c_height c_time c_vars]. split; [reflexivity|]. split; [reflexivity|].
  split; [rewrite Kv; exact N|]. exists (where1 mask). split; [|split; [|split; [|split]]].
  - assert (S := where1_sorted mask). clear - S. induction S as [|x l S IH Fx]; constructor; [|exact IH].
    intros I. rewrite Forall_forall in Fx. specialize (Fx x I). lia.
  - intros i. rewrite where1_in. unfold mask. rewrite nth_error_map', T. destruct (nth_error (all_times objs) i) as [u|] eqn:U; cbn [option_map].
    + split.
      * intros H. exists u. split; [reflexivity|]. apply day_of_iff, Z.eqb_eq. congruence.
      * intros (u' & E & O). assert (u' = u) by congruence. subst u'. apply day_of_iff, Z.eqb_eq in O. rewrite O. reflexivity.
    + split; [discriminate|]. intros (u' & E & _). discriminate.
  - rewrite T. apply select_rows. exact Lm.
  - intros k. rewrite lookup_key, Kv, <- lookup_key. split.
    + destruct (lookup k (c_vars c)) as [r|] eqn:E; [|congruence]. intros _. apply L in E. tauto.
    + intros I E. assert (Y : lookup k (c_vars c) = Some (all_rows k objs)) by (apply L; auto). congruence.
  - intros k rows E. apply Lv in E as (r & E & Es). apply L in E as (_ & I & ->).
    rewrite (all_rows_length names k objs F I), Lm, Nat.eqb_refl in Es. assert (rows = select mask (all_rows k objs)) by congruence. subst rows.
    apply select_rows. rewrite Lm. symmetry. apply (all_rows_length names k objs F I).
Qed.
Lemma screen_none names (objs : list (obj P)) d (c : combined P) : joined names objs (c_time c) (c_vars c) -> (forall t, In t (all_times objs) -> ~ on_day d t) ->
  screen_time (Some d) c = Raise ValidTimeStampError.
Proof.
  intros (T & _) H. unfold screen_time. replace (existsb (fun b => b) _) with false; [reflexivity|]. symmetry. apply not_true_iff_false. intros X.
  apply existsb_exists in X as (b & I & E). subst b. apply in_map_iff in I as (t & E & I). rewrite T in I. apply (H t I). apply day_of_iff, Z.eqb_eq. exact E.
Qed.

Lemma hours_ok d t0 time : on_day d t0 -> exists hours, fractional_hours (t0 :: time) = Ok hours /\ hours_since d (t0 :: time) hours.
Proof.
  intros D. unfold fractional_hours. eexists. split; [reflexivity|]. apply forall2_self_map. intros t. apply day_of_iff in D. rewrite D.
  rewrite (Z.mul_comm d). field.
Qed.
Lemma hours_range d time hours : hours_since d time hours -> (forall t, In t time -> on_day d t) -> Forall (fun h => (0 <= h < 24)%Q) hours.
Proof.
  induction 1 as [|t h time hours E _ IH]; intros D; constructor; [|apply IH; intros t' I; apply D; right; exact I].
  assert (O := D t (or_introl eq_refl)). unfold on_day in O.
  assert (A : (inject_Z 0 <= inject_Z (t - 86400 * d))%Q) by (rewrite <- Zle_Qle; lia).
  assert (B : (inject_Z (t - 86400 * d) < inject_Z 86400)%Q) by (rewrite <- Zlt_Qlt; lia).
  change (inject_Z 0) with 0%Q in A. change (inject_Z 86400) with (86400 # 1)%Q in B. split; lra.
Qed.
Local Notation combinable := (combinable to_float).
Lemma files_day argsort names altitude (o0 : obj P) objs d : sorts argsort -> combinable names altitude o0 objs ->
  (exists t, In t (all_times (o0 :: objs)) /\ on_day d t) ->
  exists w, radiometrics2nc to_float argsort (o0 :: objs) altitude (Some d) = Ok w /\ f_date w = d /\
    in_metres altitude (o_ranges o0) (f_range w) (f_height w) /\
    exists idx time, NoDup idx /\ (forall i, In i idx <-> exists t, nth_error (all_times (o0 :: objs)) i = Some t /\ on_day d t) /\
      rows_are names (o0 :: objs) idx time (f_vars w) /\ StronglySorted Z.le time /\
      hours_since d time (f_hours w) /\ Forall (fun h => (0 <= h < 24)%Q) (f_hours w).
Proof.
  intros So (F & R & Al & Fl) D. unfold radiometrics2nc.
  destruct (combine_ok names o0 objs altitude F R Al Fl) as (c & Ec & J & M). rewrite Ec. cbn [bind].
  destruct (screen_ok names (o0 :: objs) d c F ltac:(discriminate) J D) as (c1 & E1 & R1 & H1 & N1 & idx & Nd & Hi & Ra). rewrite E1. cbn [bind].
  destruct (sort_ok argsort names (o0 :: objs) idx c1 So Ra N1) as (c2 & E2 & R2 & H2 & idx' & Pe & Ra2 & Ss). rewrite E2. cbn [bind].
  assert (Hi' : forall i, In i idx' <-> exists t, nth_error (all_times (o0 :: objs)) i = Some t /\ on_day d t).
  { intros i. rewrite <- Hi. split; apply Permutation_in; [exact Pe|apply Permutation_sym; exact Pe]. }
  assert (Od : forall t, In t (c_time c2) -> on_day d t).
  { intros t I. apply In_nth_error in I as [i I]. destruct (rows_of_back _ _ _ _ _ (proj1 Ra2) I) as (k & K & E).
    apply nth_error_In in K. apply Hi' in K as (t' & E' & O). congruence. }
  destruct (c_time c2) as [|t0 ts] eqn:Et.
  { exfalso. destruct D as (t & I & O). apply In_nth_error in I as [i I].
    assert (X : In i idx') by (apply Hi'; eauto). destruct (proj1 Ra2) as [L _]. destruct idx'; [destruct X|discriminate]. }
  destruct (hours_ok d t0 ts (Od t0 (or_introl eq_refl))) as (hours & Eh & Hh). rewrite Eh. cbn [bind].
  eexists. split; [reflexivity|]. cbn [f_date f_range f_height f_vars f_hours]. split; [reflexivity|].
  split; [rewrite R2, R1, H2, H1; exact M|]. exists idx', (t0 :: ts). split; [eapply Permutation_NoDup; [apply Permutation_sym; exact Pe|exact Nd]|].
  split; [exact Hi'|]. split; [exact Ra2|]. split; [exact Ss|]. split; [exact Hh|]. eapply hours_range; [exact Hh|exact Od].
Qed.
Lemma files_none argsort names altitude (o0 : obj P) objs d : combinable names altitude o0 objs ->
  (forall t, In t (all_times (o0 :: objs)) -> ~ on_day d t) ->
  radiometrics2nc to_float argsort (o0 :: objs) altitude (Some d) = Raise ValidTimeStampError.
Proof.
  intros (F & R & Al & Fl) D. unfold radiometrics2nc.
  destruct (combine_ok names o0 objs altitude F R Al Fl) as (c & Ec & J & M). rewrite Ec. cbn [bind].
  rewrite (screen_none names (o0 :: objs) d c J D). reflexivity.
Qed.
Lemma files_inconsistent argsort altitude (o0 : obj P) objs date : (exists o, In o objs /\ o_ranges o <> o_ranges o0) ->
  radiometrics2nc to_float argsort (o0 :: objs) altitude date = Raise InconsistentDataError.
Proof.
  intros (o & I & N). unfold radiometrics2nc, combine_objs. rewrite fold_inconsistent; [reflexivity|]. exists o. split; [right; exact I|exact N].
Qed.
Lemma files_all argsort names altitude (o0 : obj P) objs t0 rest : sorts argsort -> combinable names altitude o0 objs ->
  all_times (o0 :: objs) = t0 :: rest ->
  exists w, radiometrics2nc to_float argsort (o0 :: objs) altitude None = Ok w /\ on_day (f_date w) t0 /\
    in_metres altitude (o_ranges o0) (f_range w) (f_height w) /\
    exists idx time d, Permutation idx (seq 0 (length (t0 :: rest))) /\
      rows_are names (o0 :: objs) idx time (f_vars w) /\ StronglySorted Z.le time /\
      (forall t ts, time = t :: ts -> on_day d t) /\ hours_since d time (f_hours w).
Proof.
  intros So (F & R & Al & Fl) D. unfold radiometrics2nc.
  destruct (combine_ok names o0 objs altitude F R Al Fl) as (c & Ec & J & M). rewrite Ec. cbn [bind].
  assert (Ne : o0 :: objs <> []) by discriminate.
  destruct (joined_rows names (o0 :: objs) (c_time c) (c_vars c) Ne F J) as [Ra N].
  assert (T : c_time c = t0 :: rest) by (rewrite (proj1 J); exact D).
  unfold screen_time. rewrite T. cbn [bind].
  destruct (sort_ok argsort names (o0 :: objs) _ c So Ra N) as (c2 & E2 & R2 & H2 & idx' & Pe & Ra2 & Ss). rewrite E2. cbn [bind].
  destruct (c_time c2) as [|t1 ts] eqn:Et.
  { exfalso. assert (L := proj1 (proj1 Ra2)). rewrite (Permutation_length Pe), D, seq_length in L. discriminate. }
  destruct (hours_ok (day_of t1) t1 ts (proj1 (day_of_iff t1 _) eq_refl)) as (hours & Eh & Hh). rewrite Eh. cbn [bind].
  eexists. split; [reflexivity|]. cbn [f_date f_range f_height f_vars f_hours]. split; [apply day_of_iff; reflexivity|].
  split; [rewrite R2, H2; exact M|]. exists idx', (t1 :: ts), (day_of t1). rewrite <- D. split; [exact Pe|]. split; [exact Ra2|]. split; [exact Ss|].
  split; [|exact Hh]. intros t ts' E. assert (t = t1) by congruence. subst t. apply day_of_iff. reflexivity.
Qed.
End Append.
