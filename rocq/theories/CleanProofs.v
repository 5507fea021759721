(** Proofs about the cleaning of radar data. *)
From Verif Require Import Base ArrayModel ArrayProofs FillModel FillProofs GridModel GridProofs ImageModel ImageProofs
  OutputModel OutputProofs LayerModel DropletModel DropletProofs MeltModel TelegramModel MpProofs CeiloProofs CleanModel
  CleanSpec PropertiesImage.
From Coq Require Import Qround String Lqa.
Open Scope string_scope.
Open Scope nat_scope.
Open Scope list_scope.
Local Notation length := List.length (only parsing).
Local Notation dict := OutputModel.dict (only parsing).
Local Notation shape := ImageProofs.shape (only parsing).

(** ** Shapes *)
Lemma alike_shape {A B} (m : image A) (m' : image B) : alike m m' <-> shape m = shape m'.
Proof.
  unfold alike, ImageProofs.shape. split.
  - revert m'. induction m as [|r m IH]; intros [|r' m'] [L R]; cbn [length] in L; try discriminate; [reflexivity|].
    cbn [map]. f_equal; [exact (R 0 r r' eq_refl eq_refl)|]. apply IH. split; [lia|].
    intros i x x' E E'. exact (R (S i) x x' E E').
  - intros H. split.
    + rewrite <- (map_length (@length A) m), H. apply map_length.
    + intros i r r' E E'. pose proof (nth_error_map' (@length A) m i) as N. rewrite H, nth_error_map', E, E' in N.
      cbn [option_map] in N. congruence.
Qed.
Lemma same_lengths_iff {A B} (a : image A) : forall b : image B, same_lengths a b = true <-> alike a b.
Proof.
  intros b. rewrite alike_shape. unfold ImageProofs.shape. revert b.
  induction a as [|x a IH]; intros [|y b]; cbn [same_lengths map].
  - split; reflexivity.
  - split; discriminate.
  - split; discriminate.
  - rewrite andb_true_iff, Nat.eqb_eq, IH. split; [intros [-> ->]; reflexivity|]. intros H. split; congruence.
Qed.
Lemma alike_refl {A} (m : image A) : alike m m.
Proof. apply alike_shape. reflexivity. Qed.
Lemma alike_sym {A B} (a : image A) (b : image B) : alike a b -> alike b a.
Proof. rewrite !alike_shape. congruence. Qed.
Lemma alike_trans {A B C} (a : image A) (b : image B) (c : image C) : alike a b -> alike b c -> alike a c.
Proof. rewrite !alike_shape. congruence. Qed.
Lemma alike_imapi {A B} (f : nat -> nat -> A -> B) m : alike m (imapi f m).
Proof. apply alike_shape. rewrite shape_imapi. reflexivity. Qed.
Lemma alike_imap {A B} (f : A -> B) m : alike m (imap f m).
Proof. apply alike_shape. rewrite shape_imap. reflexivity. Qed.
Lemma alike_pixel {A B} (a : image A) (b : image B) i j x : alike a b -> pixel a i j = Some x -> exists y, pixel b i j = Some y.
Proof.
  intros [L R] E. unfold pixel in *. destruct (nth_error a i) as [r|] eqn:Er; [|discriminate].
  destruct (nth_error_lt_Some b i) as [r' Er'].
  { rewrite <- L. eapply nth_error_Some_lt. exact Er. }
  rewrite Er'. apply nth_error_lt_Some. rewrite <- (R i r r' Er Er'). eapply nth_error_Some_lt. exact E.
Qed.
Lemma alike_map2 {A B C} (f : A -> B -> C) m1 m2 : alike m1 m2 -> alike m1 (map2 (map2 f) m1 m2).
Proof.
  intros [L R]. split; [rewrite map2_length; lia|]. intros i r r' E E'. rewrite nth_error_map2, E in E'.
  destruct (nth_error m2 i) as [r2|] eqn:E2; [|discriminate]. assert (r' = map2 f r r2) by congruence. subst r'.
  rewrite map2_length. rewrite <- (R i r r2 E E2). lia.
Qed.

(** ** Masking *)
Lemma imapi_masked (f : nat -> nat -> bool) (p : nat -> nat -> Prop) m :
  (forall i j x, pixel m i j = Some x -> f i j = true <-> p i j) ->
  masked_where p m (imapi (fun i j x => assign (f i j) None x) m).
Proof.
  intros H. split; [apply alike_imapi|]. intros i j x E. rewrite pixel_imapi, E. cbn [option_map]. unfold assign.
  specialize (H i j x E). destruct (f i j) eqn:F.
  - left. split; [apply H; reflexivity|reflexivity].
  - right. split; [intros P; apply H in P; discriminate|reflexivity].
Qed.
Lemma masked_where_thinned p m m' : masked_where p m m' -> thinned m m'.
Proof.
  intros [S M]. split; [exact S|]. intros i j x E. destruct (alike_pixel _ _ i j _ (alike_sym _ _ S) E) as [y Ey].
  destruct (M i j y Ey) as [[_ H]|[_ H]]; congruence.
Qed.
Lemma thinned_refl m : thinned m m.
Proof. split; [apply alike_refl|auto]. Qed.
Lemma thinned_trans a b c : thinned a b -> thinned b c -> thinned a c.
Proof. intros [S M] [S' M']. split; [eapply alike_trans; eassumption|]. auto. Qed.
Lemma masked_where_ext p q m m' : (forall i j, p i j <-> q i j) -> masked_where p m m' -> masked_where q m m'.
Proof.
  intros H [S M]. split; [exact S|]. intros i j x E. destruct (M i j x E) as [[P F]|[P F]]; [left|right]; rewrite <- H; auto.
Qed.
Lemma masked_where_none m : masked_where (fun _ _ => False) m m.
Proof. split; [apply alike_refl|]. intros i j x E. right. auto. Qed.
Lemma shown_dec m i j : shown m i j \/ ~ shown m i j.
Proof.
  destruct (pixel m i j) as [[x|]|] eqn:E; [left; exists x; exact E| |]; right; intros [y Y]; congruence.
Qed.
Lemma seen_iff m i j : shown m i j <-> pixel (seen m) i j = Some true.
Proof.
  unfold seen. rewrite pixel_imap. split.
  - intros [x ->]. reflexivity.
  - destruct (pixel m i j) as [[x|]|] eqn:E; cbn [option_map is_masked negb]; try discriminate. intros _. exists x. exact E.
Qed.
Lemma seen_b_iff m i j : seen_b m i j = true <-> shown m i j.
Proof.
  unfold seen_b. split.
  - destruct (pixel m i j) as [[x|]|] eqn:E; try discriminate. intros _. exists x. exact E.
  - intros [x ->]. reflexivity.
Qed.
Lemma get_true m i j : ImageModel.get m i j = true <-> pixel m i j = Some true.
Proof. unfold ImageModel.get. destruct (pixel m i j) as [b|]; split; intros H; congruence. Qed.

(** ** Dictionaries *)
Lemma lookup_set k (v : rvar) d x : lookup x (set_key k v d) = if String.eqb x k then Some v else lookup x d.
Proof. apply set_key_lookup. Qed.
Lemma lookup_set_same k (v : rvar) d : lookup k (set_key k v d) = Some v.
Proof. rewrite lookup_set, String.eqb_refl. reflexivity. Qed.
Lemma lookup_set_other k (v : rvar) d x : x <> k -> lookup x (set_key k v d) = lookup x d.
Proof. intros N. rewrite lookup_set. apply String.eqb_neq in N. rewrite N. reflexivity. Qed.
Lemma set_key_names k (v : rvar) d : lookup k d <> None -> map fst (set_key k v d) = map fst d.
Proof.
  induction d as [|[k' v'] d IH]; cbn [lookup set_key map fst]; [congruence|].
  destruct (String.eqb_spec k k') as [->|N]; intros H; cbn [map fst]; [reflexivity|]. rewrite IH by exact H. reflexivity.
Qed.
Lemma grid_of_ok k d m : grid_of k d = Ok m <-> lookup k d = Some (Grid m).
Proof. unfold grid_of. destruct (lookup k d) as [[x|x]|]; split; intros H; congruence. Qed.
Lemma has_iff k d : has k d = true <-> lookup k d <> None.
Proof. unfold has. destruct (lookup k d); split; congruence. Qed.

(** ** Speckle *)
Lemma vertical_masked m : masked_where (lone_in_time m) m (filter_vertical_stripes m).
Proof.
  unfold filter_vertical_stripes. split; [apply alike_imapi|]. intros i j x E. rewrite pixel_imapi, E. cbn [option_map].
  destruct x as [x|].
  2: { right. split; [|destruct (negb _); reflexivity]. intros [[y Y] _]. congruence. }
  assert (Sh : shown m i j) by (exists x; exact E).
  destruct (filter_singletons_total along_time (seen m) i j true) as [b B].
  { unfold seen. rewrite pixel_imap, E. reflexivity. }
  change (pixel (filter_x_pixels (seen m)) i j = Some b) in B. pose proof (C18_along_time _ _ _ _ B) as C.
  unfold ImageModel.get. rewrite B. rewrite <- !seen_iff in C.
  destruct b; cbn [negb]; unfold assign.
  - right. split; [|reflexivity]. intros (_ & N & P). destruct (proj1 C eq_refl) as [_ [H|(k & -> & H)]]; [auto|].
    apply seen_iff in H. replace (S k - 1) with k in P by lia. destruct P as [P|P]; [lia|auto].
  - left. split; [|reflexivity]. split; [exact Sh|]. split.
    + intros H. assert (false = true) by (apply C; auto). discriminate.
    + destruct i as [|k]; [left; reflexivity|]. right. intros H. replace (S k - 1) with k in H by lia.
      assert (false = true); [|discriminate]. apply C. split; [exact Sh|]. right. exists k. split; [reflexivity|].
      apply seen_iff. exact H.
Qed.

(** What a loop over keys does. *)
Definition on_grid (f : image (masked Q) -> image (masked Q)) (v : rvar) : rvar :=
  match v with Grid m => Grid (f m) | Flat l => Flat l end.
Lemma fold_keys (f : image (masked Q) -> image (masked Q)) keys : NoDup keys -> forall d d',
  fold_result (fun d key => if has key d then bind (grid_of key d) (fun m => Ok (set_key key (Grid (f m)) d)) else Ok d)
    keys d = Ok d' ->
  map fst d' = map fst d /\
  forall k, (In k keys -> lookup k d' = option_map (on_grid f) (lookup k d)) /\
            (~ In k keys -> lookup k d' = lookup k d).
Proof.
  induction 1 as [|key keys Nin _ IH]; intros d d'; cbn [fold_result].
  - intros H. assert (d' = d) by congruence. subst. split; [reflexivity|]. intros k. split; [intros []|reflexivity].
  - destruct (has key d) eqn:Hk.
    + destruct (grid_of key d) as [m|e] eqn:G; [|discriminate]. apply grid_of_ok in G. cbn [bind]. intros H.
      destruct (IH _ _ H) as [K L]. split.
      { rewrite K. apply set_key_names. congruence. }
      intros k. destruct (L k) as [L1 L2]. split.
      * intros [<-|I].
        -- rewrite (L2 Nin), lookup_set_same, G. reflexivity.
        -- rewrite (L1 I), lookup_set_other; [reflexivity|]. intros ->. contradiction.
      * intros N. cbn [In] in N. rewrite L2 by tauto. apply lookup_set_other. intros ->. apply N. left. reflexivity.
    + cbn [bind]. intros H. destruct (IH _ _ H) as [K L]. split; [exact K|]. intros k. destruct (L k) as [L1 L2]. split.
      * intros [<-|I]; [|exact (L1 I)]. rewrite (L2 Nin). unfold has in Hk. destruct (lookup key d); [discriminate|reflexivity].
      * intros N. cbn [In] in N. apply L2. tauto.
Qed.
Lemma fold_keys_total f keys : forall d, (forall k l, In k keys -> lookup k d <> Some (Flat l)) ->
  exists d', fold_result (fun d key => if has key d then bind (grid_of key d) (fun m => Ok (set_key key (Grid (f m)) d)) else Ok d)
    keys d = Ok d'.
Proof.
  induction keys as [|key keys IH]; intros d H; cbn [fold_result]; [eauto|].
  destruct (has key d) eqn:Hk; [|apply IH; intros k l I; apply H; right; exact I].
  unfold grid_of. destruct (lookup key d) as [[m|l]|] eqn:E.
  - cbn [bind]. apply IH. intros k l I. rewrite lookup_set. destruct (String.eqb k key); [discriminate|]. apply H. right. exact I.
  - exfalso. apply (H key l); [left; reflexivity|exact E].
  - apply has_iff in Hk. contradiction.
Qed.

(** ** First gate *)
Lemma mask_fast_masked v : masked_where (fast_first_gate v) v (map mask_fast v).
Proof.
  split.
  - split; [rewrite map_length; reflexivity|]. intros i r r' E E'. rewrite nth_error_map', E in E'. cbn [option_map] in E'.
    assert (r' = mask_fast r) by congruence. subst r'. destruct r; reflexivity.
  - intros i j x E. unfold pixel in *. rewrite nth_error_map'. unfold fast_first_gate, pixel.
    destruct (nth_error v i) as [[|y r]|] eqn:Er; cbn [option_map mask_fast]; [destruct j; discriminate| |discriminate].
    destruct j as [|j]; cbn [nth_error] in E |- *.
    + assert (y = x) by congruence. subst y. destruct x as [x|].
      * destruct (qgt x 4) eqn:G.
        -- left. apply qgt_iff in G. split; [|reflexivity]. split; [reflexivity|]. exists x. auto.
        -- right. split; [|reflexivity]. intros (_ & y & Y & L). assert (y = x) by congruence. subst y.
           apply qgt_iff in L. congruence.
      * right. split; [|reflexivity]. intros (_ & y & Y & _). congruence.
    + right. split; [|exact E]. intros [F _]. discriminate.
Qed.

(** ** Incomplete pixels *)
Lemma and_masks_ok a b g : and_masks a b = Ok g -> alike a b /\ g = map2 (map2 andb) a b.
Proof.
  unfold and_masks. destruct (same_lengths a b) eqn:S; [|discriminate]. intros H. apply same_lengths_iff in S. split; [exact S|congruence].
Qed.
Lemma and_masks_total a b : alike a b -> and_masks a b = Ok (map2 (map2 andb) a b).
Proof. intros H. apply same_lengths_iff in H. unfold and_masks. rewrite H. reflexivity. Qed.
Lemma and_pixel a b i j : alike a b ->
  (pixel (map2 (map2 andb) a b) i j = Some true <-> pixel a i j = Some true /\ pixel b i j = Some true).
Proof.
  intros S. rewrite pixel_map2. destruct (pixel a i j) as [x|] eqn:A; destruct (pixel b i j) as [y|] eqn:B; split.
  - intros H. assert (x && y = true) by congruence. apply andb_true_iff in H0. destruct H0. subst. auto.
  - intros [X Y]. assert (x = true) by congruence. assert (y = true) by congruence. subst. reflexivity.
  - discriminate.
  - intros [_ Y]. discriminate.
  - discriminate.
  - intros [X _]. discriminate.
  - discriminate.
  - intros [X _]. discriminate.
Qed.

(** The image of the good pixels. *)
Definition good_image (d : dict rvar) (good : image bool) : Prop :=
  exists z v, lookup "Z" d = Some (Grid z) /\ lookup "v" d = Some (Grid v) /\ alike z v /\ alike z good /\
    (forall l, lookup "width" d <> Some (Flat l)) /\ (forall w, lookup "width" d = Some (Grid w) -> alike z w) /\
    forall i j, pixel good i j = Some true <->
      shown z i j /\ shown v i j /\ forall w, lookup "width" d = Some (Grid w) -> shown w i j.
Definition pick_good (d : dict rvar) : result (image bool) :=
  bind (grid_of "Z" d) (fun z =>
  bind (grid_of "v" d) (fun v =>
  bind (and_masks (seen z) (seen v)) (fun good =>
  if has "width" d then bind (grid_of "width" d) (fun w => and_masks good (seen w)) else Ok good))).
Definition mask_all (good : image bool) (d : dict rvar) : result (dict rvar) :=
  sequence (map (fun kv => match snd kv with
    | Grid m => bind (mask_indices (imap negb good) m) (fun m' => Ok (fst kv, Grid m'))
    | Flat l => Ok (fst kv, Flat l)
    end) d).
Lemma remove_incomplete_split d : remove_incomplete_pixels d = bind (pick_good d) (fun good => mask_all good d).
Proof.
  unfold remove_incomplete_pixels, pick_good, mask_all.
  destruct (grid_of "Z" d) as [z|e]; [|reflexivity]. cbn [bind].
  destruct (grid_of "v" d) as [v|e]; [|reflexivity]. cbn [bind].
  destruct (and_masks (seen z) (seen v)) as [g|e]; [|reflexivity]. cbn [bind]. reflexivity.
Qed.
Lemma pick_good_iff d good : pick_good d = Ok good -> good_image d good.
Proof.
  unfold pick_good. rewrite bind_ok. intros (z & Z & H). rewrite bind_ok in H. destruct H as (v & V & H).
  rewrite bind_ok in H. destruct H as (g & G & H). apply grid_of_ok in Z, V. apply and_masks_ok in G. destruct G as [S ->].
  assert (Sz : alike z (seen z)) by apply alike_imap. assert (Sv : alike v (seen v)) by apply alike_imap.
  assert (Szv : alike z v) by (eapply alike_trans; [exact Sz|]; eapply alike_trans; [exact S|]; apply alike_sym; exact Sv).
  assert (Sg : alike z (map2 (map2 andb) (seen z) (seen v))) by (eapply alike_trans; [exact Sz|]; apply alike_map2; exact S).
  exists z, v. split; [exact Z|]. split; [exact V|]. split; [exact Szv|].
  destruct (has "width" d) eqn:Hw.
  - rewrite bind_ok in H. destruct H as (w & W & H). apply grid_of_ok in W. apply and_masks_ok in H. destruct H as [Sw ->].
    assert (S' : alike w (seen w)) by apply alike_imap.
    split; [eapply alike_trans; [exact Sg|]; apply alike_map2; exact Sw|]. split; [intros l; congruence|].
    split. { intros w' W'. assert (w' = w) by congruence. subst w'. eapply alike_trans; [exact Sg|].
      eapply alike_trans; [exact Sw|]. apply alike_sym. exact S'. }
    intros i j. rewrite (and_pixel _ _ i j Sw), (and_pixel _ _ i j S), <- !seen_iff. split.
    + intros [[A B] C]. split; [exact A|]. split; [exact B|]. intros w' W'. assert (w' = w) by congruence. subst. exact C.
    + intros (A & B & C). auto.
  - assert (good = map2 (map2 andb) (seen z) (seen v)) by congruence. subst good. split; [exact Sg|].
    assert (N : lookup "width" d = None) by (unfold has in Hw; destruct (lookup "width" d); [discriminate|reflexivity]).
    split; [intros l; congruence|]. split; [intros w; congruence|].
    intros i j. rewrite (and_pixel _ _ i j S), <- !seen_iff. split.
    + intros [A B]. split; [exact A|]. split; [exact B|]. intros w. congruence.
    + intros (A & B & _). auto.
Qed.
Lemma pick_good_total d z v : lookup "Z" d = Some (Grid z) -> lookup "v" d = Some (Grid v) -> alike z v ->
  (forall l, lookup "width" d <> Some (Flat l)) -> (forall w, lookup "width" d = Some (Grid w) -> alike z w) ->
  exists good, pick_good d = Ok good.
Proof.
  intros Z V S NF W. unfold pick_good. apply grid_of_ok in Z, V. rewrite Z, V. cbn [bind].
  assert (Sz : alike z (seen z)) by apply alike_imap. assert (Sv : alike v (seen v)) by apply alike_imap.
  assert (S1 : alike (seen z) (seen v)).
  { eapply alike_trans; [apply alike_sym; exact Sz|]. eapply alike_trans; [exact S|exact Sv]. }
  rewrite (and_masks_total _ _ S1). cbn [bind]. unfold has, grid_of.
  destruct (lookup "width" d) as [[w|l]|] eqn:E; [|exfalso; apply (NF l); reflexivity|eauto].
  cbn [bind]. rewrite and_masks_total; [eauto|].
  eapply alike_trans; [apply alike_sym, alike_map2; exact S1|]. eapply alike_trans; [apply alike_sym; exact Sz|].
  eapply alike_trans; [apply W; reflexivity|]. apply alike_imap.
Qed.
Lemma mask_indices_ok good m m' : mask_indices (imap negb good) m = Ok m' ->
  alike good m /\ masked_where (fun i j => pixel good i j <> Some true) m m'.
Proof.
  unfold mask_indices. destruct (same_lengths (imap negb good) m) eqn:S; [|discriminate]. intros H.
  assert (m' = map2 (map2 (fun b x => assign b None x)) (imap negb good) m) by congruence. subst m'. clear H.
  apply same_lengths_iff in S. assert (Sg : alike good m) by (eapply alike_trans; [apply alike_imap|exact S]).
  split; [exact Sg|]. split.
  - eapply alike_trans; [apply alike_sym; exact S|]. apply alike_map2. exact S.
  - intros i j x E. rewrite pixel_map2, pixel_imap, E. destruct (alike_pixel _ _ i j x (alike_sym _ _ Sg) E) as [b ->].
    cbn [option_map]. destruct b; cbn [negb assign]; [right|left].
    + split; [congruence|reflexivity].
    + split; [congruence|reflexivity].
Qed.
Lemma mask_indices_total good m : alike good m -> exists m', mask_indices (imap negb good) m = Ok m'.
Proof.
  intros S. unfold mask_indices. assert (E : same_lengths (imap negb good) m = true).
  { apply same_lengths_iff. eapply alike_trans; [apply alike_sym, alike_imap|exact S]. }
  rewrite E. eauto.
Qed.
Lemma mask_all_ok good d : forall d', mask_all good d = Ok d' ->
  map fst d' = map fst d /\
  forall k, match lookup k d with
    | Some (Grid m) => exists m', lookup k d' = Some (Grid m') /\ mask_indices (imap negb good) m = Ok m'
    | Some (Flat l) => lookup k d' = Some (Flat l)
    | None => lookup k d' = None
    end.
Proof.
  unfold mask_all. induction d as [|[k0 v] d IH]; intros d' H; apply sequence_iff in H; inversion H as [|? y ? ys E R]; subst.
  - split; [reflexivity|]. intros k. reflexivity.
  - apply sequence_iff in R. destruct (IH _ R) as [K L]. cbn [fst snd] in E.
    destruct v as [m|l].
    + apply bind_ok in E. destruct E as (m' & M & E). assert (y = (k0, Grid m')) by congruence. subst y.
      split; [cbn [map fst]; congruence|]. intros k. cbn [lookup]. destruct (String.eqb k k0); [eauto|apply L].
    + assert (y = (k0, Flat l)) by congruence. subst y. split; [cbn [map fst]; congruence|]. intros k. cbn [lookup].
      destruct (String.eqb k k0); [reflexivity|apply L].
Qed.
Lemma mask_all_total good d : (forall k m, In (k, Grid m) d -> alike good m) -> exists d', mask_all good d = Ok d'.
Proof.
  intros H. unfold mask_all. destruct (sequence_forall2 (fun kv : string * rvar => match snd kv with
    | Grid m => bind (mask_indices (imap negb good) m) (fun m' => Ok (fst kv, Grid m'))
    | Flat l => Ok (fst kv, Flat l)
    end) (fun _ _ => True) d) as (out & E & _); [|eauto].
  apply Forall_forall. intros [k [m|l]] I; cbn [fst snd]; [|eauto].
  destruct (mask_indices_total good m (H k m I)) as [m' ->]. cbn [bind]. eauto.
Qed.

(** ** Quartiles *)
Lemma firstn_skipn_nth (c : list nat) k : forall a, a + k <= length c ->
  firstn k (skipn a c) = map (fun e => nth (a + e) c 0) (seq 0 k).
Proof.
  intros a H. apply nth_error_ext. intros e. rewrite nth_error_map'.
  destruct (Nat.lt_ge_cases e k) as [L|L].
  - rewrite nth_error_seq0 by exact L. cbn [option_map].
    assert (F : nth_error (firstn k (skipn a c)) e = nth_error (skipn a c) e).
    { rewrite <- (firstn_skipn k (skipn a c)) at 2. symmetry. apply nth_error_app1. rewrite firstn_length, skipn_length. lia. }
    rewrite F, nth_error_skipn'. destruct (nth_error_lt_Some c (a + e)) as [x X]; [lia|]. rewrite X. f_equal.
    symmetry. apply nth_error_nth with (d := 0) in X. exact X.
  - replace (nth_error (seq 0 k) e) with (@None nat) by (symmetry; apply nth_error_None; rewrite seq_length; lia).
    apply nth_error_None. rewrite firstn_length. lia.
Qed.
Definition window (c : list nat) (i : nat) : list Q :=
  map (fun k => to_q (nth (i + k - margin) c 0)) (filter (fun k => negb (k =? margin)) (seq 0 (2 * margin + 1))).
Lemma window_around c i : 5 <= i -> i + 5 < length c -> window c i = map to_q (around c i).
Proof.
  intros H1 H2. unfold around. rewrite !firstn_skipn_nth by lia. unfold window, margin.
  cbn [seq Nat.mul Nat.add filter Nat.eqb negb map app].
  repeat (apply f_equal2; [apply (f_equal to_q); apply (f_equal (fun k => nth k c 0)); lia|]). reflexivity.
Qed.
Lemma around_length c i : 5 <= i -> i + 5 < length c -> length (around c i) = 10.
Proof. intros H1 H2. unfold around. rewrite app_length, !firstn_length, !skipn_length. lia. Qed.
Lemma to_q_le a b : (to_q a <= to_q b)%Q <-> a <= b.
Proof. unfold to_q. rewrite <- Zle_Qle. lia. Qed.
Lemma to_q_lt a b : (to_q a < to_q b)%Q <-> a < b.
Proof. unfold to_q. rewrite <- Zlt_Qlt. lia. Qed.
Lemma percentile_ten q l : length l = 10 ->
  percentile q l = let s := qsort l in
    let k := Qfloor (q * inject_Z (10 - 1)) in
    let a := nth (Z.to_nat k) s 0%Q in
    let b := nth (Nat.min (S (Z.to_nat k)) 9) s 0%Q in
    (a + (b - a) * (q * inject_Z (10 - 1) - inject_Z k))%Q.
Proof.
  intros L. unfold percentile. cbv zeta. assert (L' : length (qsort l) = 10).
  { rewrite <- L. apply Permutation_length, Permutation_sym, qsort_perm. }
  rewrite L'. reflexivity.
Qed.
Lemma quartiles_values l q1 q3 : length l = 10 ->
  (quartiles l q1 q3 <-> (q1 == percentile (1 # 4) (map to_q l) /\ q3 == percentile (3 # 4) (map to_q l))%Q).
Proof.
  intros L. assert (L' : length (map to_q l) = 10) by (rewrite map_length; exact L).
  rewrite !percentile_ten by exact L'. cbv zeta.
  change (Qfloor ((1 # 4) * inject_Z (10 - 1))) with 2%Z. change (Qfloor ((3 # 4) * inject_Z (10 - 1))) with 6%Z.
  change (Z.to_nat 2) with 2. change (Z.to_nat 6) with 6. change (Nat.min 3 9) with 3. change (Nat.min 7 9) with 7.
  set (s := qsort (map to_q l)).
  assert (P : Permutation (map to_q l) s) by apply qsort_perm.
  assert (So : forall i j x y, i <= j -> nth_error s i = Some x -> nth_error s j = Some y -> (x <= y)%Q)
    by (apply sorted_nth, qsort_sorted).
  assert (E : exists x0 x1 x2 x3 x4 x5 x6 x7 x8 x9, Permutation l [x0; x1; x2; x3; x4; x5; x6; x7; x8; x9] /\
                s = map to_q [x0; x1; x2; x3; x4; x5; x6; x7; x8; x9]).
  { apply Permutation_sym in P. destruct (Permutation_map_inv _ _ P) as (l' & Es & Pl).
    assert (Ll : length l' = 10) by (rewrite <- L; apply Permutation_length, Permutation_sym; exact Pl).
    destruct l' as [|x0 [|x1 [|x2 [|x3 [|x4 [|x5 [|x6 [|x7 [|x8 [|x9 [|? ?]]]]]]]]]]]; try discriminate Ll.
    exists x0, x1, x2, x3, x4, x5, x6, x7, x8, x9. auto. }
  destruct E as (x0 & x1 & x2 & x3 & x4 & x5 & x6 & x7 & x8 & x9 & Pl & Es).
  assert (O : x0 <= x1 /\ x1 <= x2 /\ x2 <= x3 /\ x3 <= x4 /\ x4 <= x5 /\ x5 <= x6 /\ x6 <= x7 /\ x7 <= x8 /\ x8 <= x9).
  { rewrite Es in So. repeat split; apply to_q_le; [apply (So 0 1)|apply (So 1 2)|apply (So 2 3)|apply (So 3 4)|apply (So 4 5)
      |apply (So 5 6)|apply (So 6 7)|apply (So 7 8)|apply (So 8 9)]; auto. }
  clearbody s. subst s. cbn [map nth]. clear So P.
  assert (Z2 : forall a b, (inject_Z (Z.of_nat (3 * a + b)) == 3 * to_q a + to_q b)%Q).
  { intros a b. unfold to_q. rewrite <- (inject_Z_mult 3), <- inject_Z_plus. f_equiv. lia. }
  assert (Z3 : forall a b, (inject_Z (Z.of_nat (a + 3 * b)) == to_q a + 3 * to_q b)%Q).
  { intros a b. unfold to_q. rewrite <- (inject_Z_mult 3), <- inject_Z_plus. f_equiv. lia. }
  change (inject_Z (10 - 1)) with 9%Q. change (inject_Z 2) with 2%Q. change (inject_Z 6) with 6%Q.
  unfold quartiles. split.
  - intros (y0 & y1 & y2 & y3 & y4 & y5 & y6 & y7 & y8 & y9 & Py & A1 & A2 & A3 & A4 & A5 & A6 & A7 & A8 & A9 & Q1 & Q3).
    assert (F : Forall2 Qeq (map to_q [x0; x1; x2; x3; x4; x5; x6; x7; x8; x9]) (map to_q [y0; y1; y2; y3; y4; y5; y6; y7; y8; y9])).
    { apply sorted_perm_qeq.
      - apply Permutation_map. eapply Permutation_trans; [apply Permutation_sym; exact Pl|exact Py].
      - destruct O as (B1 & B2 & B3 & B4 & B5 & B6 & B7 & B8 & B9). apply sorted_nth.
        cbn [map]. repeat (apply SSorted_cons; [|repeat (apply Forall_cons; [apply to_q_le; lia|]); apply Forall_nil]). apply SSorted_nil.
      - apply sorted_nth. cbn [map].
        repeat (apply SSorted_cons; [|repeat (apply Forall_cons; [apply to_q_le; lia|]); apply Forall_nil]). apply SSorted_nil. }
    cbn [map] in F.
    repeat match goal with H : Forall2 Qeq (_ :: _) (_ :: _) |- _ => inversion H; subst; clear H end.
    rewrite Z2 in Q1. rewrite Z3 in Q3. split; lra.
  - intros [Q1 Q3]. exists x0, x1, x2, x3, x4, x5, x6, x7, x8, x9. split; [exact Pl|].
    destruct O as (B1 & B2 & B3 & B4 & B5 & B6 & B7 & B8 & B9).
    repeat (split; [assumption|]). rewrite Z2, Z3. split; lra.
Qed.
Lemma quartiles_eq l q1 q3 p1 p3 : length l = 10 -> quartiles l q1 q3 -> quartiles l p1 p3 -> (q1 == p1 /\ q3 == p3)%Q.
Proof.
  intros L H K. apply (quartiles_values l q1 q3 L) in H. apply (quartiles_values l p1 p3 L) in K. destruct H, K. split; lra.
Qed.

Lemma qmax_lt a b x : (qmax a b < x <-> a < x /\ b < x)%Q.
Proof.
  unfold qmax. destruct (Qle_bool a b) eqn:E.
  - apply Qle_bool_iff in E. split; [intros H; split; lra|intros [_ H]; exact H].
  - assert (~ (a <= b)%Q) by (intros H; apply Qle_bool_iff in H; congruence). split; [intros G; split; lra|intros [G _]; exact G].
Qed.
Lemma in_spikes c i : In i (spike_indices c) <-> stripe c i.
Proof.
  unfold spike_indices. rewrite filter_In, in_seq. unfold margin. split.
  - intros [R Sp]. unfold stripe. split; [lia|]. split; [lia|].
    assert (Hl : length (around c i) = 10) by (apply around_length; lia).
    unfold is_spike in Sp. fold (window c i) in Sp.
    rewrite window_around in Sp by lia. cbv zeta in Sp.
    exists (percentile (1 # 4) (map to_q (around c i))), (percentile (3 # 4) (map to_q (around c i))).
    assert (Qu := proj2 (quartiles_values (around c i) (percentile (1 # 4) (map to_q (around c i))) (percentile (3 # 4) (map to_q (around c i))) Hl) (conj (Qeq_refl _) (Qeq_refl _))).
    split; [exact Qu|].
    set (q1 := percentile (1 # 4) (map to_q (around c i))) in *. set (q3 := percentile (3 # 4) (map to_q (around c i))) in *.
    clearbody q1 q3. destruct (Qeq_bool (q3 - q1) 0 && qgt q3 0) eqn:E; [discriminate Sp|].
    apply qgt_iff in Sp. rewrite qmax_lt in Sp. destruct Sp as [S1 S2]. split.
    + intros [X Y]. apply andb_false_iff in E. destruct E as [E|E].
      * assert (Qeq_bool (q3 - q1) 0 = true) by (apply Qeq_bool_iff; lra). congruence.
      * apply qgt_iff in Y. congruence.
    + exists (nth i c 0). split; [apply nth_error_nth'; lia|].
      split; [change 20%Q with (to_q 20) in S2; apply to_q_lt in S2; exact S2|]. fold (to_q (nth i c 0)).
      assert (M : (q3 - q1 <= qmax (q3 - q1) 1 /\ 1 <= qmax (q3 - q1) 1)%Q).
      { unfold qmax. destruct (Qle_bool (q3 - q1) 1) eqn:L.
        - apply Qle_bool_iff in L. split; lra.
        - assert (~ (q3 - q1 <= 1)%Q) by (intros H; apply Qle_bool_iff in H; congruence). split; lra. }
      generalize dependent (qmax (q3 - q1) 1). intros mx S1 M. split; lra.
  - intros (A & B & q1 & q3 & Qu & NE & x & X & C & D & E). split; [lia|].
    assert (Hl : length (around c i) = 10) by (apply around_length; lia).
    unfold is_spike. fold (window c i).
    rewrite window_around by lia. cbv zeta. apply (quartiles_values _ q1 q3 Hl) in Qu.
    set (p1 := percentile (1 # 4) (map to_q (around c i))) in *. set (p3 := percentile (3 # 4) (map to_q (around c i))) in *.
    clearbody p1 p3. destruct Qu as [U1 U3].
    destruct (Qeq_bool (p3 - p1) 0 && qgt p3 0) eqn:F.
    { exfalso. apply NE. apply andb_true_iff in F. destruct F as [F G]. apply Qeq_bool_iff in F. apply qgt_iff in G. split; lra. }
    apply qgt_iff. rewrite (nth_error_nth c i 0 X). fold (to_q x) in D, E. rewrite qmax_lt. split.
    + unfold qmax. destruct (Qle_bool (p3 - p1) 1); lra.
    + change 20%Q with (to_q 20). apply to_q_lt. exact C.
Qed.
Lemma stripe_dec c i : stripe c i \/ ~ stripe c i.
Proof. destruct (in_dec Nat.eq_dec i (spike_indices c)) as [H|H]; [left|right]; rewrite <- in_spikes; exact H. Qed.
Lemma in_set_iff k s : in_set k s = true <-> In k s.
Proof.
  unfold in_set. rewrite existsb_exists. split.
  - intros (x & I & E). apply Nat.eqb_eq in E. subst. exact I.
  - intros I. exists k. split; [exact I|apply Nat.eqb_refl].
Qed.
Lemma walk_down_spec s k b : walk_down s k = Some b -> b <= k /\ ~ In b s /\ forall x, b < x -> x <= k -> In x s.
Proof.
  induction k as [|k IH]; cbn [walk_down].
  - destruct (in_set 0 s) eqn:E; [discriminate|]. intros H. assert (b = 0) by congruence. subst.
    split; [lia|]. split; [rewrite <- in_set_iff; congruence|]. intros x; lia.
  - destruct (in_set (S k) s) eqn:E.
    + intros H. destruct (IH H) as (A & B & C). split; [lia|]. split; [exact B|]. intros x X Y.
      destruct (Nat.eq_dec x (S k)) as [->|N]; [apply in_set_iff; exact E|]. apply C; lia.
    + intros H. assert (b = S k) by congruence. subst. split; [lia|]. split; [rewrite <- in_set_iff; congruence|]. intros x; lia.
Qed.
Lemma walk_down_some s k : ~ In 0 s -> exists b, walk_down s k = Some b.
Proof.
  intros N. induction k as [|k IH]; cbn [walk_down].
  - destruct (in_set 0 s) eqn:E; [apply in_set_iff in E; contradiction|eauto].
  - destruct (in_set (S k) s); [exact IH|eauto].
Qed.
Lemma walk_up_spec s fuel : forall k a, walk_up s fuel k = Some a ->
  k <= a /\ a < k + fuel /\ ~ In a s /\ forall x, k <= x -> x < a -> In x s.
Proof.
  induction fuel as [|f IH]; intros k a; cbn [walk_up]; [discriminate|].
  destruct (in_set k s) eqn:E.
  - intros H. destruct (IH _ _ H) as (A & B & C & D). split; [lia|]. split; [lia|]. split; [exact C|]. intros x X Y.
    destruct (Nat.eq_dec x k) as [->|N]; [apply in_set_iff; exact E|]. apply D; lia.
  - intros H. assert (a = k) by congruence. subst. split; [lia|]. split; [lia|]. split; [rewrite <- in_set_iff; congruence|]. intros x; lia.
Qed.
Lemma walk_up_some s fuel : forall k, (exists x, k <= x /\ x < k + fuel /\ ~ In x s) -> exists a, walk_up s fuel k = Some a.
Proof.
  induction fuel as [|f IH]; intros k (x & A & B & C); [lia|]. cbn [walk_up].
  destruct (in_set k s) eqn:E; [|eauto]. apply in_set_iff in E. apply IH. exists x. split; [|split; [lia|exact C]].
  assert (x <> k) by congruence. lia.
Qed.
(** The neighbours of a stripe exist and are the nearest positions that are no stripes. *)
Lemma neighbours c i : stripe c i -> exists b a,
  below_of (spike_indices c) i = Some b /\ above_of (spike_indices c) (length c) i = Some a /\
  plain_before c i b /\ plain_after c i a.
Proof.
  intros St. pose proof St as (A & B & _).
  assert (N0 : ~ In 0 (spike_indices c)) by (rewrite in_spikes; intros (X & _); lia).
  assert (Nl : ~ In (length c - 1) (spike_indices c)) by (rewrite in_spikes; intros (_ & X & _); lia).
  destruct i as [|i]; [lia|]. cbn [below_of].
  destruct (walk_down_some (spike_indices c) i N0) as [b Hb].
  destruct (walk_up_some (spike_indices c) (length c - S (S i)) (S (S i))) as [a Ha].
  { exists (length c - 1). split; [lia|]. split; [lia|exact Nl]. }
  exists b, a. split; [exact Hb|]. split; [exact Ha|]. split.
  - destruct (walk_down_spec _ _ _ Hb) as (X & Y & W). split; [lia|]. split; [rewrite <- in_spikes; exact Y|].
    intros k K1 K2. apply in_spikes, W; lia.
  - destruct (walk_up_spec _ _ _ _ Ha) as (X & Y & W & V). split; [lia|]. split; [lia|]. split; [rewrite <- in_spikes; exact W|].
    intros k K1 K2. apply in_spikes, V; lia.
Qed.
Lemma plain_before_fun c i b b' : plain_before c i b -> plain_before c i b' -> b = b'.
Proof.
  intros (A & B & C) (A' & B' & C'). destruct (Nat.lt_trichotomy b b') as [H|[H|H]]; [|exact H|].
  - exfalso. apply B'. apply C; lia.
  - exfalso. apply B. apply C'; lia.
Qed.
Lemma plain_after_fun c i a a' : plain_after c i a -> plain_after c i a' -> a = a'.
Proof.
  intros (A & _ & B & C) (A' & _ & B' & C'). destruct (Nat.lt_trichotomy a a') as [H|[H|H]]; [|exact H|].
  - exfalso. apply B. apply C'; lia.
  - exfalso. apply B'. apply C; lia.
Qed.

(** ** Stripes *)
Lemma imapi_ext {A B} (f g : nat -> nat -> A -> B) m :
  (forall i j x, pixel m i j = Some x -> f i j x = g i j x) -> imapi f m = imapi g m.
Proof.
  intros H. apply nth_error_ext. intros i. unfold imapi. rewrite !nth_error_mapi_from. cbn [Nat.add].
  destruct (nth_error m i) as [row|] eqn:E; [|reflexivity]. cbn [option_map]. f_equal. apply nth_error_ext. intros j.
  rewrite !nth_error_mapi_from. cbn [Nat.add]. destruct (nth_error row j) as [x|] eqn:F; [|reflexivity]. cbn [option_map]. f_equal.
  apply H. unfold pixel. rewrite E. exact F.
Qed.
Lemma imapi_imapi {A B C} (f : nat -> nat -> A -> B) (g : nat -> nat -> B -> C) m :
  imapi g (imapi f m) = imapi (fun i j x => g i j (f i j x)) m.
Proof.
  apply nth_error_ext. intros i. unfold imapi. rewrite !nth_error_mapi_from. cbn [Nat.add].
  destruct (nth_error m i) as [row|]; [|reflexivity]. cbn [option_map]. f_equal. apply nth_error_ext. intros j.
  rewrite !nth_error_mapi_from. cbn [Nat.add]. destruct (nth_error row j); reflexivity.
Qed.
(** Position along the axis and along the other one. *)
Definition pos (a : axis) (i j : nat) : nat := match a with Profiles => i | Gates => j end.
Definition oth (a : axis) (i j : nat) : nat := match a with Profiles => j | Gates => i end.
Definition lone (a : axis) (s : image (masked Q)) (sp : list nat) (n ind k : nat) : bool :=
  negb (hidden_on a s (Some ind) k) && hidden_on a s (below_of sp ind) k && hidden_on a s (above_of sp n ind) k.
(** [t] with the lone pixels of [s] at the positions [l] masked. *)
Definition wipe (a : axis) (s : image (masked Q)) (sp : list nat) (n : nat) (l : list nat) (t : image (masked Q)) :=
  imapi (fun i j x => assign (in_set (pos a i j) l && lone a s sp n (pos a i j) (oth a i j)) None x) t.
Lemma wipe_nil a s sp n t : wipe a s sp n [] t = t.
Proof.
  unfold wipe. cbn [in_set existsb andb assign]. apply nth_error_ext. intros i. unfold imapi. rewrite nth_error_mapi_from. cbn [Nat.add].
  destruct (nth_error t i) as [r|]; [|reflexivity]. cbn [option_map]. f_equal. apply nth_error_ext. intros j.
  rewrite nth_error_mapi_from. destruct (nth_error r j); reflexivity.
Qed.
Lemma mask_isolated_iff a target source ind sp n d d' :
  mask_isolated a target source ind (below_of sp ind) (above_of sp n ind) d = Ok d' <->
  exists s t, lookup source d = Some (Grid s) /\ lookup target d = Some (Grid t) /\
    d' = set_key target (Grid (wipe a s sp n [ind] t)) d.
Proof.
  unfold mask_isolated. rewrite bind_ok.
  assert (W : forall s t, imapi (fun i j x => match a with
      | Profiles => assign ((i =? ind) && (negb (hidden_on a s (Some ind) j) && hidden_on a s (below_of sp ind) j && hidden_on a s (above_of sp n ind) j)) None x
      | Gates => assign ((j =? ind) && (negb (hidden_on a s (Some ind) i) && hidden_on a s (below_of sp ind) i && hidden_on a s (above_of sp n ind) i)) None x
      end) t = wipe a s sp n [ind] t).
  { intros s t. unfold wipe. apply imapi_ext. intros i j x _. unfold in_set. cbn [existsb]. rewrite orb_false_r. unfold lone.
    destruct a; cbn [pos oth].
    - destruct (Nat.eqb_spec i ind) as [->|N]; reflexivity.
    - destruct (Nat.eqb_spec j ind) as [->|N]; reflexivity. }
  split.
  - intros (s & S & H). apply bind_ok in H. destruct H as (t & T & H). apply grid_of_ok in S, T. exists s, t.
    split; [exact S|]. split; [exact T|]. cbv zeta in H. rewrite W in H. congruence.
  - intros (s & t & S & T & ->). exists s. split; [apply grid_of_ok; exact S|]. apply bind_ok. exists t.
    split; [apply grid_of_ok; exact T|]. cbv zeta. rewrite W. reflexivity.
Qed.
Lemma wipe_cons a s sp n ind l t : wipe a s sp n l (wipe a s sp n [ind] t) = wipe a s sp n (ind :: l) t.
Proof.
  unfold wipe. rewrite imapi_imapi. apply imapi_ext. intros i j x _. unfold in_set. cbn [existsb].
  rewrite orb_false_r. unfold assign. destruct (pos a i j =? ind); cbn [orb andb].
  - destruct (lone a s sp n (pos a i j) (oth a i j)); destruct (existsb (Nat.eqb (pos a i j)) l); reflexivity.
  - reflexivity.
Qed.
(** Masking at one position does not change what is lone at the others. *)
Lemma hidden_wipe a s0 sp n ind s p k : (forall q, p = Some q -> q <> ind) ->
  hidden_on a (wipe a s0 sp n [ind] s) p k = hidden_on a s p k.
Proof.
  intros N. destruct p as [q|]; [|reflexivity]. specialize (N q eq_refl). unfold hidden_on, wipe.
  destruct a; rewrite pixel_imapi; cbn [pos oth]; unfold in_set; cbn [existsb]; rewrite orb_false_r;
    destruct (Nat.eqb_spec q ind); try contradiction; cbn [andb]; unfold assign;
    [destruct (pixel s q k) as [x|]|destruct (pixel s k q) as [x|]]; reflexivity.
Qed.
Lemma wipe_same_source a sp n ind l s t : In ind sp -> ~ In ind l ->
  wipe a (wipe a s sp n [ind] s) sp n l t = wipe a s sp n l t.
Proof.
  intros I N. unfold wipe at 1 3. apply imapi_ext. intros i j x _.
  destruct (in_set (pos a i j) l) eqn:E; [|reflexivity]. apply in_set_iff in E. cbn [andb]. f_equal. unfold lone.
  rewrite !hidden_wipe; [reflexivity| | |].
  - intros q Hq. unfold above_of in Hq. destruct (walk_up_spec _ _ _ _ Hq) as (_ & _ & X & _). congruence.
  - intros q Hq. destruct (pos a i j) as [|p]; [discriminate|]. destruct (walk_down_spec _ _ _ Hq) as (_ & X & _). congruence.
  - intros q Hq. congruence.
Qed.

Lemma spikes_nodup c : NoDup (spike_indices c).
Proof. apply NoDup_filter, seq_NoDup. Qed.

(** The loop over stripes when the velocity itself is examined. *)
Lemma stripes_v a sp n l : forall d d' z v, lookup "Z" d = Some (Grid z) -> lookup "v" d = Some (Grid v) ->
  fold_result (fun d ind => mask_stripe_pixels "v" a ind (below_of sp ind) (above_of sp n ind) d) l d = Ok d' ->
  map fst d' = map fst d /\ lookup "v" d' = Some (Grid (wipe a z sp n l v)) /\ forall k, k <> "v" -> lookup k d' = lookup k d.
Proof.
  induction l as [|ind l IH]; intros d d' z v Z V; cbn [fold_result].
  - intros H. assert (d' = d) by congruence. subst. rewrite wipe_nil. auto.
  - intros H. apply bind_ok in H. destruct H as (d1 & H1 & H). unfold mask_stripe_pixels in H1. apply bind_ok in H1.
    destruct H1 as (d2 & H2 & H1). cbn [String.eqb Ascii.eqb Bool.eqb negb andb] in H1.
    assert (d2 = d1) by congruence. subst d2. apply mask_isolated_iff in H2. destruct H2 as (s & t & S & T & ->).
    assert (s = z) by congruence. assert (t = v) by congruence. subst s t.
    assert (Z1 : lookup "Z" (set_key "v" (Grid (wipe a z sp n [ind] v)) d) = Some (Grid z))
      by (rewrite lookup_set_other; [exact Z|discriminate]).
    destruct (IH _ _ z (wipe a z sp n [ind] v) Z1 (lookup_set_same _ _ _) H) as (K & L & O).
    split; [rewrite K; apply set_key_names; congruence|]. split; [rewrite L, wipe_cons; reflexivity|].
    intros k N. rewrite (O k N). apply lookup_set_other. exact N.
Qed.
Lemma stripes_v_total a sp n l : forall d z v, lookup "Z" d = Some (Grid z) -> lookup "v" d = Some (Grid v) ->
  exists d', fold_result (fun d ind => mask_stripe_pixels "v" a ind (below_of sp ind) (above_of sp n ind) d) l d = Ok d'.
Proof.
  induction l as [|ind l IH]; intros d z v Z V; cbn [fold_result]; [eauto|].
  assert (M : mask_stripe_pixels "v" a ind (below_of sp ind) (above_of sp n ind) d = Ok (set_key "v" (Grid (wipe a z sp n [ind] v)) d)).
  { unfold mask_stripe_pixels. apply bind_ok. eexists. split; [apply mask_isolated_iff; exists z, v; eauto|].
    reflexivity. }
  rewrite M. cbn [bind]. eapply IH; [|apply lookup_set_same]. rewrite lookup_set_other; [exact Z|discriminate].
Qed.
(** The same when another variable is examined. *)
Lemma stripes_other a sp n var l : var <> "v" -> var <> "Z" -> NoDup l -> (forall x, In x l -> In x sp) ->
  forall d d' z v m, lookup "Z" d = Some (Grid z) -> lookup "v" d = Some (Grid v) -> lookup var d = Some (Grid m) ->
  fold_result (fun d ind => mask_stripe_pixels var a ind (below_of sp ind) (above_of sp n ind) d) l d = Ok d' ->
  map fst d' = map fst d /\ lookup "v" d' = Some (Grid (wipe a z sp n l v)) /\ lookup var d' = Some (Grid (wipe a m sp n l m)) /\
  forall k, k <> "v" -> k <> var -> lookup k d' = lookup k d.
Proof.
  intros Nv Nz. induction 1 as [|ind l Nin ND IH]; intros Sub d d' z v m Z V M; cbn [fold_result].
  - intros H. assert (d' = d) by congruence. subst. rewrite !wipe_nil. auto.
  - intros H. apply bind_ok in H. destruct H as (d1 & H1 & H). unfold mask_stripe_pixels in H1. apply bind_ok in H1.
    destruct H1 as (d2 & H2 & H1). apply mask_isolated_iff in H2. destruct H2 as (s & t & S & T & ->).
    assert (s = z) by congruence. assert (t = v) by congruence. subst s t.
    set (d2 := set_key "v" (Grid (wipe a z sp n [ind] v)) d) in *.
    assert (M2 : lookup var d2 = Some (Grid m)) by (unfold d2; rewrite lookup_set_other; assumption).
    assert (Hv : has var d2 = true) by (apply has_iff; congruence). apply String.eqb_neq in Nv as Nv'. rewrite Nv', Hv in H1.
    cbn [negb andb] in H1. apply mask_isolated_iff in H1. destruct H1 as (s & t & S' & T' & ->).
    assert (s = m) by congruence. assert (t = m) by congruence. subst s t.
    set (d3 := set_key var (Grid (wipe a m sp n [ind] m)) d2) in *.
    assert (Z3 : lookup "Z" d3 = Some (Grid z)).
    { unfold d3. rewrite lookup_set_other by congruence. unfold d2. rewrite lookup_set_other; [exact Z|discriminate]. }
    assert (V3 : lookup "v" d3 = Some (Grid (wipe a z sp n [ind] v))).
    { unfold d3. rewrite lookup_set_other by congruence. apply lookup_set_same. }
    assert (M3 : lookup var d3 = Some (Grid (wipe a m sp n [ind] m))) by apply lookup_set_same.
    destruct (IH (fun x I => Sub x (or_intror I)) d3 d' z _ _ Z3 V3 M3 H) as (K & L & L' & O).
    split. { rewrite K. unfold d3. rewrite set_key_names by congruence. apply set_key_names. congruence. }
    split; [rewrite L, wipe_cons; reflexivity|]. split.
    { rewrite L'. rewrite wipe_same_source; [rewrite wipe_cons; reflexivity|apply Sub; left; reflexivity|exact Nin]. }
    intros k N1 N2. rewrite (O k N1 N2). unfold d3. rewrite lookup_set_other by exact N2. apply lookup_set_other. exact N1.
Qed.
Lemma stripes_other_total a sp n var l : var <> "v" -> var <> "Z" ->
  forall d z v m, lookup "Z" d = Some (Grid z) -> lookup "v" d = Some (Grid v) -> lookup var d = Some (Grid m) ->
  exists d', fold_result (fun d ind => mask_stripe_pixels var a ind (below_of sp ind) (above_of sp n ind) d) l d = Ok d'.
Proof.
  intros Nv Nz. induction l as [|ind l IH]; intros d z v m Z V M; cbn [fold_result]; [eauto|].
  set (d2 := set_key "v" (Grid (wipe a z sp n [ind] v)) d).
  assert (M2 : lookup var d2 = Some (Grid m)) by (unfold d2; rewrite lookup_set_other; assumption).
  assert (E : mask_stripe_pixels var a ind (below_of sp ind) (above_of sp n ind) d = Ok (set_key var (Grid (wipe a m sp n [ind] m)) d2)).
  { unfold mask_stripe_pixels. apply bind_ok. exists d2. split; [apply mask_isolated_iff; exists z, v; eauto|].
    assert (Hv : has var d2 = true) by (apply has_iff; congruence). apply String.eqb_neq in Nv. rewrite Nv, Hv. cbn [negb andb].
    apply mask_isolated_iff. exists m, m. auto. }
  rewrite E. cbn [bind]. eapply IH; [| |apply lookup_set_same].
  - rewrite lookup_set_other by congruence. unfold d2. rewrite lookup_set_other; [exact Z|discriminate].
  - rewrite lookup_set_other by congruence. apply lookup_set_same.
Qed.

(** What is wiped is what is cut off. *)
Definition vis (a : axis) (s : image (masked Q)) (p k : nat) : Prop :=
  match a with Profiles => shown s p k | Gates => shown s k p end.
Lemma hidden_iff a s q k : hidden_on a s (Some q) k = false <-> vis a s q k.
Proof.
  unfold hidden_on, vis, shown. destruct a; [destruct (pixel s q k) as [[x|]|]|destruct (pixel s k q) as [[x|]|]]; cbn [is_masked];
    split; try discriminate; eauto; intros [y Y]; congruence.
Qed.
Lemma lone_iff a s c p k : stripe c p ->
  (lone a s (spike_indices c) (length c) p k = true <-> cut_off c (vis a s) p k).
Proof.
  intros St. destruct (neighbours c p St) as (b & e & B & E & Pb & Pe). unfold lone. rewrite B, E.
  rewrite !andb_true_iff, negb_true_iff, hidden_iff. unfold cut_off.
  assert (H : forall q, hidden_on a s (Some q) k = true <-> ~ vis a s q k).
  { intros q. rewrite <- hidden_iff. destruct (hidden_on a s (Some q) k); split; congruence. }
  rewrite !H. split.
  - intros [[V Nb] Ne]. split; [exact St|]. split; [exact V|]. exists b, e. auto.
  - intros (_ & V & b' & e' & Pb' & Pe' & Nb & Ne). assert (b' = b) by (eapply plain_before_fun; eassumption).
    assert (e' = e) by (eapply plain_after_fun; eassumption). subst. auto.
Qed.
Lemma wipe_masked a s c t : masked_where (fun i j => cut_off c (vis a s) (pos a i j) (oth a i j)) t
  (wipe a s (spike_indices c) (length c) (spike_indices c) t).
Proof.
  unfold wipe. apply imapi_masked. intros i j x _. rewrite andb_true_iff, in_set_iff, in_spikes. split.
  - intros [St L]. apply lone_iff in L; assumption.
  - intros C. pose proof C as [St _]. split; [exact St|]. apply lone_iff; assumption.
Qed.

(** Counting. *)
Lemma count_seen m i n row : nth_error m i = Some row -> length row = n -> count row = length (filter (seen_b m i) (seq 0 n)).
Proof.
  intros E <-. unfold count.
  assert (G : forall l s, (forall j, nth_error row (s + j) = nth_error l j) ->
    length (unmasked l) = length (filter (seen_b m i) (seq s (length l)))).
  { induction l as [|x l IH]; intros s H; [reflexivity|]. cbn [length seq filter].
    pose proof (H 0) as H0. rewrite Nat.add_0_r in H0. cbn [nth_error] in H0.
    assert (Sx : seen_b m i s = match x with Some _ => true | None => false end).
    { unfold seen_b, pixel. rewrite E, H0. reflexivity. }
    rewrite Sx. assert (H' : forall j, nth_error row (S s + j) = nth_error l j).
    { intros j. replace (S s + j) with (s + S j) by lia. rewrite H. reflexivity. }
    specialize (IH (S s) H'). destruct x; cbn [unmasked length]; rewrite IH; reflexivity. }
  apply G. intros j. reflexivity.
Qed.
Lemma count_profiles n m : (forall i row, nth_error m i = Some row -> length row = n) -> count_axis Profiles m = per_profile n m.
Proof.
  intros H. unfold count_axis, per_profile. apply nth_error_ext. intros i. rewrite !nth_error_map'.
  destruct (nth_error m i) as [row|] eqn:E; cbn [option_map].
  - rewrite nth_error_seq0 by (eapply nth_error_Some_lt; exact E). cbn [option_map]. f_equal. apply count_seen; [exact E|]. exact (H i row E).
  - apply nth_error_None in E. replace (nth_error (seq 0 (length m)) i) with (@None nat); [reflexivity|].
    symmetry. apply nth_error_None. rewrite seq_length. exact E.
Qed.
Lemma count_column m j : count (column m j) = length (filter (fun i => seen_b m i j) (seq 0 (length m))).
Proof.
  unfold count.
  assert (G : forall l s, (forall i, nth_error m (s + i) = nth_error l i) ->
    length (unmasked (column l j)) = length (filter (fun i => seen_b m i j) (seq s (length l)))).
  { induction l as [|x l IH]; intros s H; [reflexivity|]. cbn [length seq filter column map].
    pose proof (H 0) as H0. rewrite Nat.add_0_r in H0. cbn [nth_error] in H0.
    assert (Sx : seen_b m s j = match nth_error x j with Some (Some _) => true | _ => false end).
    { unfold seen_b, pixel. rewrite H0. reflexivity. }
    rewrite Sx. assert (H' : forall i, nth_error m (S s + i) = nth_error l i).
    { intros i. replace (S s + i) with (s + S i) by lia. rewrite H. reflexivity. }
    specialize (IH (S s) H'). fold (column l j). destruct (nth_error x j) as [[y|]|]; cbn [unmasked length]; rewrite IH; reflexivity. }
  apply G. intros i. reflexivity.
Qed.
Lemma n_gates_sized {A} n (m : image A) : m <> [] -> (forall i row, nth_error m i = Some row -> length row = n) -> n_gates m = n.
Proof. intros N H. destruct m as [|row m]; [congruence|]. cbn [n_gates]. exact (H 0 row eq_refl). Qed.
Lemma count_gates n m : m <> [] -> (forall i row, nth_error m i = Some row -> length row = n) -> count_axis Gates m = per_gate n m.
Proof.
  intros N H. unfold count_axis, per_gate. rewrite (n_gates_sized n m N H). apply map_ext. intros j. apply count_column.
Qed.

(** ** All steps *)
Definition thinner (d d' : dict rvar) : Prop :=
  map fst d' = map fst d /\
  forall k, match lookup k d with
    | Some (Grid m) => exists m', lookup k d' = Some (Grid m') /\ thinned m m'
    | Some (Flat l) => lookup k d' = Some (Flat l)
    | None => lookup k d' = None
    end.
Lemma thinner_refl d : thinner d d.
Proof.
  split; [reflexivity|]. intros k. destruct (lookup k d) as [[m|l]|] eqn:E; [|reflexivity|reflexivity].
  exists m. split; [reflexivity|apply thinned_refl].
Qed.
Lemma thinner_trans a b c : thinner a b -> thinner b c -> thinner a c.
Proof.
  intros [K L] [K' L']. split; [congruence|]. intros k. specialize (L k). specialize (L' k).
  destruct (lookup k a) as [[m|l]|].
  - destruct L as (m' & E & T). rewrite E in L'. destruct L' as (m2 & E2 & T2). exists m2. split; [exact E2|].
    eapply thinned_trans; eassumption.
  - rewrite L in L'. exact L'.
  - rewrite L in L'. exact L'.
Qed.
Lemma thinner_one key m m' d d' : lookup key d = Some (Grid m) -> lookup key d' = Some (Grid m') -> thinned m m' ->
  map fst d' = map fst d -> (forall k, k <> key -> lookup k d' = lookup k d) -> thinner d d'.
Proof.
  intros E E' T K O. split; [exact K|]. intros k. destruct (string_dec k key) as [->|N].
  - rewrite E. eauto.
  - rewrite (O k N). destruct (lookup k d) as [[x|l]|]; [|reflexivity|reflexivity]. exists x. split; [reflexivity|apply thinned_refl].
Qed.
Lemma speckle_keys : NoDup ["Z"; "v"; "width"; "ldr"; "v_sigma"].
Proof. repeat (constructor; [cbn [In]; intros X; repeat (destruct X as [X|X]; [discriminate|]); exact X|]). constructor. Qed.
Lemma speckle_thinner d d' : filter_speckle_noise d = Ok d' -> thinner d d'.
Proof.
  intros H. destruct (fold_keys _ _ speckle_keys _ _ H) as [K L]. split; [exact K|]. intros k. destruct (L k) as [A B].
  destruct (in_dec string_dec k ["Z"; "v"; "width"; "ldr"; "v_sigma"]) as [I|I].
  - rewrite (A I). destruct (lookup k d) as [[m|l]|]; cbn [option_map on_grid]; [|reflexivity|reflexivity].
    eexists. split; [reflexivity|]. eapply masked_where_thinned, vertical_masked.
  - rewrite (B I). destruct (lookup k d) as [[x|l]|]; [|reflexivity|reflexivity]. exists x. split; [reflexivity|apply thinned_refl].
Qed.
Lemma first_gate_iff d d' : filter_1st_gate_artifact d = Ok d' <->
  exists v, lookup "v" d = Some (Grid v) /\ (forall row, In row v -> row <> []) /\ d' = set_key "v" (Grid (map mask_fast v)) d.
Proof.
  unfold filter_1st_gate_artifact. rewrite bind_ok. split.
  - intros (v & V & H). apply grid_of_ok in V. exists v. split; [exact V|].
    destruct (existsb (fun row => length row =? 0) v) eqn:E; [discriminate|]. split; [|congruence].
    intros row I ->. assert (existsb (fun row => length row =? 0) v = true); [|congruence].
    apply existsb_exists. exists []. split; [exact I|reflexivity].
  - intros (v & V & R & ->). exists v. split; [apply grid_of_ok; exact V|].
    destruct (existsb (fun row => length row =? 0) v) eqn:E; [|reflexivity]. apply existsb_exists in E.
    destruct E as (row & I & L). apply Nat.eqb_eq in L. destruct row; [|discriminate L]. exfalso. exact (R [] I eq_refl).
Qed.
Lemma first_gate_thinner d d' : filter_1st_gate_artifact d = Ok d' -> thinner d d'.
Proof.
  intros H. apply first_gate_iff in H. destruct H as (v & V & _ & ->).
  eapply thinner_one; [exact V|apply lookup_set_same| | |].
  - eapply masked_where_thinned, mask_fast_masked.
  - apply set_key_names. congruence.
  - intros k N. apply lookup_set_other. exact N.
Qed.

(** One axis of the stripe filter. *)
Lemma axis_v a data d d' z v : lookup "Z" d = Some (Grid z) -> lookup "v" d = Some (Grid v) ->
  filter_stripes_axis data "v" a d = Ok d' ->
  map fst d' = map fst d /\ (forall k, k <> "v" -> lookup k d' = lookup k d) /\
  exists v', lookup "v" d' = Some (Grid v') /\
    masked_where (fun i j => cut_off (count_axis a data) (vis a z) (pos a i j) (oth a i j)) v v'.
Proof.
  intros Z V H. unfold filter_stripes_axis in H. cbv zeta in H. destruct (stripes_v _ _ _ _ _ _ z v Z V H) as (K & L & O).
  split; [exact K|]. split; [exact O|]. eexists. split; [exact L|]. apply wipe_masked.
Qed.
Lemma axis_other a data var d d' z v m : var <> "v" -> var <> "Z" ->
  lookup "Z" d = Some (Grid z) -> lookup "v" d = Some (Grid v) -> lookup var d = Some (Grid m) ->
  filter_stripes_axis data var a d = Ok d' ->
  map fst d' = map fst d /\ (forall k, k <> "v" -> k <> var -> lookup k d' = lookup k d) /\
  exists v' m', lookup "v" d' = Some (Grid v') /\ lookup var d' = Some (Grid m') /\
    masked_where (fun i j => cut_off (count_axis a data) (vis a z) (pos a i j) (oth a i j)) v v' /\
    masked_where (fun i j => cut_off (count_axis a data) (vis a m) (pos a i j) (oth a i j)) m m'.
Proof.
  intros Nv Nz Z V M H. unfold filter_stripes_axis in H. cbv zeta in H.
  destruct (stripes_other a _ _ var (spike_indices (count_axis a data)) Nv Nz (spikes_nodup _) (fun x I => I) _ _ z v m Z V M H)
    as (K & L & L' & O).
  split; [exact K|]. split; [exact O|]. eexists. eexists. split; [exact L|]. split; [exact L'|]. split; apply wipe_masked.
Qed.
(** Profiles with at least one visible pixel. *)
Lemma with_data n m : (forall i row, nth_error m i = Some row -> length row = n) ->
  length (filter (fun c => negb (c =? 0)) (count_axis Profiles m)) = length (filter (Nat.ltb 0) (per_profile n m)).
Proof.
  intros R. rewrite (count_profiles n m R). f_equal. apply filter_ext. intros c. destruct c; reflexivity.
Qed.
Lemma stripes_v_spec d d' z v n : lookup "Z" d = Some (Grid z) -> lookup "v" d = Some (Grid v) ->
  (forall i row, nth_error v i = Some row -> length row = n) -> filter_stripes "v" d = Ok d' ->
  (length (filter (Nat.ltb 0) (per_profile n v)) < 300 /\ d' = d) \/
  (300 <= length (filter (Nat.ltb 0) (per_profile n v)) /\
   map fst d' = map fst d /\ (forall k, k <> "v" -> lookup k d' = lookup k d) /\
   exists v1 v2, lookup "v" d' = Some (Grid v2) /\
     masked_where (in_striped_profile (per_profile n v) z) v v1 /\
     masked_where (in_striped_gate (per_gate n v) z) v1 v2).
Proof.
  intros Z V R. unfold filter_stripes. assert (Hv : has "v" d = true) by (apply has_iff; congruence). rewrite Hv.
  rewrite bind_ok. intros (data & D & H). apply grid_of_ok in D. assert (data = v) by congruence. subst data.
  cbv zeta in H. rewrite (with_data n v R) in H. destruct (_ <? 300) eqn:E.
  - left. apply Nat.ltb_lt in E. split; [exact E|congruence].
  - right. apply Nat.ltb_ge in E. split; [exact E|].
    assert (Ne : v <> []) by (intros ->; cbn in E; lia).
    apply bind_ok in H. destruct H as (d1 & H1 & H2).
    destruct (axis_v _ _ _ _ z v Z V H1) as (K1 & O1 & v1 & V1 & M1).
    assert (Z1 : lookup "Z" d1 = Some (Grid z)) by (rewrite (O1 "Z"); [exact Z|discriminate]).
    destruct (axis_v _ _ _ _ z v1 Z1 V1 H2) as (K2 & O2 & v2 & V2 & M2).
    split; [congruence|]. split; [intros k N; rewrite (O2 k N); apply O1; exact N|]. exists v1, v2. split; [exact V2|].
    rewrite (count_profiles n v R) in M1. rewrite (count_gates n v Ne R) in M2. split; [exact M1|exact M2].
Qed.
Lemma stripes_other_spec var d d' z v m n : var <> "v" -> var <> "Z" ->
  lookup "Z" d = Some (Grid z) -> lookup "v" d = Some (Grid v) -> lookup var d = Some (Grid m) ->
  (forall i row, nth_error m i = Some row -> length row = n) -> filter_stripes var d = Ok d' ->
  (length (filter (Nat.ltb 0) (per_profile n m)) < 300 /\ d' = d) \/
  (300 <= length (filter (Nat.ltb 0) (per_profile n m)) /\
   map fst d' = map fst d /\ (forall k, k <> "v" -> k <> var -> lookup k d' = lookup k d) /\
   exists v1 v2 m1 m2, lookup "v" d' = Some (Grid v2) /\ lookup var d' = Some (Grid m2) /\
     masked_where (in_striped_profile (per_profile n m) z) v v1 /\
     masked_where (in_striped_gate (per_gate n m) z) v1 v2 /\
     masked_where (in_striped_profile (per_profile n m) m) m m1 /\
     masked_where (in_striped_gate (per_gate n m) m1) m1 m2).
Proof.
  intros Nv Nz Z V M R. unfold filter_stripes. assert (Hv : has var d = true) by (apply has_iff; congruence). rewrite Hv.
  rewrite bind_ok. intros (data & D & H). apply grid_of_ok in D. assert (data = m) by congruence. subst data.
  cbv zeta in H. rewrite (with_data n m R) in H. destruct (_ <? 300) eqn:E.
  - left. apply Nat.ltb_lt in E. split; [exact E|congruence].
  - right. apply Nat.ltb_ge in E. split; [exact E|].
    assert (Ne : m <> []) by (intros ->; cbn in E; lia).
    apply bind_ok in H. destruct H as (d1 & H1 & H2).
    destruct (axis_other _ _ var _ _ z v m Nv Nz Z V M H1) as (K1 & O1 & v1 & m1 & V1 & E1 & M1 & P1).
    assert (Z1 : lookup "Z" d1 = Some (Grid z)) by (rewrite (O1 "Z"); [exact Z|discriminate|congruence]).
    destruct (axis_other _ _ var _ _ z v1 m1 Nv Nz Z1 V1 E1 H2) as (K2 & O2 & v2 & m2 & V2 & E2 & M2 & P2).
    split; [congruence|]. split; [intros k N N'; rewrite (O2 k N N'); apply O1; assumption|]. exists v1, v2, m1, m2.
    split; [exact V2|]. split; [exact E2|].
    rewrite (count_profiles n m R) in M1, P1. rewrite (count_gates n m Ne R) in M2, P2. auto.
Qed.
Lemma stripes_absent var d : lookup var d = None -> filter_stripes var d = Ok d.
Proof. intros N. unfold filter_stripes, has. rewrite N. reflexivity. Qed.
Lemma stripes_total var d z v : var <> "Z" -> lookup "Z" d = Some (Grid z) -> lookup "v" d = Some (Grid v) ->
  (forall l, lookup var d <> Some (Flat l)) -> exists d', filter_stripes var d = Ok d'.
Proof.
  intros Nz Z V NF. destruct (lookup var d) as [[m|l]|] eqn:E; [|exfalso; apply (NF l); reflexivity|eexists; apply stripes_absent; exact E].
  unfold filter_stripes. assert (Hv : has var d = true) by (apply has_iff; congruence). rewrite Hv.
  assert (G : grid_of var d = Ok m) by (apply grid_of_ok; exact E). rewrite G. cbn [bind]. cbv zeta.
  destruct (_ <? 300); [eauto|]. destruct (string_dec var "v") as [->|Nv].
  - unfold filter_stripes_axis. cbv zeta. set (sp := spike_indices (count_axis Profiles m)).
    destruct (stripes_v_total Profiles sp (length (count_axis Profiles m)) sp d z v Z V) as [d1 H1].
    rewrite H1. cbn [bind]. destruct (stripes_v _ _ _ _ _ _ z v Z V H1) as (K & L & O).
    eapply stripes_v_total; [|exact L]. rewrite (O "Z"); [exact Z|discriminate].
  - unfold filter_stripes_axis. cbv zeta. set (sp := spike_indices (count_axis Profiles m)).
    destruct (stripes_other_total Profiles sp (length (count_axis Profiles m)) var sp Nv Nz d z v m Z V E) as [d1 H1].
    rewrite H1. cbn [bind].
    destruct (stripes_other Profiles sp (length (count_axis Profiles m)) var sp Nv Nz (spikes_nodup _) (fun x I => I) _ _ z v m Z V E H1)
      as (K & L & L' & O).
    eapply stripes_other_total; [exact Nv|exact Nz| |exact L|exact L']. rewrite (O "Z"); [exact Z|discriminate|congruence].
Qed.
(** The stripe filter only masks, whatever the shapes. *)
Lemma stripes_thinner var d d' z v : var <> "Z" -> lookup "Z" d = Some (Grid z) -> lookup "v" d = Some (Grid v) ->
  filter_stripes var d = Ok d' -> thinner d d'.
Proof.
  intros Nz Z V. unfold filter_stripes. destruct (has var d) eqn:Hv; [|intros H; assert (d' = d) by congruence; subst; apply thinner_refl].
  rewrite bind_ok. intros (m & M & H). apply grid_of_ok in M. cbv zeta in H.
  destruct (_ <? 300); [assert (d' = d) by congruence; subst; apply thinner_refl|].
  apply bind_ok in H. destruct H as (d1 & H1 & H2). destruct (string_dec var "v") as [->|Nv].
  - destruct (axis_v _ _ _ _ z v Z V H1) as (K1 & O1 & v1 & V1 & M1).
    assert (Z1 : lookup "Z" d1 = Some (Grid z)) by (rewrite (O1 "Z"); [exact Z|discriminate]).
    destruct (axis_v _ _ _ _ z v1 Z1 V1 H2) as (K2 & O2 & v2 & V2 & M2).
    eapply thinner_trans.
    + exact (thinner_one "v" v v1 d d1 V V1 (masked_where_thinned _ _ _ M1) K1 O1).
    + exact (thinner_one "v" v1 v2 d1 d' V1 V2 (masked_where_thinned _ _ _ M2) K2 O2).
  - assert (T : forall a d0 d0' v0 m0, lookup "Z" d0 = Some (Grid z) -> lookup "v" d0 = Some (Grid v0) -> lookup var d0 = Some (Grid m0) ->
      filter_stripes_axis m var a d0 = Ok d0' -> thinner d0 d0' /\ lookup "Z" d0' = Some (Grid z)).
    { intros a d0 d0' v0 m0 Z0 V0 M0 H0. destruct (axis_other _ _ var _ _ z v0 m0 Nv Nz Z0 V0 M0 H0) as (K1 & O1 & v1 & m1 & V1 & E1 & M1 & P1).
      split; [|rewrite (O1 "Z"); [exact Z0|discriminate|congruence]]. split; [exact K1|]. intros k.
      destruct (string_dec k "v") as [->|N1]; [rewrite V0; exists v1; split; [exact V1|eapply masked_where_thinned; exact M1]|].
      destruct (string_dec k var) as [->|N2]; [rewrite M0; exists m1; split; [exact E1|eapply masked_where_thinned; exact P1]|].
      rewrite (O1 k N1 N2). destruct (lookup k d0) as [[x|l]|]; [|reflexivity|reflexivity]. exists x. split; [reflexivity|apply thinned_refl]. }
    destruct (T _ _ _ _ _ Z V M H1) as [T1 Z1]. pose proof (proj2 T1 "v") as A. rewrite V in A. destruct A as (v1 & V1 & _).
    pose proof (proj2 T1 var) as B. rewrite M in B. destruct B as (m1 & M1 & _).
    destruct (T _ _ _ _ _ Z1 V1 M1 H2) as [T2 _]. eapply thinner_trans; eassumption.
Qed.
Lemma remove_incomplete_spec d d' : remove_incomplete_pixels d = Ok d' ->
  exists z v, lookup "Z" d = Some (Grid z) /\ lookup "v" d = Some (Grid v) /\ map fst d' = map fst d /\
  forall k, match lookup k d with
    | Some (Grid m) => exists m', lookup k d' = Some (Grid m') /\ alike z m /\
        masked_where (fun i j => ~ (shown z i j /\ shown v i j /\ forall w, lookup "width" d = Some (Grid w) -> shown w i j)) m m'
    | Some (Flat l) => lookup k d' = Some (Flat l)
    | None => lookup k d' = None
    end.
Proof.
  rewrite remove_incomplete_split, bind_ok. intros (good & G & H). apply pick_good_iff in G.
  destruct G as (z & v & Z & V & Szv & Szg & NF & W & P). exists z, v. split; [exact Z|]. split; [exact V|].
  destruct (mask_all_ok good d d' H) as [K L]. split; [exact K|]. intros k. specialize (L k).
  destruct (lookup k d) as [[m|l]|]; [|exact L|exact L]. destruct L as (m' & E & M). apply mask_indices_ok in M. destruct M as [Sg M].
  exists m'. split; [exact E|]. split; [eapply alike_trans; eassumption|]. eapply masked_where_ext; [|exact M].
  intros i j. cbv beta. rewrite P. reflexivity.
Qed.
Lemma remove_incomplete_thinner d d' : remove_incomplete_pixels d = Ok d' -> thinner d d'.
Proof.
  intros H. destruct (remove_incomplete_spec d d' H) as (z & v & Z & V & K & L). split; [exact K|]. intros k. specialize (L k).
  destruct (lookup k d) as [[m|l]|]; [|exact L|exact L]. destruct L as (m' & E & _ & M). exists m'. split; [exact E|].
  eapply masked_where_thinned. exact M.
Qed.

Lemma lookup_entry (d : dict rvar) k x : NoDup (map fst d) -> In (k, x) d -> lookup k d = Some x.
Proof.
  induction d as [|[k' x'] d IH]; cbn [map fst lookup]; intros N I; [destruct I|]. inversion N as [|? ? Nin N']; subst.
  destruct I as [E|I].
  - assert (k' = k) by congruence. assert (x' = x) by congruence. subst. rewrite String.eqb_refl. reflexivity.
  - destruct (String.eqb_spec k k') as [->|_]; [|apply IH; assumption]. exfalso. apply Nin. apply (in_map fst) in I. exact I.
Qed.
Definition is_rpg (source_type : string) : bool := existsb (fun s => contains s (lower source_type)) ["rpg"; "basta"].
(** The state before incomplete pixels are removed. *)
Lemma clean_split src d d' z v : lookup "Z" d = Some (Grid z) -> lookup "v" d = Some (Grid v) -> clean src d = Ok d' ->
  exists d1, thinner d d1 /\ remove_incomplete_pixels d1 = Ok d'.
Proof.
  intros Z V. unfold clean. fold (is_rpg src). rewrite bind_ok. intros (d0 & H0 & H). apply bind_ok in H. destruct H as (d3 & H3 & H).
  exists d3. split; [|exact H].
  assert (T0 : thinner d d0).
  { destruct (is_rpg src); [|assert (d0 = d) by congruence; subst; apply thinner_refl].
    apply bind_ok in H0. destruct H0 as (da & A & B). eapply thinner_trans; [apply speckle_thinner; exact A|apply first_gate_thinner; exact B]. }
  assert (G : forall da, thinner d da -> exists z1 v1, lookup "Z" da = Some (Grid z1) /\ lookup "v" da = Some (Grid v1)).
  { intros da [_ L]. pose proof (L "Z") as A. pose proof (L "v") as B. rewrite Z in A. rewrite V in B.
    destruct A as (z1 & A & _). destruct B as (v1 & B & _). eauto. }
  cbn [fold_result] in H3. apply bind_ok in H3. destruct H3 as (d1 & S1 & H3). apply bind_ok in H3. destruct H3 as (d2 & S2 & H3).
  apply bind_ok in H3. destruct H3 as (d4 & S3 & H3). assert (d4 = d3) by congruence. subst d4.
  destruct (G _ T0) as (z0 & v0 & Z0 & V0). assert (T1 : thinner d d1).
  { eapply thinner_trans; [exact T0|]. eapply stripes_thinner; [|exact Z0|exact V0|exact S1]. discriminate. }
  destruct (G _ T1) as (z1 & v1 & Z1 & V1). assert (T2 : thinner d d2).
  { eapply thinner_trans; [exact T1|]. eapply stripes_thinner; [|exact Z1|exact V1|exact S2]. discriminate. }
  destruct (G _ T2) as (z2 & v2 & Z2 & V2). eapply thinner_trans; [exact T2|]. eapply stripes_thinner; [|exact Z2|exact V2|exact S3]. discriminate.
Qed.
Lemma thinner_alike d d1 k m m1 : thinner d d1 -> lookup k d = Some (Grid m) -> lookup k d1 = Some (Grid m1) -> alike m m1.
Proof. intros [_ L] E E1. specialize (L k). rewrite E in L. destruct L as (m' & E' & [S _]). congruence. Qed.
Lemma thinner_grid d d1 k m1 : thinner d d1 -> lookup k d1 = Some (Grid m1) -> exists m, lookup k d = Some (Grid m).
Proof. intros [_ L] E1. specialize (L k). destruct (lookup k d) as [[m|l]|]; [eauto|congruence|congruence]. Qed.
Lemma thinner_flat d d1 k l : thinner d d1 -> lookup k d1 = Some (Flat l) -> lookup k d = Some (Flat l).
Proof.
  intros [_ L] E1. specialize (L k). destruct (lookup k d) as [[m|l']|]; [|congruence|congruence].
  destruct L as (m' & E & _). congruence.
Qed.
Lemma remove_incomplete_total d z v : NoDup (map fst d) -> lookup "Z" d = Some (Grid z) -> lookup "v" d = Some (Grid v) ->
  (forall l, lookup "width" d <> Some (Flat l)) -> (forall k m, lookup k d = Some (Grid m) -> alike z m) ->
  exists d', remove_incomplete_pixels d = Ok d'.
Proof.
  intros N Z V NF S. rewrite remove_incomplete_split.
  destruct (pick_good_total d z v Z V (S _ _ V) NF (fun w W => S _ _ W)) as [good G]. rewrite G. cbn [bind].
  apply pick_good_iff in G. destruct G as (z' & v' & Z' & V' & _ & Sg & _). assert (z' = z) by congruence. subst z'.
  apply mask_all_total. intros k m I. eapply alike_trans; [apply alike_sym; exact Sg|]. apply (S k). apply lookup_entry; assumption.
Qed.
Lemma remove_incomplete_inv d d' : remove_incomplete_pixels d = Ok d' ->
  exists z v, lookup "Z" d = Some (Grid z) /\ lookup "v" d = Some (Grid v) /\
    (forall l, lookup "width" d <> Some (Flat l)) /\ forall k m, lookup k d = Some (Grid m) -> alike z m.
Proof.
  intros H. pose proof (remove_incomplete_spec d d' H) as (z & v & Z & V & K & L). exists z, v. split; [exact Z|]. split; [exact V|].
  split.
  - rewrite remove_incomplete_split, bind_ok in H. destruct H as (good & G & _). apply pick_good_iff in G.
    destruct G as (z' & v' & Z' & V' & Szv & Szg & NF & _). exact NF.
  - intros k m E. specialize (L k). rewrite E in L. destruct L as (m' & _ & S & _). exact S.
Qed.
Lemma clean_total src d z v : NoDup (map fst d) -> lookup "Z" d = Some (Grid z) -> lookup "v" d = Some (Grid v) ->
  (forall k l, In k ["width"; "ldr"; "v_sigma"] -> lookup k d <> Some (Flat l)) ->
  (forall k m, lookup k d = Some (Grid m) -> alike z m) -> (forall row, In row z -> row <> []) ->
  exists d', clean src d = Ok d'.
Proof.
  intros N Z V NF S R. unfold clean. fold (is_rpg src).
  assert (G : forall da, thinner d da -> exists z1 v1, lookup "Z" da = Some (Grid z1) /\ lookup "v" da = Some (Grid v1)).
  { intros da [_ L]. pose proof (L "Z") as A. pose proof (L "v") as B. rewrite Z in A. rewrite V in B.
    destruct A as (z1 & A & _). destruct B as (v1 & B & _). eauto. }
  assert (F : forall da k l, thinner d da -> In k ["width"; "ldr"; "v_sigma"] -> lookup k da <> Some (Flat l)).
  { intros da k l T I E. apply (NF k l I). eapply thinner_flat; eassumption. }
  assert (H0 : exists d0, (if is_rpg src then bind (filter_speckle_noise d) filter_1st_gate_artifact else Ok d) = Ok d0 /\ thinner d d0).
  { destruct (is_rpg src); [|exists d; split; [reflexivity|apply thinner_refl]].
    destruct (fold_keys_total filter_vertical_stripes ["Z"; "v"; "width"; "ldr"; "v_sigma"] d) as [da A].
    { intros k l [<-|[<-|I]]; [congruence|congruence|]. apply NF. cbn [In] in I |- *. tauto. }
    fold (filter_speckle_noise d) in A. pose proof (speckle_thinner _ _ A) as Ta. rewrite A. cbn [bind].
    destruct (G _ Ta) as (z1 & v1 & Z1 & V1).
    assert (B : filter_1st_gate_artifact da = Ok (set_key "v" (Grid (map mask_fast v1)) da)).
    { apply first_gate_iff. exists v1. split; [exact V1|]. split; [|reflexivity]. intros row I ->.
      apply In_nth_error in I. destruct I as [i E]. pose proof (S "v" v V) as Szv. pose proof (thinner_alike _ _ _ _ _ Ta V V1) as Sv.
      pose proof (alike_trans _ _ _ Szv Sv) as [L1 L2]. destruct (nth_error_lt_Some z i) as [r Er].
      { rewrite L1. eapply nth_error_Some_lt. exact E. }
      pose proof (L2 i r [] Er E) as L3. destruct r; [|discriminate L3]. exact (R [] (nth_error_In _ _ Er) eq_refl). }
    eexists. split; [exact B|]. eapply thinner_trans; [exact Ta|apply first_gate_thinner; exact B]. }
  destruct H0 as (d0 & E0 & T0). change (list (string * rvar)) with (OutputModel.dict rvar) in E0. rewrite E0. cbn [bind fold_result].
  destruct (G _ T0) as (z0 & v0 & Z0 & V0).
  destruct (stripes_total "v" d0 z0 v0 ltac:(discriminate) Z0 V0) as [d1 H1]; [intros l; congruence|].
  assert (T1 : thinner d d1) by (eapply thinner_trans; [exact T0|]; eapply stripes_thinner; [|exact Z0|exact V0|exact H1]; discriminate).
  destruct (G _ T1) as (z1 & v1 & Z1 & V1).
  destruct (stripes_total "v_sigma" d1 z1 v1 ltac:(discriminate) Z1 V1) as [d2 H2]; [intros l; apply F; [exact T1|cbn; auto]|].
  assert (T2 : thinner d d2) by (eapply thinner_trans; [exact T1|]; eapply stripes_thinner; [|exact Z1|exact V1|exact H2]; discriminate).
  destruct (G _ T2) as (z2 & v2 & Z2 & V2).
  destruct (stripes_total "ldr" d2 z2 v2 ltac:(discriminate) Z2 V2) as [d3 H3]; [intros l; apply F; [exact T2|cbn; auto]|].
  assert (T3 : thinner d d3) by (eapply thinner_trans; [exact T2|]; eapply stripes_thinner; [|exact Z2|exact V2|exact H3]; discriminate).
  destruct (G _ T3) as (z3 & v3 & Z3 & V3).
  rewrite H1. cbn [bind]. rewrite H2. cbn [bind]. rewrite H3. cbn [bind].
  eapply remove_incomplete_total; [|exact Z3|exact V3| |].
  - rewrite (proj1 T3). exact N.
  - intros l. apply F; [exact T3|cbn; auto].
  - intros k m E. destruct (thinner_grid _ _ _ _ T3 E) as [m0 E0']. eapply alike_trans; [apply alike_sym; eapply thinner_alike; [exact T3|exact Z|exact Z3]|].
    eapply alike_trans; [exact (S k m0 E0')|]. eapply thinner_alike; eassumption.
Qed.
