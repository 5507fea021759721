(** Proofs about the netCDF cloud radars. *)
From Verif Require Import Base ArrayModel ArrayProofs GridModel GridProofs OutputModel OutputProofs ConcatProofs DropletModel DropletSpec DropletProofs SiteModel SiteSpec SiteProofs TelegramModel TelegramProofs MeltModel MeltSpec MeltImageProofs RadarSpec NwpProofs RpgProofs NcRadarModel NcRadarSpec.
From Coq Require Import Lqa Ascii String.
Open Scope string_scope.
Open Scope nat_scope.
Open Scope list_scope.
Local Notation length := List.length (only parsing).

(** ** Dictionaries *)
Lemma image_of_ok d k m : lookup k d = Some (N2 m) -> image_of d k = Ok m.
Proof. intros H. unfold image_of. replace (lookup k d) with (Some (N2 m)). reflexivity. Qed.
Lemma vector_of_ok d k l : lookup k d = Some (N1 l) -> vector_of d k = Ok l.
Proof. intros H. unfold vector_of. replace (lookup k d) with (Some (N1 l)). reflexivity. Qed.
Lemma image_of_missing d k : lookup k d = None -> image_of d k = Raise KeyError.
Proof. intros H. unfold image_of. replace (lookup k d) with (@None nvar). reflexivity. Qed.
Lemma set_lookup (d : ndict) k v x : lookup x (set_key k v d) = if String.eqb x k then Some v else lookup x d.
Proof. apply OutputProofs.set_key_lookup. Qed.
Lemma mask_one_ok key ind d m : lookup key d = Some (N2 m) -> mask_one key ind d = Ok (set_key key (N2 (mask_where ind m)) d).
Proof. intros H. unfold mask_one. rewrite (image_of_ok _ _ _ H). reflexivity. Qed.
Lemma mask_each_lookup ind d k : lookup k (mask_each ind d) = option_map (mask_var ind) (lookup k d).
Proof. exact (ConcatProofs.lookup_map _ _ (fun _ v => mask_var ind v) k d). Qed.

(** ** Images *)
Lemma sized_imap {A B} (f : A -> B) nt n m : sized nt n m -> sized nt n (imap f m).
Proof.
  intros [H1 H2]. split; [rewrite length_imap; exact H1|]. intros i row. unfold imap. rewrite nth_error_map'.
  destruct (nth_error m i) as [r|] eqn:E; cbn [option_map]; [|discriminate]. intros R.
  assert (row = map f r) by congruence. subst row. rewrite map_length. eauto.
Qed.
Lemma sized_pixel {A} nt n (m : image A) i j x : sized nt n m -> pixel m i j = Some x -> i < nt /\ j < n.
Proof.
  intros [H1 H2] P. unfold pixel in P. destruct (nth_error m i) as [row|] eqn:E; [|discriminate].
  split; [rewrite <- H1; apply nth_error_Some; congruence|]. rewrite <- (H2 _ _ E). apply nth_error_Some. congruence.
Qed.
Lemma sized_some {A} nt n (m : image A) i j : sized nt n m -> i < nt -> j < n -> exists x, pixel m i j = Some x.
Proof.
  intros [H1 H2] I J. unfold pixel. destruct (nth_error m i) as [row|] eqn:E.
  - destruct (nth_error row j) eqn:F; [eauto|]. apply nth_error_None in F. rewrite (H2 _ _ E) in F. lia.
  - apply nth_error_None in E. lia.
Qed.
Lemma map2_len {A B C} (f : A -> B -> C) : forall a b, length (map2 f a b) = Nat.min (length a) (length b).
Proof. induction a as [|x a IH]; intros [|y b]; cbn; try reflexivity. rewrite IH. reflexivity. Qed.
Lemma sized_mask nt n ind m : sized nt n ind -> sized nt n m -> sized nt n (mask_where ind m).
Proof.
  intros [H1 H2] [H3 H4]. split; [unfold mask_where; rewrite map2_len; lia|].
  intros i row E. unfold mask_where in E. rewrite map2_nth in E.
  destruct (nth_error ind i) as [r1|] eqn:E1; [|discriminate]. destruct (nth_error m i) as [r2|] eqn:E2; [|discriminate].
  assert (row = map2 hide r1 r2) by congruence. subst row. rewrite map2_len, (H2 _ _ E1), (H4 _ _ E2). lia.
Qed.
(** More is masked, the numbers stay. *)
Definition adds (nt n : nat) (bad : nat -> nat -> Prop) (m m' : image cell) : Prop :=
  sized nt n m' /\ forall i g x b, pixel m i g = Some (x, b) -> exists b', pixel m' i g = Some (x, b') /\ (b' = true <-> b = true \/ bad i g).
Definition flag (ind : image bool) (i j : nat) : Prop := pixel ind i j = Some true.
Lemma adds_mask nt n ind m : sized nt n ind -> sized nt n m -> adds nt n (flag ind) m (mask_where ind m).
Proof.
  intros Si Sm. split; [apply sized_mask; assumption|]. intros i g x b P. unfold mask_where. rewrite pixel_map2', P.
  destruct (sized_pixel _ _ _ _ _ _ Sm P) as [I G]. destruct (sized_some _ _ _ _ _ Si I G) as [f F]. unfold flag. rewrite F.
  eexists. split; [reflexivity|]. unfold hidden. cbn [snd]. rewrite orb_true_iff. split; (intros [H|H]; [left; exact H|right]); congruence.
Qed.
Lemma adds_refl nt n m : sized nt n m -> adds nt n (fun _ _ => False) m m.
Proof. intros S. split; [exact S|]. intros i g x b P. exists b. split; [exact P|]. tauto. Qed.
Lemma adds_trans nt n p q m m' m'' : adds nt n p m m' -> adds nt n q m' m'' -> adds nt n (fun i g => p i g \/ q i g) m m''.
Proof.
  intros [_ H1] [S H2]. split; [exact S|]. intros i g x b P. destruct (H1 _ _ _ _ P) as (b1 & P1 & I1).
  destruct (H2 _ _ _ _ P1) as (b2 & P2 & I2). exists b2. split; [exact P2|]. rewrite I2, I1. tauto.
Qed.
Lemma adds_iff nt n (p q : nat -> nat -> Prop) m m' : (forall i g, i < nt -> g < n -> (p i g <-> q i g)) -> sized nt n m -> adds nt n p m m' -> adds nt n q m m'.
Proof.
  intros H S [S' H1]. split; [exact S'|]. intros i g x b P. destruct (H1 _ _ _ _ P) as (b1 & P1 & I1). exists b1. split; [exact P1|].
  destruct (sized_pixel _ _ _ _ _ _ S P) as [I G]. rewrite I1, (H _ _ I G). tauto.
Qed.
Lemma adds_covered nt n p m m' i g : sized nt n m -> adds nt n p m m' -> i < nt -> g < n -> (covered m' i g <-> covered m i g \/ p i g).
Proof.
  intros S [S' H] I G. destruct (sized_some _ _ _ _ _ S I G) as [[x b] P]. destruct (H _ _ _ _ P) as (b' & P' & E). unfold covered. split.
  - intros [y Y]. assert (b' = true) by congruence. apply E in H0. destruct H0 as [H0|H0]; [left; exists x; congruence|right; exact H0].
  - intros C. exists x. rewrite P'. f_equal. f_equal. apply E. destruct C as [[y Y]|C]; [left; congruence|right; exact C].
Qed.
Lemma adds_number nt n p m m' q i g : sized nt n m -> adds nt n p m m' -> i < nt -> g < n -> (number_at q m' i g <-> number_at q m i g).
Proof.
  intros S [S' H] I G. destruct (sized_some _ _ _ _ _ S I G) as [[x b] P]. destruct (H _ _ _ _ P) as (b' & P' & E). unfold number_at. split.
  - intros (r & c & R & C). exists r, b. split; [congruence|exact C].
  - intros (r & c & R & C). exists r, b'. split; [congruence|exact C].
Qed.
Lemma flag_hidden m i j : flag (imap hidden m) i j <-> covered m i j.
Proof.
  unfold flag, covered. rewrite pixel_imap. destruct (pixel m i j) as [[x b]|]; cbn [option_map]; unfold hidden; cbn [snd]; split.
  - intros H. exists x. congruence.
  - intros [y Y]. congruence.
  - discriminate.
  - intros [y Y]. discriminate.
Qed.
Lemma flag_test p P m i j : (forall q, p q = true <-> P q) -> (flag (imap (test p) m) i j <-> number_at P m i j).
Proof.
  intros H. unfold flag, number_at. rewrite pixel_imap. destruct (pixel m i j) as [[x b]|]; cbn [option_map]; unfold test, number; cbn [fst]; split.
  - destruct x as [q|]; [|discriminate]. intros T. exists q, b. split; [reflexivity|]. apply H. congruence.
  - intros (q & c & E & T). assert (x = Some q) by congruence. subst x. apply H in T. congruence.
  - discriminate.
  - intros (q & c & E & T). discriminate.
Qed.
(** ** Selection *)
Lemma select_cons {A} b bs (x : A) l : select (b :: bs) (x :: l) = (if b : bool then [x] else []) ++ select bs l.
Proof. unfold select. cbn [combine filter fst]. destruct b; reflexivity. Qed.
Lemma where_from_cons k b l : where_from k (b :: l) = (if b : bool then [k] else []) ++ where_from (S k) l.
Proof. cbn [where_from]. destruct b; reflexivity. Qed.
Lemma select_at {A} : forall valid (l : list A), length valid = length l -> at_gates (where1 valid) l (select valid l).
Proof.
  intros valid l. unfold where1, at_gates.
  assert (H : forall pre, length valid = length l -> Forall2 (fun j x => nth_error (pre ++ l) j = Some x) (where_from (length pre) valid) (select valid l)).
  { revert l. induction valid as [|b valid IH]; intros [|x l] pre L; try discriminate; [constructor|].
    rewrite where_from_cons, select_cons. cbn [length] in L. specialize (IH l (pre ++ [x]) ltac:(lia)).
    rewrite app_length in IH. cbn [length] in IH. rewrite Nat.add_1_r, <- app_assoc in IH.
    destruct b; cbn [app]; [constructor; [|exact IH]|exact IH].
    rewrite nth_error_app2, Nat.sub_diag by lia. reflexivity. }
  exact (H []).
Qed.
Lemma at_gates_nth {A} gates (l l' : list A) g j : at_gates gates l l' -> nth_error gates g = Some j -> nth_error l' g = nth_error l j.
Proof.
  intros H. revert g. induction H as [|k x gates l' E H IH]; intros [|g] G; cbn in *; try discriminate; [congruence|auto].
Qed.
Lemma at_gates_len {A} gates (l l' : list A) : at_gates gates l l' -> length l' = length gates.
Proof. induction 1; cbn; congruence. Qed.
Lemma select_nth {A} valid (l : list A) g j : length valid = length l -> nth_error (where1 valid) g = Some j -> nth_error (select valid l) g = nth_error l j.
Proof. intros L. apply at_gates_nth, select_at, L. Qed.
Lemma select_len {A} valid (l : list A) : length valid = length l -> length (select valid l) = length (where1 valid).
Proof. intros L. apply (at_gates_len _ l), select_at, L. Qed.
Lemma sized_select {A} nt n valid (m : image A) : sized nt n m -> length valid = n -> sized nt (length (where1 valid)) (map (select valid) m).
Proof.
  intros [H1 H2] L. split; [rewrite map_length; exact H1|]. intros i row. rewrite nth_error_map'. destruct (nth_error m i) as [r|] eqn:E; cbn [option_map]; [|discriminate].
  intros R. assert (row = select valid r) by congruence. subst row. apply select_len. rewrite (H2 _ _ E). exact L.
Qed.
Lemma pixel_select {A} nt n valid (m : image A) i g j : sized nt n m -> length valid = n -> nth_error (where1 valid) g = Some j ->
  pixel (map (select valid) m) i g = pixel m i j.
Proof.
  intros [H1 H2] L G. unfold pixel. rewrite nth_error_map'. destruct (nth_error m i) as [r|] eqn:E; cbn [option_map]; [|reflexivity].
  apply select_nth; [rewrite (H2 _ _ E); exact L|exact G].
Qed.
Lemma kept_where1 p P range : (forall q, p q = true <-> P q) -> kept_gates P range (where1 (map (test p) range)).
Proof.
  intros H. split; [apply where1_sorted|]. intros j. rewrite where1_in, nth_error_map'. destruct (nth_error range j) as [[x b]|]; cbn [option_map]; unfold test, number; cbn [fst]; split.
  - destruct x as [q|]; [|discriminate]. intros T. exists q, b. split; [reflexivity|]. apply H. congruence.
  - intros (q & c & E & T). assert (x = Some q) by congruence. subst x. apply H in T. congruence.
  - discriminate.
  - intros (q & c & E & T). discriminate.
Qed.
Lemma all_valid_seq valid : forallb (fun b => b) valid = true -> where1 valid = seq 0 (length valid).
Proof.
  unfold where1. generalize 0. induction valid as [|b valid IH]; intros k H; [reflexivity|]. cbn [forallb] in H. apply andb_true_iff in H. destruct H as [B H].
  rewrite where_from_cons, B, (IH (S k) H). reflexivity.
Qed.
Lemma all_valid_select {A} valid (l : list A) : forallb (fun b => b) valid = true -> length valid = length l -> select valid l = l.
Proof.
  revert l. induction valid as [|b valid IH]; intros [|x l] H L; try discriminate; [reflexivity|]. cbn [forallb] in H. apply andb_true_iff in H. destruct H as [B H].
  rewrite select_cons, B, IH; [reflexivity|exact H|cbn in L; lia].
Qed.
Lemma sorted_lt_unique : forall a b, StronglySorted lt a -> StronglySorted lt b -> (forall j, In j a <-> In j b) -> a = b.
Proof.
  induction a as [|x a IH]; intros [|y b] Sa Sb H; [reflexivity|exfalso; apply (H y); left; reflexivity|exfalso; apply (H x); left; reflexivity|].
  apply StronglySorted_inv in Sa, Sb. destruct Sa as [Sa Fa], Sb as [Sb Fb]. rewrite Forall_forall in Fa, Fb.
  assert (x = y).
  { assert (Hx : In x (y :: b)) by (apply H; left; reflexivity). assert (Hy : In y (x :: a)) by (apply H; left; reflexivity).
    destruct Hx as [->|Hx]; [reflexivity|]. destruct Hy as [->|Hy]; [reflexivity|]. specialize (Fa _ Hy). specialize (Fb _ Hx). lia. }
  subst y. f_equal. apply IH; [exact Sa|exact Sb|]. intros j. split; intros I.
  - assert (In j (x :: b)) as [->|J] by (apply H; right; exact I); [specialize (Fa _ I); lia|exact J].
  - assert (In j (x :: a)) as [->|J] by (apply H; right; exact I); [specialize (Fb _ I); lia|exact J].
Qed.

(** ** Galileo *)
Lemma positive_iff q : qlt 0 q = true <-> (0 < q)%Q.
Proof. apply qlt_iff. Qed.
Lemma altitudes_spec nt n d range : nt <> 1 -> radar_data nt n d -> lookup "range" d = Some (N1 range) -> length range = n ->
  let gates := where1 (map (test (fun q => qlt 0 q)) range) in
  (gates = [] -> screen_negative_altitudes d = Raise ValueError) /\
  (gates <> [] -> exists d1, screen_negative_altitudes d = Ok d1 /\
    (forall k, lookup k d = None -> lookup k d1 = None) /\
    (forall k m, lookup k d = Some (N2 m) -> exists m1, lookup k d1 = Some (N2 m1) /\ sized nt (length gates) m1 /\
       forall i g j, nth_error gates g = Some j -> pixel m1 i g = pixel m i j) /\
    (forall k l, lookup k d = Some (N1 l) -> length l = n -> exists l1, lookup k d1 = Some (N1 l1) /\ at_gates gates l l1) /\
    (forall k l, lookup k d = Some (N1 l) -> length l <> n -> lookup k d1 = Some (N1 l)) /\
    (forall k x, lookup k d = Some (N0 x) -> lookup k d1 = Some (N0 x))).
Proof.
  intros Nt R Lr Ln gates. unfold screen_negative_altitudes. rewrite (vector_of_ok _ _ _ Lr). cbn [bind].
  set (valid := map (test (fun q => qlt 0 q)) range) in *. assert (Lv : length valid = n) by (unfold valid; rewrite map_length; exact Ln).
  split.
  - intros E. replace (existsb (fun b : bool => b) valid) with false; [reflexivity|]. symmetry. apply not_true_iff_false. intros X.
    apply existsb_exists in X. destruct X as (b & I & B). destruct (In_nth_error _ _ I) as [j J]. assert (In j gates) by (apply where1_in; congruence).
    rewrite E in H. destruct H.
  - intros N. replace (existsb (fun b : bool => b) valid) with true.
    2: { symmetry. apply existsb_exists. destruct gates as [|j gs] eqn:G; [congruence|]. assert (I : In j (where1 valid)) by (unfold gates in G; rewrite G; left; reflexivity).
         apply where1_in in I. exists true. split; [apply nth_error_In with j; exact I|reflexivity]. }
    cbn [negb]. destruct (forallb (fun b : bool => b) valid) eqn:F.
    + exists d. split; [reflexivity|]. assert (Sq : gates = seq 0 n) by (unfold gates; rewrite all_valid_seq by exact F; rewrite Lv; reflexivity).
      split; [auto|]. split; [|split; [|split; auto]].
      * intros k m K. exists m. split; [exact K|]. split; [rewrite Sq, seq_length; exact (R _ _ K)|].
        intros i g j G. rewrite Sq in G. assert (g < n) by (apply nth_error_Some_lt in G; rewrite seq_length in G; exact G).
        rewrite nth_error_seq0 in G by assumption. congruence.
      * intros k l K L. exists l. split; [exact K|]. rewrite <- (all_valid_select valid l F) at 2 by congruence. apply select_at. congruence.
    + exists (map (fun kv : string * nvar => (fst kv, cut_var n valid (snd kv))) d). rewrite Ln. split; [reflexivity|].
      assert (Lk : forall k, lookup k (map (fun kv : string * nvar => (fst kv, cut_var n valid (snd kv))) d) = option_map (cut_var n valid) (lookup k d)).
      { intros k. exact (ConcatProofs.lookup_map _ _ (fun _ v => cut_var n valid v) k d). }
      assert (N1' : n <> 1).
      { intros ->. destruct valid as [|b [|c valid]]; try discriminate. destruct b; [discriminate|]. apply N. reflexivity. }
      split; [intros k K; rewrite Lk; replace (lookup k d) with (@None nvar); reflexivity|].
      split; [|split; [|split]].
      * intros k m K. rewrite Lk. replace (lookup k d) with (Some (N2 m)). cbn [option_map].
        destruct (R _ _ K) as [H1 H2]. exists (map (select valid) m). split; [|split; [apply sized_select with n; [split; assumption|exact Lv]|intros i g j G; apply pixel_select with nt n; [split; assumption|exact Lv|exact G]]].
        f_equal. unfold cut_var, isscalar. destruct (Nat.eqb_spec (length m) 1) as [E|_]; [congruence|]. destruct m as [|row m]; [|].
        -- cbn [last_size cut_last map]. destruct (0 =? n); reflexivity.
        -- cbn [last_size]. rewrite (H2 0 row eq_refl), Nat.eqb_refl. reflexivity.
      * intros k l K L. rewrite Lk. replace (lookup k d) with (Some (N1 l)). cbn [option_map]. exists (select valid l). split; [|apply select_at; congruence].
        f_equal. unfold cut_var, isscalar. destruct (Nat.eqb_spec (length l) 1) as [E|_]; [congruence|]. cbn [last_size]. rewrite L, Nat.eqb_refl. reflexivity.
      * intros k l K L. rewrite Lk. replace (lookup k d) with (Some (N1 l)). cbn [option_map]. f_equal. unfold cut_var, isscalar. cbn [last_size].
        destruct (length l =? 1); [reflexivity|]. destruct (Nat.eqb_spec (length l) n); [contradiction|reflexivity].
      * intros k x K. rewrite Lk. replace (lookup k d) with (Some (N0 x)). reflexivity.
Qed.
Lemma low_gates_nth f row g : nth_error (low_gates f row) g = option_map (fun x => (g <? 15) && f x) (nth_error row g).
Proof. unfold low_gates. rewrite nth_error_map', nth_error_enumerate. destruct (nth_error row g); reflexivity. Qed.
Lemma sized_low f nt n m : sized nt n m -> sized nt n (map (low_gates f) m).
Proof.
  intros [H1 H2]. split; [rewrite map_length; exact H1|]. intros i row. rewrite nth_error_map'. destruct (nth_error m i) as [r|] eqn:E; cbn [option_map]; [|discriminate].
  intros R. assert (row = low_gates f r) by congruence. subst row. unfold low_gates, enumerate. rewrite map_length, enumerate_from_length. eauto.
Qed.
Lemma flag_low p P m i g : (forall q, p q = true <-> P q) -> (flag (map (low_gates (test p)) m) i g <-> g < 15 /\ number_at P m i g).
Proof.
  intros H. rewrite <- (flag_test p P m i g H). unfold flag, pixel, imap. rewrite !nth_error_map'. destruct (nth_error m i) as [r|]; cbn [option_map].
  - rewrite low_gates_nth, nth_error_map'. destruct (nth_error r g) as [x|]; cbn [option_map].
    + destruct (Nat.ltb_spec g 15); cbn [andb]; split; try (intros; discriminate); try (intros [? ?]; lia); try tauto.
      all: try (intros X; discriminate).
    + split; [discriminate|]. intros [_ X]. discriminate.
  - split; [discriminate|]. intros [_ X]. discriminate.
Qed.
(** Masks on images of the same shape. *)
Lemma galileo_masks nt n limit d z v snr ldr : radar_data nt n d ->
  lookup "Zh" d = Some (N2 z) -> lookup "v" d = Some (N2 v) -> lookup "SNR" d = Some (N2 snr) -> lookup "ldr" d = Some (N2 ldr) ->
  exists d', bind (screen_snr limit d) (fun d => bind (mask_clutter d) mask_invalid) = Ok d' /\
   (forall k, lookup k d = None -> lookup k d' = None) /\
   (forall k x, lookup k d = Some (N0 x) -> lookup k d' = Some (N0 x)) /\
   (forall k l, lookup k d = Some (N1 l) -> lookup k d' = Some (N1 l)) /\
   forall k m, lookup k d = Some (N2 m) -> exists m', lookup k d' = Some (N2 m') /\
     adds nt n (fun i g => number_at (fun q => q < limit)%Q snr i g \/ covered z i g \/ covered v i g \/ (g < 15 /\ number_at (fun q => -5 < q)%Q ldr i g)) m m'.
Proof.
  intros R Hz Hv Hs Hl. unfold screen_snr. rewrite (image_of_ok _ _ _ Hs). cbn [bind].
  set (A := imap (test (fun q => qlt q limit)) snr). set (d2 := mask_each A d).
  assert (SA : sized nt n A) by (apply sized_imap, (R _ _ Hs)).
  assert (L2 : forall k, lookup k d2 = option_map (mask_var A) (lookup k d)) by (intros k; apply mask_each_lookup).
  assert (Z2 : lookup "Zh" d2 = Some (N2 (mask_where A z))) by (rewrite L2; replace (lookup "Zh" d) with (Some (N2 z)); reflexivity).
  assert (V2 : lookup "v" d2 = Some (N2 (mask_where A v))) by (rewrite L2; replace (lookup "v" d) with (Some (N2 v)); reflexivity).
  assert (D2 : lookup "ldr" d2 = Some (N2 (mask_where A ldr))) by (rewrite L2; replace (lookup "ldr" d) with (Some (N2 ldr)); reflexivity).
  unfold mask_clutter. rewrite (image_of_ok _ _ _ Z2), (image_of_ok _ _ _ D2). cbn [bind]. rewrite (mask_one_ok _ _ _ _ V2). cbn [bind].
  set (z2 := mask_where A z) in *. set (v2 := mask_where A v) in *. set (l2 := mask_where A ldr) in *.
  set (B := map (low_gates (test (fun q => qlt (-5) q))) l2). set (v3 := mask_where B v2). set (d3 := set_key "v" (N2 v3) d2).
  assert (L3 : forall k, lookup k d3 = if String.eqb k "v" then Some (N2 v3) else lookup k d2) by (intros k; apply set_lookup).
  unfold mask_invalid. rewrite (image_of_ok d3 "Zh" z2) by (rewrite L3; exact Z2). rewrite (image_of_ok d3 "v" v3) by (rewrite L3; reflexivity). cbn [bind].
  set (C := imap hidden z2). set (E := imap hidden v3). eexists. split; [reflexivity|].
  assert (L4 : forall k, lookup k (mask_each E (mask_each C d3)) = option_map (mask_var E) (option_map (mask_var C) (lookup k d3))).
  { intros k. rewrite !mask_each_lookup. reflexivity. }
  assert (Az : adds nt n (flag A) z z2) by (apply adds_mask; [exact SA|exact (R _ _ Hz)]).
  assert (Av : adds nt n (flag A) v v2) by (apply adds_mask; [exact SA|exact (R _ _ Hv)]).
  assert (Al : adds nt n (flag A) ldr l2) by (apply adds_mask; [exact SA|exact (R _ _ Hl)]).
  assert (SB : sized nt n B) by (apply sized_low, (proj1 Al)).
  assert (Av3 : adds nt n (flag B) v2 v3) by (apply adds_mask; [exact SB|exact (proj1 Av)]).
  assert (SC : sized nt n C) by (apply sized_imap, (proj1 Az)).
  assert (SE : sized nt n E) by (apply sized_imap, (proj1 Av3)).
  set (snr_bad := fun i g => number_at (fun q => q < limit)%Q snr i g). set (clutter := fun i g => g < 15 /\ number_at (fun q => -5 < q)%Q ldr i g).
  assert (FA : forall i g, flag A i g <-> snr_bad i g) by (intros i g; apply flag_test; intros q; apply qlt_iff).
  assert (FB : forall i g, i < nt -> g < n -> (flag B i g <-> clutter i g)).
  { intros i g I G. unfold B. rewrite (flag_low _ (fun q => -5 < q)%Q) by (intros q; apply qlt_iff). rewrite (adds_number _ _ _ _ _ _ _ _ (R _ _ Hl) Al I G). reflexivity. }
  assert (FC : forall i g, i < nt -> g < n -> (flag C i g <-> covered z i g \/ snr_bad i g)).
  { intros i g I G. unfold C. rewrite flag_hidden, (adds_covered _ _ _ _ _ _ _ (R _ _ Hz) Az I G), FA. reflexivity. }
  assert (FE : forall i g, i < nt -> g < n -> (flag E i g <-> covered v i g \/ snr_bad i g \/ clutter i g)).
  { intros i g I G. unfold E. rewrite flag_hidden, (adds_covered _ _ _ _ _ _ _ (proj1 Av) Av3 I G), (adds_covered _ _ _ _ _ _ _ (R _ _ Hv) Av I G), FA, (FB _ _ I G). tauto. }
  split; [|split; [|split]].
  - intros k K. rewrite L4, L3. destruct (String.eqb_spec k "v") as [->|_]; [congruence|]. rewrite L2. replace (lookup k d) with (@None nvar). reflexivity.
  - intros k x K. rewrite L4, L3. destruct (String.eqb_spec k "v") as [->|_]; [congruence|]. rewrite L2. replace (lookup k d) with (Some (N0 x)). reflexivity.
  - intros k x K. rewrite L4, L3. destruct (String.eqb_spec k "v") as [->|_]; [congruence|]. rewrite L2. replace (lookup k d) with (Some (N1 x)). reflexivity.
  - intros k m K. assert (exists m3, lookup k d3 = Some (N2 m3) /\ exists p, adds nt n p m m3 /\ forall i g, i < nt -> g < n -> p i g -> snr_bad i g \/ clutter i g) as (m3 & K3 & p & P3 & Q3).
    { rewrite L3. destruct (String.eqb_spec k "v") as [->|_].
      - exists v3. split; [reflexivity|]. assert (m = v) by congruence. subst m. eexists. split; [exact (adds_trans _ _ _ _ _ _ _ Av Av3)|].
        intros i g I G [H|H]; [left; apply FA, H|right; apply (FB _ _ I G), H].
      - exists (mask_where A m). split; [rewrite L2; replace (lookup k d) with (Some (N2 m)); reflexivity|]. exists (flag A). split; [apply adds_mask; [exact SA|exact (R _ _ K)]|].
        intros i g I G H. left. apply FA, H. }
    exists (mask_where E (mask_where C m3)). split; [rewrite L4; replace (lookup k d3) with (Some (N2 m3)); reflexivity|].
    apply adds_iff with (p := fun i g => (p i g \/ flag C i g) \/ flag E i g); [|exact (R _ _ K)|].
    + intros i g I G. specialize (Q3 _ _ I G). rewrite (FC _ _ I G), (FE _ _ I G). unfold snr_bad, clutter in *. tauto.
    + pose proof (adds_mask nt n C m3 SC (proj1 P3)) as P4. pose proof (adds_mask nt n E _ SE (proj1 P4)) as P5.
      exact (adds_trans _ _ _ _ _ _ _ (adds_trans _ _ _ _ _ _ _ P3 P4) P5).
Qed.
Lemma transfer_covered m m1 i g j : pixel m1 i g = pixel m i j -> (covered m1 i g <-> covered m i j).
Proof. intros H. unfold covered. rewrite H. reflexivity. Qed.
Lemma transfer_number p m m1 i g j : pixel m1 i g = pixel m i j -> (number_at p m1 i g <-> number_at p m i j).
Proof. intros H. unfold number_at. rewrite H. reflexivity. Qed.
Lemma sized_row {A} nt n (m : image A) row : sized nt n m -> In row m -> length row = n.
Proof. intros [_ H] I. destruct (In_nth_error _ _ I) as [i E]. eauto. Qed.
Lemma galileo_spec nt n limit d range z v snr ldr : nt <> 1 -> radar_data nt n d -> lookup "range" d = Some (N1 range) -> length range = n ->
  lookup "Zh" d = Some (N2 z) -> lookup "v" d = Some (N2 v) -> lookup "SNR" d = Some (N2 snr) -> lookup "ldr" d = Some (N2 ldr) ->
  forall gates, kept_gates (fun q => 0 < q)%Q range gates ->
  (gates = [] -> galileo_screen limit d = Raise ValueError) /\
  (gates <> [] -> exists d', galileo_screen limit d = Ok d' /\
    (forall k, lookup k d = None -> lookup k d' = None) /\
    (forall k m, lookup k d = Some (N2 m) -> exists m', lookup k d' = Some (N2 m') /\
       cut_image gates same_number (galileo_bad (given 3 limit) snr z v ldr) m m') /\
    (forall k l, lookup k d = Some (N1 l) -> length l = n -> exists l', lookup k d' = Some (N1 l') /\ at_gates gates l l') /\
    (forall k l, lookup k d = Some (N1 l) -> length l <> n -> lookup k d' = Some (N1 l)) /\
    (forall k x, lookup k d = Some (N0 x) -> lookup k d' = Some (N0 x))).
Proof.
  intros Nt R Lr Ln Hz Hv Hs Hl gates K.
  assert (gates = where1 (map (test (fun q => qlt 0 q)) range)) as ->.
  { pose proof (kept_where1 (fun q => qlt 0 q) (fun q => 0 < q)%Q range positive_iff) as [S1 I1]. destruct K as [S2 I2]. apply sorted_lt_unique; [exact S2|exact S1|]. intros j. rewrite I2, I1. reflexivity. }
  destruct (altitudes_spec nt n d range Nt R Lr Ln) as [H1 H2]. set (gates := where1 (map (test (fun q => qlt 0 q)) range)) in *. cbv zeta in H1, H2.
  unfold galileo_screen. split; [intros E; rewrite (H1 E); reflexivity|]. intros N. destruct (H2 N) as (d1 & E1 & C0 & C2 & C1 & C1' & C0'). rewrite E1. cbn [bind].
  destruct (C2 _ _ Hz) as (z1 & Hz1 & _ & Pz). destruct (C2 _ _ Hv) as (v1 & Hv1 & _ & Pv). destruct (C2 _ _ Hs) as (s1 & Hs1 & _ & Ps). destruct (C2 _ _ Hl) as (l1 & Hl1 & _ & Pl).
  assert (R1 : radar_data nt (length gates) d1).
  { intros k m1 M. destruct (lookup k d) as [[x|l|m]|] eqn:Ek.
    - rewrite (C0' _ _ Ek) in M. discriminate.
    - destruct (Nat.eq_dec (length l) n) as [L|L]; [destruct (C1 _ _ Ek L) as (l' & L' & _); congruence|rewrite (C1' _ _ Ek L) in M; discriminate].
    - destruct (C2 _ _ Ek) as (m1' & M' & S' & _). assert (m1' = m1) by congruence. subst. exact S'.
    - rewrite (C0 _ Ek) in M. discriminate. }
  destruct (galileo_masks nt (length gates) (given 3 limit) d1 z1 v1 s1 l1 R1 Hz1 Hv1 Hs1 Hl1) as (d' & E' & M0 & M0' & M1 & M2).
  exists d'. split; [exact E'|]. split; [intros k Ek; auto|]. split; [|split; [|split]].
  - intros k m M. destruct (C2 _ _ M) as (m1 & E & S1 & P1). destruct (M2 _ _ E) as (m' & E2 & S' & A'). exists m'. split; [exact E2|].
    split; [destruct S' as [-> _]; destruct (R _ _ M) as [-> _]; reflexivity|]. split; [intros row; apply sized_row with nt; exact S'|].
    intros i g j x b G P. specialize (P1 i g j G). rewrite P in P1. destruct (A' _ _ _ _ P1) as (b' & P' & I'). exists x, b'.
    split; [exact P'|]. split; [reflexivity|]. rewrite I'. unfold galileo_bad.
    rewrite (transfer_covered z z1 i g j), (transfer_covered v v1 i g j), (transfer_number _ snr s1 i g j), (transfer_number _ ldr l1 i g j) by auto. reflexivity.
  - intros k l M L. destruct (C1 _ _ M L) as (l' & E & G). exists l'. split; [apply M1, E|exact G].
  - intros k l M L. apply M1, C1'; assumption.
  - intros k x M. apply M0', C0', M.
Qed.

(** ** Copernicus *)
Lemma unmasked_visible l : unmasked (map (fun x : cell => if hidden x then None else number x) l) = visible l.
Proof.
  induction l as [|[x b] l IH]; [reflexivity|]. cbn [map visible]. unfold hidden, number in *. cbn [fst snd]. destruct b.
  - destruct x; exact IH.
  - destruct x as [q|]; [|exact IH]. change (unmasked (Some q :: map (fun x : cell => if snd x then None else fst x) l)) with (q :: unmasked (map (fun x : cell => if snd x then None else fst x) l)). rewrite IH. reflexivity.
Qed.
Lemma mean_spec l : l <> [] -> (mean l * inject_Z (Z.of_nat (length l)) == RadarSpec.qsum l)%Q.
Proof.
  intros N. unfold mean. change (RadarSpec.qsum l) with (fold_right Qplus 0%Q l). field. intros E. unfold Qeq in E. cbn in E. destruct l; [congruence|]. cbn in E. lia.
Qed.
Lemma mean_unique l m m' : l <> [] -> (m * inject_Z (Z.of_nat (length l)) == RadarSpec.qsum l)%Q -> (m' * inject_Z (Z.of_nat (length l)) == RadarSpec.qsum l)%Q -> (m == m')%Q.
Proof.
  intros N H H'. assert (Z : ~ (inject_Z (Z.of_nat (length l)) == 0)%Q).
  { intros E. unfold Qeq in E. cbn in E. destruct l; [congruence|]. cbn in E. lia. }
  apply (Qmult_inj_r _ _ _ Z). rewrite H, H'. reflexivity.
Qed.
Definition highest (row low top : list cell) : Prop := row = low ++ top /\ (length top = 50 \/ (low = [] /\ length top < 50)).
Lemma highest_skipn row : highest row (firstn (length row - 50) row) (skipn (length row - 50) row).
Proof.
  split; [symmetry; apply firstn_skipn|]. rewrite skipn_length. destruct (le_lt_dec 50 (length row)); [left; lia|].
  replace (length row - 50) with 0 by lia. right. split; [reflexivity|lia].
Qed.
Lemma highest_unique row low top : highest row low top -> top = skipn (length row - 50) row.
Proof.
  intros [-> H]. rewrite app_length. destruct H as [H|[-> H]].
  - replace (length low + length top - 50) with (length low) by lia. rewrite skipn_app, Nat.sub_diag, skipn_all. reflexivity.
  - cbn [app length]. replace (0 + length top - 50) with 0 by lia. reflexivity.
Qed.
Lemma noise_iff row q : (q < noise_limit 2 row)%Q <-> (exists m, top_mean row m /\ q < m + 2)%Q \/ (nothing_on_top row /\ q < 0)%Q.
Proof.
  unfold noise_limit, ma_stat. rewrite unmasked_visible. set (top := skipn (length row - 50) row). destruct (visible top) as [|x l] eqn:E.
  - split.
    + intros H. right. split; [|exact H]. destruct (highest_skipn row) as [H1 H2]. do 2 eexists. split; [exact H1|]. split; [exact H2|exact E].
    + intros [(m & (low & t & H1 & H2 & H3 & _) & _)|[_ H]]; [|exact H]. exfalso. assert (t = top) by (apply (highest_unique row low); split; assumption). subst t. congruence.
  - split.
    + intros H. left. exists (mean (x :: l)). split; [|exact H]. destruct (highest_skipn row) as [H1 H2]. do 2 eexists. split; [exact H1|]. split; [exact H2|].
      fold top. rewrite E. split; [discriminate|]. apply mean_spec. discriminate.
    + intros [(m & (low & t & H1 & H2 & H3 & H4) & H)|[(low & t & H1 & H2 & H3) _]].
      * assert (t = top) by (apply (highest_unique row low); split; assumption). subst t. rewrite E in H3, H4.
        rewrite (mean_unique (x :: l) (mean (x :: l)) m); [exact H|discriminate|apply mean_spec; discriminate|exact H4].
      * exfalso. assert (t = top) by (apply (highest_unique row low); split; assumption). subst t. congruence.
Qed.
Definition noise_flags (snr : image cell) : image bool := map (fun row => map (test (fun q => qlt q (noise_limit 2 row))) row) snr.
Lemma flag_noise snr i j : flag (noise_flags snr) i j <-> noisy snr i j.
Proof.
  unfold flag, noisy, pixel, noise_flags. rewrite nth_error_map'. destruct (nth_error snr i) as [row|]; cbn [option_map].
  - rewrite nth_error_map'. split.
    + destruct (nth_error row j) as [[x b]|] eqn:E; cbn [option_map]; [|discriminate]. unfold test, number. cbn [fst]. destruct x as [q|]; [|discriminate].
      intros H. exists row, q, b. split; [reflexivity|]. split; [exact E|]. apply noise_iff, qlt_iff. congruence.
    + intros (r & q & b & R & E & H). assert (r = row) by congruence. subst r. rewrite E. cbn [option_map]. unfold test, number. cbn [fst]. f_equal. apply qlt_iff, noise_iff, H.
  - split; [discriminate|]. intros (r & q & b & R & _). discriminate.
Qed.
Lemma sized_noise nt n snr : sized nt n snr -> sized nt n (noise_flags snr).
Proof.
  intros [H1 H2]. split; [unfold noise_flags; rewrite map_length; exact H1|]. intros i row. unfold noise_flags. rewrite nth_error_map'. destruct (nth_error snr i) as [r|] eqn:E; cbn [option_map]; [|discriminate].
  intros R. assert (row = map (test (fun q => qlt q (noise_limit 2 r))) r) by congruence. subst row. rewrite map_length. eauto.
Qed.
Definition range_flags (v : image cell) (range : list cell) : image bool := map (fun _ => map (test (fun q => qlt q 150)) range) v.
Lemma sized_range nt n v range : sized nt n v -> length range = n -> sized nt n (range_flags v range).
Proof.
  intros [H1 H2] L. split; [unfold range_flags; rewrite map_length; exact H1|]. intros i row. unfold range_flags. rewrite nth_error_map'. destruct (nth_error v i) as [r|] eqn:E; cbn [option_map]; [|discriminate].
  intros R. assert (row = map (test (fun q => qlt q 150)) range) by congruence. subst row. rewrite map_length. exact L.
Qed.
Lemma flag_range nt n v range i j : sized nt n v -> i < nt -> (flag (range_flags v range) i j <-> exists q b, nth_error range j = Some (Some q, b) /\ (q < 150)%Q).
Proof.
  intros [H1 H2] I. unfold flag, pixel, range_flags. rewrite nth_error_map'. destruct (nth_error v i) as [r|] eqn:E; [|apply nth_error_None in E; lia]. cbn [option_map].
  rewrite nth_error_map'. destruct (nth_error range j) as [[x b]|]; cbn [option_map].
  - unfold test, number. cbn [fst]. split.
    + destruct x as [q|]; [|discriminate]. intros H. exists q, b. split; [reflexivity|]. apply qlt_iff. congruence.
    + intros (q & c & X & H). assert (x = Some q) by congruence. subst x. f_equal. apply qlt_iff, H.
  - split; [discriminate|]. intros (q & b & X & _). discriminate.
Qed.
Lemma exceeds_iff t q : exceeds t q = true <-> (q < -t \/ t < q)%Q.
Proof.
  unfold exceeds. rewrite qlt_iff. destruct (Coq.QArith.Qabs.Qabs_Qle_condition q t) as [A B]. split.
  - intros H. destruct (Qlt_le_dec q (- t)) as [L|L]; [left; exact L|]. right. destruct (Qlt_le_dec t q) as [M|M]; [exact M|]. exfalso. assert (Coq.QArith.Qabs.Qabs q <= t)%Q by (apply B; split; assumption). lra.
  - intros H. destruct (Qlt_le_dec t (Coq.QArith.Qabs.Qabs q)) as [L|L]; [exact L|]. destruct (A L). destruct H; lra.
Qed.
Lemma shifted_cell a o x b : exists x', shifted a o (x, b) = (x', b) /\ (b = false -> x' = moved a o x).
Proof. unfold shifted, hidden, number, moved. cbn [fst snd]. eexists. split; [reflexivity|]. intros ->. reflexivity. Qed.
Lemma covered_shifted a o m i j : covered (imap (shifted a o) m) i j <-> covered m i j.
Proof.
  unfold covered. rewrite pixel_imap. destruct (pixel m i j) as [[x b]|]; cbn [option_map]; [|reflexivity].
  destruct (shifted_cell a o x b) as (x' & -> & _). split; intros [y Y]; [exists x|exists x']; congruence.
Qed.
Lemma copernicus_spec nt n zo ro d range z v snr width : radar_data nt n d -> lookup "range" d = Some (N1 range) -> length range = n ->
  Forall (fun x : cell => snd x = false) range ->
  lookup "Zh" d = Some (N2 z) -> lookup "v" d = Some (N2 v) -> lookup "SNR" d = Some (N2 snr) -> lookup "width" d = Some (N2 width) ->
  forall gates, kept_gates (fun q => 0 <= q - given 0 (o_applied ro) + given (-720) (o_site ro))%Q range gates ->
  exists d', copernicus_screen zo ro d = Ok d' /\
    (forall k, lookup k d = None -> lookup k d' = None) /\
    (forall k m, lookup k d = Some (N2 m) -> exists m', lookup k d' = Some (N2 m') /\
       cut_image gates (if String.eqb k "Zh" then moved (given 0 (o_applied zo)) (given (- (1495 # 10)) (o_site zo)) else same_number)
         (fun i j _ => copernicus_bad snr width z v range i j) m m') /\
    (exists r, lookup "range" d' = Some (N1 r) /\ at_gates gates (map (fun x : cell => (moved (given 0 (o_applied ro)) (given (-720) (o_site ro)) (fst x), false)) range) r) /\
    (forall k l, lookup k d = Some (N1 l) -> k <> "range" -> lookup k d' = Some (N1 l)) /\
    (forall k x, lookup k d = Some (N0 x) -> lookup k d' = Some (N0 x)).
Proof.
  intros R Lr Ln Vis Hz Hv Hs Hw gates Kg. unfold copernicus_screen, calibrate_reflectivity.
  change (match o_applied zo with Some a => a | None => 0%Q end) with (given 0 (o_applied zo)).
  change (match o_site zo with Some a => a | None => (- (1495 # 10))%Q end) with (given (- (1495 # 10)) (o_site zo)).
  set (a := given 0 (o_applied zo)). set (o := given (- (1495 # 10)) (o_site zo)).
  rewrite (image_of_ok _ _ _ Hz). cbn [bind fst]. set (z1 := imap (shifted a o) z). set (d1 := set_key "Zh" (N2 z1) d).
  assert (L1 : forall k, lookup k d1 = if String.eqb k "Zh" then Some (N2 z1) else lookup k d) by (intros k; apply set_lookup).
  unfold screen_top_snr. rewrite (image_of_ok d1 "SNR" snr) by (rewrite L1; exact Hs). cbn [bind].
  rewrite (mask_one_ok "Zh" _ d1 z1) by (rewrite L1; reflexivity). cbn [bind].
  change (map (fun row => map (test (fun q => qlt q (noise_limit 2 row))) row) snr) with (noise_flags snr).
  set (z2 := mask_where (noise_flags snr) z1). set (d2 := set_key "Zh" (N2 z2) d1).
  assert (L2 : forall k, lookup k d2 = if String.eqb k "Zh" then Some (N2 z2) else lookup k d).
  { intros k. unfold d2. rewrite set_lookup, L1. destruct (String.eqb k "Zh"); reflexivity. }
  unfold mask_corrupted. rewrite (image_of_ok d2 "width" width) by (rewrite L2; exact Hw). cbn [bind].
  rewrite (mask_one_ok "v" _ d2 v) by (rewrite L2; exact Hv). cbn [bind].
  set (F3 := imap (test (exceeds 3)) width). set (v3 := mask_where F3 v). set (d3 := set_key "v" (N2 v3) d2).
  assert (L3 : forall k, lookup k d3 = if String.eqb k "v" then Some (N2 v3) else lookup k d2) by (intros k; apply set_lookup).
  rewrite (image_of_ok d3 "v" v3) by (rewrite L3; reflexivity). cbn [bind]. rewrite (mask_one_ok "v" _ d3 v3) by (rewrite L3; reflexivity). cbn [bind].
  set (F4 := imap (test (exceeds 9)) v3). set (v4 := mask_where F4 v3). set (d4 := set_key "v" (N2 v4) d3).
  assert (L4 : forall k, lookup k d4 = if String.eqb k "v" then Some (N2 v4) else lookup k d2).
  { intros k. unfold d4. rewrite set_lookup, L3. destruct (String.eqb k "v"); reflexivity. }
  unfold mask_first_gates. assert (V4 : lookup "v" d4 = Some (N2 v4)) by (rewrite L4; reflexivity).
  assert (R4 : lookup "range" d4 = Some (N1 range)) by (rewrite L4, L2; exact Lr).
  replace (lookup "v" d4) with (Some (N2 v4)). replace (lookup "range" d4) with (Some (N1 range)).
  rewrite (vector_of_ok _ _ _ R4), (image_of_ok _ _ _ V4). cbn [bind]. rewrite (mask_one_ok _ _ _ _ V4). cbn [bind].
  change (map (fun _ : list cell => map (test (fun q => qlt q 150)) range) v4) with (range_flags v4 range).
  set (v5 := mask_where (range_flags v4 range) v4). set (d5 := set_key "v" (N2 v5) d4).
  assert (L5 : forall k, lookup k d5 = if String.eqb k "v" then Some (N2 v5) else lookup k d2).
  { intros k. unfold d5. rewrite set_lookup, L4. destruct (String.eqb k "v"); reflexivity. }
  unfold mask_invalid. rewrite (image_of_ok d5 "Zh" z2) by (rewrite L5, L2; reflexivity). rewrite (image_of_ok d5 "v" v5) by (rewrite L5; reflexivity). cbn [bind].
  set (C := imap hidden z2). set (E := imap hidden v5). set (d6 := mask_each E (mask_each C d5)).
  assert (L6 : forall k, lookup k d6 = option_map (mask_var E) (option_map (mask_var C) (lookup k d5))).
  { intros k. unfold d6. rewrite !mask_each_lookup. reflexivity. }
  unfold fix_range_offset. change (match o_applied ro with Some a => a | None => 0%Q end) with (given 0 (o_applied ro)).
  change (match o_site ro with Some a => a | None => (-720)%Q end) with (given (-720) (o_site ro)).
  set (a' := given 0 (o_applied ro)) in *. set (o' := given (-720) (o_site ro)) in *.
  assert (R6 : lookup "range" d6 = Some (N1 range)) by (rewrite L6, L5, L2; replace (lookup "range" d) with (Some (N1 range)); reflexivity).
  rewrite (vector_of_ok _ _ _ R6). cbn [bind fst]. set (range' := map (shifted a' o') range). set (d7 := set_key "range" (N1 range') d6).
  assert (L7 : forall k, lookup k d7 = if String.eqb k "range" then Some (N1 range') else lookup k d6) by (intros k; apply set_lookup).
  unfold screen_negative_ranges. rewrite (vector_of_ok d7 "range" range') by (rewrite L7; reflexivity). cbn [bind].
  set (valid := map (test (fun q => Qle_bool 0 q)) range'). eexists. split; [reflexivity|].
  assert (L8 : forall k, lookup k (map (fun kv : string * nvar => (fst kv, cut_range valid (fst kv) (snd kv))) d7) = option_map (cut_range valid k) (lookup k d7)).
  { intros k. exact (ConcatProofs.lookup_map _ _ (cut_range valid) k d7). }
  assert (Lv : length valid = n) by (unfold valid, range'; rewrite !map_length; exact Ln).
  assert (Er : range' = map (fun x : cell => (moved a' o' (fst x), false)) range).
  { unfold range'. apply map_ext_in. intros [x b] I. rewrite Forall_forall in Vis. specialize (Vis _ I). cbn [snd] in Vis. subst b. reflexivity. }
  assert (Eg : gates = where1 valid).
  { destruct (kept_where1 (fun q => Qle_bool 0 q) (fun q => 0 <= q)%Q range' (fun q => Qle_bool_iff 0 q)) as [S1 I1]. destruct Kg as [S2 I2].
    apply sorted_lt_unique; [exact S2|exact S1|]. intros j. unfold valid. rewrite I2, I1, Er, nth_error_map'. destruct (nth_error range j) as [[x b]|] eqn:N; cbn [option_map fst].
    - unfold moved. split.
      + intros (q & c & X & P). assert (x = Some q) by congruence. subst x. cbn [option_map]. eauto.
      + intros (q & c & X & P). destruct x as [r|]; cbn [option_map] in X; [|discriminate]. exists r, b. split; [reflexivity|].
        assert (q = r - a' + o')%Q by congruence. subst q. exact P.
    - split; intros (q & c & X & P); discriminate. }
  (* sizes *)
  pose proof (R _ _ Hz) as Sz. pose proof (R _ _ Hv) as Sv. pose proof (R _ _ Hs) as Ss. pose proof (R _ _ Hw) as Sw.
  assert (Sz1 : sized nt n z1) by (apply sized_imap, Sz).
  assert (Az2 : adds nt n (flag (noise_flags snr)) z1 z2) by (apply adds_mask; [apply sized_noise, Ss|exact Sz1]).
  assert (Av3 : adds nt n (flag F3) v v3) by (apply adds_mask; [apply sized_imap, Sw|exact Sv]).
  assert (Av4 : adds nt n (flag F4) v3 v4) by (apply adds_mask; [apply sized_imap, (proj1 Av3)|exact (proj1 Av3)]).
  assert (Av5 : adds nt n (flag (range_flags v4 range)) v4 v5) by (apply adds_mask; [apply sized_range; [exact (proj1 Av4)|exact Ln]|exact (proj1 Av4)]).
  assert (SC : sized nt n C) by (apply sized_imap, (proj1 Az2)).
  assert (SE : sized nt n E) by (apply sized_imap, (proj1 Av5)).
  set (wide := fun i j => number_at (fun q => q < -3 \/ 3 < q)%Q width i j). set (fast := fun i j => number_at (fun q => q < -9 \/ 9 < q)%Q v i j).
  set (near := fun (i j : nat) => exists q b, nth_error range j = Some (Some q, b) /\ (q < 150)%Q).
  assert (F3' : forall i j, flag F3 i j <-> wide i j) by (intros i j; apply flag_test; intros q; apply exceeds_iff).
  assert (F4' : forall i j, i < nt -> j < n -> (flag F4 i j <-> fast i j)).
  { intros i j I J. unfold F4. rewrite (flag_test _ (fun q => q < -9 \/ 9 < q)%Q) by (intros q; apply exceeds_iff). exact (adds_number _ _ _ _ _ _ _ _ Sv Av3 I J). }
  assert (F5' : forall i j, i < nt -> (flag (range_flags v4 range) i j <-> near i j)) by (intros i j I; exact (flag_range nt n v4 range i j (proj1 Av4) I)).
  assert (FC : forall i j, i < nt -> j < n -> (flag C i j <-> covered z i j \/ noisy snr i j)).
  { intros i j I J. unfold C. rewrite flag_hidden, (adds_covered _ _ _ _ _ _ _ Sz1 Az2 I J), flag_noise. unfold z1. rewrite covered_shifted. reflexivity. }
  assert (FE : forall i j, i < nt -> j < n -> (flag E i j <-> covered v i j \/ wide i j \/ fast i j \/ near i j)).
  { intros i j I J. unfold E. rewrite flag_hidden, (adds_covered _ _ _ _ _ _ _ (proj1 Av4) Av5 I J), (adds_covered _ _ _ _ _ _ _ (proj1 Av3) Av4 I J), (adds_covered _ _ _ _ _ _ _ Sv Av3 I J), F3', (F4' _ _ I J), (F5' _ _ I). tauto. }
  split; [|split; [|split; [|split]]].
  - intros k K. rewrite L8, L7. destruct (String.eqb_spec k "range") as [->|_]; [congruence|]. rewrite L6, L5. destruct (String.eqb_spec k "v") as [->|_]; [congruence|].
    rewrite L2. destruct (String.eqb_spec k "Zh") as [->|_]; [congruence|]. replace (lookup k d) with (@None nvar). reflexivity.
  - intros k m K.
    assert (exists m1 m5 p, lookup k d5 = Some (N2 m5) /\ sized nt n m1 /\ adds nt n p m1 m5 /\ (forall i j, i < nt -> j < n -> p i j -> copernicus_bad snr width z v range i j) /\
      (forall i j x b, pixel m i j = Some (x, b) -> exists x', pixel m1 i j = Some (x', b) /\ (b = false -> x' = (if String.eqb k "Zh" then moved a o else same_number) x))) as (m1 & m5 & p & K5 & Sm1 & Ap & Bp & P1).
    { rewrite L5. destruct (String.eqb_spec k "v") as [->|Nv].
      - assert (m = v) by congruence. subst m. exists v, v5. eexists. split; [reflexivity|]. split; [exact Sv|]. split; [exact (adds_trans _ _ _ _ _ _ _ (adds_trans _ _ _ _ _ _ _ Av3 Av4) Av5)|]. split.
        + intros i j I J. rewrite F3', (F4' _ _ I J), (F5' _ _ I). unfold copernicus_bad. fold (wide i j) (fast i j) (near i j). tauto.
        + intros i j x b X. exists x. split; [exact X|]. reflexivity.
      - rewrite L2. destruct (String.eqb_spec k "Zh") as [->|Nz].
        + assert (m = z) by congruence. subst m. exists z1, z2. eexists. split; [reflexivity|]. split; [exact Sz1|]. split; [exact Az2|]. split.
          * intros i j I J H. apply flag_noise in H. left. exact H.
          * intros i j x b X. unfold z1. rewrite pixel_imap, X. cbn [option_map]. destruct (shifted_cell a o x b) as (x' & -> & S). eauto.
        + exists m, m. eexists. split; [exact K|]. split; [exact (R _ _ K)|]. split; [apply adds_refl; exact (R _ _ K)|]. split; [intros i j _ _ []|].
          intros i j x b X. exists x. split; [exact X|]. reflexivity. }
    pose proof (adds_mask nt n C m5 SC (proj1 Ap)) as A1. pose proof (adds_mask nt n E _ SE (proj1 A1)) as A2. set (m6 := mask_where E (mask_where C m5)) in *.
    exists (map (select valid) m6). assert (Nr : k <> "range") by (intros ->; congruence). split.
    { rewrite L8, L7. destruct (String.eqb_spec k "range") as [->|_]; [congruence|]. rewrite L6. replace (lookup k d5) with (Some (N2 m5)). reflexivity. }
    destruct A2 as [S6 A2]. split; [rewrite map_length; destruct S6 as [-> _]; destruct (R _ _ K) as [-> _]; reflexivity|]. split.
    { intros row. rewrite Eg. apply sized_row with nt. apply sized_select with n; assumption. }
    intros i g j x b G X. rewrite Eg in G. rewrite (pixel_select nt n valid m6 i g j S6 Lv G).
    destruct (sized_pixel _ _ _ _ _ _ (R _ _ K) X) as [I J]. destruct (P1 _ _ _ _ X) as (x' & X1 & Hx).
    destruct (adds_trans _ _ _ _ _ _ _ (adds_trans _ _ _ _ _ _ _ Ap A1) (conj S6 A2)) as [_ H]. destruct (H _ _ _ _ X1) as (b' & X6 & I6).
    exists x', b'. split; [exact X6|]. split; [exact Hx|]. rewrite I6, (FC _ _ I J), (FE _ _ I J). specialize (Bp _ _ I J).
    unfold copernicus_bad in *. fold (wide i j) (fast i j) (near i j) in *. tauto.
  - exists (select valid range'). split; [rewrite L8, L7; reflexivity|]. rewrite Eg, <- Er. apply select_at. unfold range'. rewrite map_length. congruence.
  - intros k l K N. rewrite L8, L7. destruct (String.eqb_spec k "range") as [->|_]; [congruence|]. rewrite L6, L5. destruct (String.eqb_spec k "v") as [->|_]; [congruence|].
    rewrite L2. destruct (String.eqb_spec k "Zh") as [->|_]; [congruence|]. replace (lookup k d) with (Some (N1 l)). cbn [option_map mask_var cut_range].
    destruct (String.eqb_spec k "range") as [->|_]; [congruence|reflexivity].
  - intros k x K. rewrite L8, L7. destruct (String.eqb_spec k "range") as [->|_]; [congruence|]. rewrite L6, L5. destruct (String.eqb_spec k "v") as [->|_]; [congruence|].
    rewrite L2. destruct (String.eqb_spec k "Zh") as [->|_]; [congruence|]. replace (lookup k d) with (Some (N0 x)). reflexivity.
Qed.

(** ** Reading *)
Lemma read_cells l : Forall2 read_cell l (map mask_infinite l).
Proof.
  induction l as [|[x b] l IH]; cbn [map]; constructor; [|exact IH]. split; [reflexivity|].
  unfold mask_infinite, hide, number, hidden. cbn [fst snd]. rewrite orb_true_iff. destruct x; cbn [is_masked]; split; intros [H|H]; try tauto; try discriminate.
Qed.
Lemma read_variable_as v : read_as v (read_variable v).
Proof.
  destruct v as [x|l|m]; cbn [read_variable read_as]; [reflexivity|apply read_cells|]. unfold imap. induction m as [|r m IH]; cbn [map]; constructor; [apply read_cells|exact IH].
Qed.
Lemma read_cell_unique x y y' : read_cell x y -> read_cell x y' -> y = y'.
Proof. destruct x, y as [y1 y2], y' as [z1 z2]. unfold read_cell. cbn [fst snd]. intros [-> A] [-> B]. f_equal. destruct y2, z2; try reflexivity; [symmetry; apply B, A; reflexivity|apply A, B; reflexivity]. Qed.
Lemma forall2_unique {A B} (P : A -> B -> Prop) : (forall x y y', P x y -> P x y' -> y = y') -> forall l a b, Forall2 P l a -> Forall2 P l b -> a = b.
Proof. intros U l a b H. revert b. induction H as [|x y l a H1 H IH]; intros b Hb; inversion Hb; subst; [reflexivity|]. f_equal; eauto. Qed.
Lemma read_as_unique v a b : read_as v a -> read_as v b -> a = b.
Proof.
  destruct v, a, b; cbn [read_as]; try contradiction; intros H1 H2; f_equal; [congruence|exact (forall2_unique _ read_cell_unique _ _ _ H1 H2)|].
  exact (forall2_unique _ (forall2_unique _ read_cell_unique) _ _ _ H1 H2).
Qed.
Lemma init_data_skip file name : forall keymap d, (forall key, In (key, name) keymap -> lookup key file = None) -> lookup name (init_data file keymap d) = lookup name d.
Proof.
  induction keymap as [|[key nm] keymap IH]; intros d H; [reflexivity|]. cbn [init_data]. rewrite IH by (intros k K; apply H; right; exact K).
  destruct (lookup key file) as [v|] eqn:E; [|reflexivity]. rewrite set_lookup. destruct (String.eqb_spec name nm) as [->|_]; [|reflexivity].
  rewrite (H key) in E by (left; reflexivity). discriminate.
Qed.
Lemma init_data_last file name v : forall pre key post d, lookup key file = Some v -> (forall k, In (k, name) post -> lookup k file = None) ->
  lookup name (init_data file (pre ++ (key, name) :: post) d) = Some (read_variable v).
Proof.
  induction pre as [|[k0 n0] pre IH]; intros key post d E H.
  - cbn [app init_data]. rewrite init_data_skip by exact H. rewrite E, set_lookup, String.eqb_refl. reflexivity.
  - cbn [app init_data]. apply IH; assumption.
Qed.
Lemma last_or_none file name : forall keymap, (exists v, last_present file keymap name v) \/ (forall key, In (key, name) keymap -> lookup key file = None).
Proof.
  induction keymap as [|[k0 n0] keymap [(v & pre & key & post & -> & E & H)|H]]; [right; intros key []|left; exists v, ((k0, n0) :: pre), key, post; auto|].
  destruct (String.eqb_spec n0 name) as [->|N].
  - destruct (lookup k0 file) as [v|] eqn:E; [left; exists v, [], k0, keymap; auto|]. right. intros key [K|K]; [congruence|auto].
  - right. intros key [K|K]; [congruence|auto].
Qed.
Lemma init_data_iff file keymap name v' : lookup name (init_data file keymap []) = Some v' <-> exists v, last_present file keymap name v /\ read_as v v'.
Proof.
  split.
  - intros L. destruct (last_or_none file name keymap) as [(v & pre & key & post & E & K & H)|H].
    + exists v. split; [exists pre, key, post; auto|]. rewrite E, (init_data_last file name v pre key post [] K H) in L. assert (v' = read_variable v) by congruence. subst v'. apply read_variable_as.
    + rewrite init_data_skip in L by exact H. discriminate.
  - intros (v & (pre & key & post & -> & K & H) & A). rewrite (init_data_last file name v pre key post [] K H). f_equal. apply read_as_unique with v; [apply read_variable_as|exact A].
Qed.
Lemma init_data_none file keymap name : lookup name (init_data file keymap []) = None <-> forall key, In (key, name) keymap -> lookup key file = None.
Proof.
  split.
  - intros L. destruct (last_or_none file name keymap) as [(v & pre & key & post & -> & K & H)|H]; [|exact H].
    rewrite (init_data_last file name v pre key post [] K H) in L. discriminate.
  - intros H. rewrite init_data_skip by exact H. reflexivity.
Qed.
Lemma forallb_false_exists {A} (f : A -> bool) l : forallb f l = false -> exists x, In x l /\ f x = false.
Proof.
  induction l as [|x l IH]; cbn [forallb]; [discriminate|]. intros H. destruct (f x) eqn:E; [|exists x; split; [left; reflexivity|exact E]].
  destruct (IH H) as (y & I & F). exists y. split; [right; exact I|exact F].
Qed.
Lemma all_masked_iff d v : lookup "v" d = Some (N2 v) ->
  (test_if_all_masked d = Raise RadarDataError <-> forall i j x b, pixel v i j = Some (x, b) -> b = true) /\
  (test_if_all_masked d = Ok tt <-> exists i j x, pixel v i j = Some (x, false)).
Proof.
  intros L. unfold test_if_all_masked. rewrite (image_of_ok _ _ _ L). cbn [bind].
  assert (H : forallb (forallb hidden) v = true <-> forall i j x b, pixel v i j = Some (x, b) -> b = true).
  { rewrite forallb_forall. split.
    - intros H i j x b P. unfold pixel in P. destruct (nth_error v i) as [row|] eqn:E; [|discriminate]. specialize (H row (nth_error_In _ _ E)).
      rewrite forallb_forall in H. exact (H (x, b) (nth_error_In _ _ P)).
    - intros H row I. rewrite forallb_forall. intros [x b] J. destruct (In_nth_error _ _ I) as [i E]. destruct (In_nth_error _ _ J) as [j F].
      apply (H i j x b). unfold pixel. rewrite E. exact F. }
  assert (N : forallb (forallb hidden) v = false <-> exists i j x, pixel v i j = Some (x, false)).
  { split.
    - intros F. destruct (forallb_false_exists _ _ F) as (row & I & G). destruct (forallb_false_exists _ _ G) as ([x b] & J & B). unfold hidden in B. cbn [snd] in B. subst b.
      destruct (In_nth_error _ _ I) as [i E]. destruct (In_nth_error _ _ J) as [j K]. exists i, j, x. unfold pixel. rewrite E. exact K.
    - intros (i & j & x & P). apply not_true_iff_false. intros F. rewrite H in F. specialize (F _ _ _ _ P). discriminate. }
  destruct (forallb (forallb hidden) v); split; split; intros X; try reflexivity; try discriminate; try (apply H; reflexivity); try (apply N; reflexivity).
  - apply N in X. discriminate.
  - apply H in X. discriminate.
Qed.
(** ** BASTA *)
Lemma screen_background_lookup mask k : forall names d, NoDup names ->
  lookup k (screen_background mask names d) = if existsb (String.eqb k) names then option_map (mask_var (imap background mask)) (lookup k d) else lookup k d.
Proof.
  induction names as [|n names IH]; intros d N; [reflexivity|]. inversion N as [|? ? H1 H2]. subst. cbn [screen_background existsb]. rewrite IH by exact H2.
  destruct (String.eqb_spec k n) as [E|D]; cbn [orb].
  - subst k. assert (existsb (String.eqb n) names = false) as ->.
    { apply not_true_iff_false. intros X. apply existsb_exists in X. destruct X as (y & I & Y). apply String.eqb_eq in Y. subst y. contradiction. }
    destruct (lookup n d) as [[x|l|m]|] eqn:L; cbn [option_map mask_var]; try exact L. rewrite set_lookup, String.eqb_refl. reflexivity.
  - destruct (lookup n d) as [[x|l|m]|]; try reflexivity. rewrite set_lookup. destruct (String.eqb_spec k n); [contradiction|reflexivity].
Qed.
Lemma background_iff nt n mask i j : sized nt n mask -> i < nt -> j < n -> (flag (imap background mask) i j <-> ~ signal mask i j).
Proof.
  intros S I J. unfold flag, signal. rewrite pixel_imap. destruct (sized_some _ _ _ _ _ S I J) as [[x b] P]. rewrite P. cbn [option_map].
  unfold background, hidden, test, number. cbn [fst snd]. split.
  - intros H (q & X & E). assert (x = Some q /\ b = false) as [-> ->] by (split; congruence). cbn [orb] in H.
    assert (Qeq_bool 1 q = true) by (apply Qeq_bool_iff; symmetry; exact E). rewrite H0 in H. discriminate.
  - intros N. f_equal. destruct b; [reflexivity|]. cbn [orb]. destruct x as [q|]; [|reflexivity]. destruct (Qeq_bool 1 q) eqn:E; [|reflexivity].
    exfalso. apply N. exists q. split; [reflexivity|]. apply Qeq_bool_iff in E. symmetry. exact E.
Qed.
Lemma basta_lookup file mask name key : lookup "background_mask" file = Some (N2 mask) -> In (key, name) basta_keymap ->
  exists d, basta_data file = Ok d /\ lookup name d = option_map (fun v => mask_var (imap background mask) (read_variable v)) (lookup key file).
Proof.
  intros M I. unfold basta_data. rewrite (image_of_ok _ _ _ M). cbn [bind]. eexists. split; [reflexivity|].
  rewrite screen_background_lookup by (cbn; repeat constructor; cbn; intuition congruence).
  assert (E : lookup name (init_data file basta_keymap []) = option_map read_variable (lookup key file)).
  { destruct (lookup key file) as [v|] eqn:L; cbn [option_map].
    - destruct (in_split _ _ I) as (pre & post & E). assert (U : forall k, In (k, name) post -> lookup k file = None).
      { intros k K. exfalso. assert (N : NoDup (map snd basta_keymap)) by (cbn; repeat constructor; cbn; intuition congruence).
        rewrite E, map_app in N. cbn [map snd] in N. apply NoDup_remove_2 in N. apply N, in_or_app. right. apply in_map_iff. exists (k, name). auto. }
      rewrite E. apply init_data_last; assumption.
    - apply init_data_none. intros k K. assert (k = key) as ->; [|exact L]. cbn [basta_keymap In] in I, K.
      repeat (destruct I as [I|I]; [injection I as <- <-; repeat (destruct K as [K|K]; [congruence|]); destruct K|]). destruct I. }
  rewrite E. assert (existsb (String.eqb name) (map snd basta_keymap) = true) as ->.
  { apply existsb_exists. exists name. split; [apply in_map_iff; exists (key, name); auto|apply String.eqb_refl]. }
  destruct (lookup key file); reflexivity.
Qed.
Lemma basta_image nt n file mask name key m : lookup "background_mask" file = Some (N2 mask) -> In (key, name) basta_keymap -> lookup key file = Some (N2 m) ->
  sized nt n mask -> sized nt n m ->
  exists d m', basta_data file = Ok d /\ lookup name d = Some (N2 m') /\ sized nt n m' /\
    forall i j x b, pixel m i j = Some (x, b) -> exists b', pixel m' i j = Some (x, b') /\ (b' = true <-> b = true \/ x = None \/ ~ signal mask i j).
Proof.
  intros M I L Sm Si. destruct (basta_lookup file mask name key M I) as (d & E & N). rewrite L in N. cbn [option_map read_variable mask_var] in N.
  exists d. eexists. split; [exact E|]. split; [exact N|].
  destruct (adds_mask nt n (imap background mask) (imap mask_infinite m) (sized_imap _ _ _ _ Sm) (sized_imap _ _ _ _ Si)) as [S A]. split; [exact S|].
  intros i j x b P. destruct (sized_pixel _ _ _ _ _ _ Si P) as [Hi Hj]. destruct (A i j x (b || is_masked x)) as (b' & P' & H).
  { rewrite pixel_imap, P. reflexivity. }
  exists b'. split; [exact P'|]. rewrite H, orb_true_iff, (background_iff nt n mask i j Sm Hi Hj). destruct x; cbn [is_masked]; intuition congruence.
Qed.
(** ** Dates *)
Lemma digit_iff c d : digit_of c = Some d <-> (0 <= d <= 9)%Z /\ Z.of_nat (nat_of_ascii c) = (48 + d)%Z.
Proof.
  unfold digit_of. destruct ((48 <=? nat_of_ascii c) && (nat_of_ascii c <=? 57)) eqn:E.
  - apply andb_true_iff in E. rewrite !Nat.leb_le in E. split; [intros H; assert (d = Z.of_nat (nat_of_ascii c - 48)) by congruence; lia|]. intros H. f_equal. lia.
  - apply andb_false_iff in E. rewrite !Nat.leb_gt in E. split; [discriminate|]. lia.
Qed.
Lemma digits_value_snoc : forall s n acc c, digits_value (S n) acc (s ++ String c "")%string =
  match digits_value n acc s with Some v => match digit_of c with Some k => Some (10 * v + k)%Z | None => None end | None => None end.
Proof.
  induction s as [|x s IH]; intros n acc c.
  - cbn [append]. destruct n as [|n]; cbn [digits_value].
    + destruct (digit_of c); reflexivity.
    + destruct (digit_of c); reflexivity.
  - cbn [append digits_value]. destruct n as [|n].
    + destruct (digit_of x) as [k|]; [|reflexivity]. destruct s; cbn [append digits_value]; reflexivity.
    + destruct (digit_of x) as [k|]; [|reflexivity]. apply IH.
Qed.
Lemma string_snoc : forall s, s <> "" -> exists s' c, s = (s' ++ String c "")%string.
Proof.
  induction s as [|x s IH]; intros H; [congruence|]. destruct s as [|y s]; [exists "", x; reflexivity|].
  destruct IH as (s' & c & E); [discriminate|]. exists (String x s'), c. rewrite E. reflexivity.
Qed.
Lemma decimal_iff n : forall s z, digits_value n 0 s = Some z <-> decimal n s z.
Proof.
  induction n as [|n IH]; intros s z; split.
  - destruct s; cbn [digits_value]; [|discriminate]. intros H. assert (z = 0)%Z by congruence. subst z. constructor.
  - intros H. inversion H; subst. reflexivity.
  - intros H. destruct (string_snoc s) as (s' & c & ->); [intros ->; discriminate|]. rewrite digits_value_snoc in H. destruct (digits_value n 0 s') as [v|] eqn:E; [|discriminate].
    destruct (digit_of c) as [k|] eqn:D; [|discriminate]. assert (z = 10 * v + k)%Z by congruence. subst z. apply IH in E. apply digit_iff in D. destruct D. constructor; assumption.
  - intros H. inversion H; subst. rewrite digits_value_snoc. rewrite (proj2 (IH _ _) H1). rewrite (proj2 (digit_iff c d) (conj H2 H3)). reflexivity.
Qed.
Lemma digits_value_without : forall s n acc z, digits_value n acc s = Some z -> without "-" s.
Proof.
  induction s as [|x s IH]; intros n acc z H; intros (a & b & E).
  - destruct a; discriminate.
  - destruct n as [|n]; [discriminate|]. cbn [digits_value] in H. destruct (digit_of x) as [k|] eqn:D; [|discriminate]. destruct a as [|y a]; cbn [append] in E.
    + assert (x = "-"%char) by congruence. subst x. discriminate.
    + apply (IH _ _ _ H). exists a, b. congruence.
Qed.
Lemma fromisoformat_iff s y m d : fromisoformat s = Ok (y, m, d) <-> iso_date s y m d.
Proof.
  unfold fromisoformat, iso_date. split.
  - destruct (split_on "-" s) as [|a [|b [|c [|x l]]]] eqn:E; try discriminate.
    destruct (digits_value 4 0 a) as [ya|] eqn:A; [|discriminate]. destruct (digits_value 2 0 b) as [mb|] eqn:B; [|discriminate]. destruct (digits_value 2 0 c) as [dc|] eqn:C; [|discriminate].
    destruct ((1 <=? ya) && (1 <=? mb) && (mb <=? 12) && (1 <=? dc))%Z eqn:G; [|discriminate]. rewrite !andb_true_iff, !Z.leb_le in G.
    unfold datetime. destruct (dc <=? month_days ya mb)%Z eqn:D; [|discriminate]. intros H. assert (ya = y /\ mb = m /\ dc = d) as (-> & -> & ->) by (repeat split; congruence).
    apply split_on_iff in E. destruct E as (_ & _ & E). exists a, b, c. split; [rewrite E; reflexivity|]. apply decimal_iff in A, B, C.
    split; [exact A|]. split; [exact B|]. split; [exact C|]. split; [lia|]. apply month_days_iff; [lia| |exact D].
    pose proof D as D'. apply Z.leb_le in D'. unfold month_days in D'. destruct (m =? 2)%Z; [destruct (leap y); lia|]. destruct ((m =? 4) || (m =? 6) || (m =? 9) || (m =? 11))%Z; lia.
  - intros (a & b & c & -> & A & B & C & Y & G). apply decimal_iff in A, B, C.
    assert (split_on "-" (a ++ "-" ++ b ++ "-" ++ c)%string = [a; b; c]) as ->.
    { apply split_on_iff. split; [discriminate|]. split; [|reflexivity]. repeat constructor; eapply digits_value_without; eassumption. }
    rewrite A, B, C. pose proof G as (M & D & _). replace ((1 <=? y) && (1 <=? m) && (m <=? 12) && (1 <=? d))%Z with true by (symmetry; rewrite !andb_true_iff, !Z.leb_le; lia).
    unfold datetime. rewrite (proj2 (month_days_iff y m d ltac:(lia) ltac:(lia)) G). reflexivity.
Qed.
Lemma words_third s w : nth_error (words s) 2 = Some w <-> third_word s w.
Proof.
  unfold third_word. split.
  - intros H. pose proof (words_exist s) as W. destruct (words s) as [|a [|b [|c l]]]; try discriminate. assert (c = w) by (cbn in H; congruence). subst c. eauto.
  - intros (a & b & rest & W). rewrite (words_unique _ _ W). reflexivity.
Qed.
Lemma same_date_iff a b : same_date a b = true <-> a = b.
Proof.
  destruct a as [[y m] d], b as [[y' m'] d']. unfold same_date. rewrite !andb_true_iff, !Z.eqb_eq. split; [intros [[-> ->] ->]; reflexivity|]. intros H. repeat split; congruence.
Qed.
Lemma validate_date_spec units e :
  (validate_date units e = Ok tt <-> exists w, third_word units w /\ iso_date w (fst (fst e)) (snd (fst e)) (snd e)) /\
  (validate_date units e = Raise ValidTimeStampError <-> exists w y m d, third_word units w /\ iso_date w y m d /\ (y, m, d) <> e) /\
  (validate_date units e = Raise IndexError <-> forall w, ~ third_word units w) /\
  (validate_date units e = Raise ValueError <-> exists w, third_word units w /\ forall y m d, ~ iso_date w y m d).
Proof.
  unfold validate_date. destruct (nth_error (words units) 2) as [w|] eqn:W.
  - assert (U : forall w', third_word units w' <-> w' = w).
    { intros w'. rewrite <- words_third, W. split; intros; congruence. }
    destruct (fromisoformat w) as [[[y m] d]|x] eqn:F; cbn [bind].
    + assert (I : forall y' m' d', iso_date w y' m' d' <-> (y', m', d') = (y, m, d)).
      { intros y' m' d'. rewrite <- fromisoformat_iff, F. split; [intros; congruence|]. intros [= -> -> ->]. reflexivity. }
      destruct (same_date e (y, m, d)) eqn:S.
      * apply same_date_iff in S. subst e. cbn [fst snd]. split; [|split; [|split]]; (split; [|]); try discriminate; try reflexivity.
        -- intros _. exists w. split; [apply U; reflexivity|]. apply I. reflexivity.
        -- intros (w' & y' & m' & d' & H1 & H2 & H3). apply U in H1. subst w'. apply I in H2. congruence.
        -- intros H. exfalso. apply (H w), U. reflexivity.
        -- intros (w' & H1 & H2). apply U in H1. subst w'. exfalso. apply (H2 y m d), I. reflexivity.
      * assert (N : e <> (y, m, d)) by (intros E; apply same_date_iff in E; congruence).
        split; [|split; [|split]]; (split; [|]); try discriminate; try reflexivity.
        -- intros (w' & H1 & H2). apply U in H1. subst w'. apply I in H2. destruct e as [[a b] c]. cbn [fst snd] in H2. congruence.
        -- intros _. exists w, y, m, d. split; [apply U; reflexivity|]. split; [apply I; reflexivity|congruence].
        -- intros H. exfalso. apply (H w), U. reflexivity.
        -- intros (w' & H1 & H2). apply U in H1. subst w'. exfalso. apply (H2 y m d), I. reflexivity.
    + assert (Vx : x = ValueError).
      { unfold fromisoformat in F. destruct (split_on "-" w) as [|a [|b [|c [|q l]]]]; try congruence.
        destruct (digits_value 4 0 a); [|congruence]. destruct (digits_value 2 0 b); [|congruence]. destruct (digits_value 2 0 c); [|congruence].
        destruct (_ && _)%bool; [|congruence]. unfold datetime in F. destruct (_ <=? _)%Z; congruence. }
      assert (I : forall y' m' d', ~ iso_date w y' m' d') by (intros y' m' d' H; apply fromisoformat_iff in H; congruence).
      subst x. split; [|split; [|split]]; (split; [|]); try discriminate; try reflexivity.
      * intros (w' & H1 & H2). apply U in H1. subst w'. destruct (I _ _ _ H2).
      * intros (w' & y' & m' & d' & H1 & H2 & H3). apply U in H1. subst w'. destruct (I _ _ _ H2).
      * intros H. exfalso. apply (H w), U. reflexivity.
      * intros _. exists w. split; [apply U; reflexivity|exact I].
  - assert (U : forall w', ~ third_word units w') by (intros w' H; apply words_third in H; congruence).
    split; [|split; [|split]]; (split; [|]); try discriminate; try reflexivity.
    + intros (w' & H1 & H2). destruct (U _ H1).
    + intros (w' & y' & m' & d' & H1 & H2 & H3). destruct (U _ H1).
    + intros _. exact U.
    + intros (w' & H1 & H2). destruct (U _ H1).
Qed.
(** ** BOW-TIE *)
Lemma scaled_cell c x : times_cell c x (scaled c x).
Proof.
  destruct x as [x b]. unfold scaled, hidden, number, times_cell. cbn [fst snd]. split; [reflexivity|]. intros ->. destruct x as [q|]; cbn [option_map]; [|reflexivity].
  eexists. split; [reflexivity|]. reflexivity.
Qed.
Lemma scale_var_times c v : times c v (scale_var c v).
Proof.
  destruct v as [x|l|m]; cbn [scale_var times]; [apply scaled_cell| |].
  - induction l as [|x l IH]; cbn [map]; constructor; [apply scaled_cell|exact IH].
  - unfold imap. induction m as [|r m IH]; cbn [map]; constructor; [|exact IH]. induction r as [|x r IHr]; cbn [map]; constructor; [apply scaled_cell|exact IHr].
Qed.
Lemma times_qeq c c' v v' : (c == c')%Q -> times c v v' -> times c' v v'.
Proof.
  intros E. assert (C : forall x y, times_cell c x y -> times_cell c' x y).
  { intros x y [H1 H2]. split; [exact H1|]. intros F. specialize (H2 F). destruct (fst x) as [q|]; [|exact H2]. destruct H2 as (r & R & H). exists r. split; [exact R|]. rewrite <- E. exact H. }
  destruct v, v'; cbn [times]; try tauto; [apply C| |].
  - induction 1; constructor; auto.
  - induction 1 as [|r r' m m' H1 H2 IH]; constructor; [|exact IH]. clear -C H1. induction H1; constructor; auto.
Qed.
Lemma convert_units_spec d :
  (forall d', convert_units d = Ok d' ->
     (forall name c v, bowtie_factor name c -> lookup name d = Some v -> exists v', lookup name d' = Some v' /\ times c v v') /\
     (forall name, (forall c, ~ bowtie_factor name c) -> lookup name d' = lookup name d)) /\
  (convert_units d = Raise KeyError <-> lookup "lwp" d = None \/ lookup "rainfall_rate" d = None \/ lookup "relative_humidity" d = None) /\
  (forall e, convert_units d = Raise e -> e = KeyError).
Proof.
  unfold convert_units. cbn [convert].
  destruct (lookup "lwp" d) as [v1|] eqn:E1.
  2: { split; [discriminate|]. split; [split; [auto|reflexivity]|]. intros e H. congruence. }
  destruct (lookup "rainfall_rate" d) as [v2|] eqn:E2.
  2: { rewrite set_lookup. cbn [String.eqb Ascii.eqb Bool.eqb]. replace (lookup "rainfall_rate" d) with (@None nvar). split; [discriminate|]. split; [split; [auto|reflexivity]|]. intros e H. congruence. }
  rewrite set_lookup. cbn [String.eqb Ascii.eqb Bool.eqb]. replace (lookup "rainfall_rate" d) with (Some v2).
  rewrite !set_lookup. cbn [String.eqb Ascii.eqb Bool.eqb].
  destruct (lookup "relative_humidity" d) as [v3|] eqn:E3.
  2: { split; [discriminate|]. split; [split; [auto|reflexivity]|]. intros e H. congruence. }
  split; [|split; [split; [discriminate|]|discriminate]]; [|intros [H|[H|H]]; discriminate].
  intros d' H. assert (d' = set_key "relative_humidity" (scale_var (1 # 100) v3) (set_key "rainfall_rate" (scale_var (1 # 3600000) v2) (set_key "lwp" (scale_var (1 # 1000) v1) d))) by congruence.
  clear H. subst d'. split.
  - intros name c v F L. rewrite !set_lookup. destruct F as [[-> F]|[[-> F]|[-> F]]]; cbn [String.eqb Ascii.eqb Bool.eqb].
    + assert (v = v1) by congruence. subst v. eexists. split; [reflexivity|]. apply times_qeq with (1 # 1000)%Q; [lra|apply scale_var_times].
    + assert (v = v2) by congruence. subst v. eexists. split; [reflexivity|]. apply times_qeq with (1 # 3600000)%Q; [lra|apply scale_var_times].
    + assert (v = v3) by congruence. subst v. eexists. split; [reflexivity|]. apply times_qeq with (1 # 100)%Q; [lra|apply scale_var_times].
  - intros name N. rewrite !set_lookup.
    destruct (String.eqb_spec name "relative_humidity") as [->|_]; [exfalso; apply (N (1 # 100)%Q); right; right; split; reflexivity|].
    destruct (String.eqb_spec name "rainfall_rate") as [->|_]; [exfalso; apply (N (1 # 3600000)%Q); right; left; split; reflexivity|].
    destruct (String.eqb_spec name "lwp") as [->|_]; [exfalso; apply (N (1 # 1000)%Q); left; split; reflexivity|]. reflexivity.
Qed.
Lemma correction_bits_spec d v : lookup "v" d = Some (N2 v) ->
  exists d' bits, add_correction_bits d = Ok d' /\ lookup "correction_bits" d' = Some (N2 bits) /\
    (forall k, k <> "correction_bits" -> lookup k d' = lookup k d) /\
    forall i j, pixel bits i j = option_map (fun x : cell => (Some 1%Q, snd x)) (pixel v i j).
Proof.
  intros L. unfold add_correction_bits. rewrite (image_of_ok _ _ _ L). cbn [bind]. do 2 eexists. split; [reflexivity|].
  split; [rewrite set_lookup; reflexivity|]. split; [intros k N; rewrite set_lookup; destruct (String.eqb_spec k "correction_bits"); [contradiction|reflexivity]|].
  intros i j. apply pixel_imap.
Qed.

(** ** MIRA: file types *)
Lemma all_chars_iff p P s : (forall c, p c = true <-> P c) -> (all_chars p s = true <-> forall a c b, s = (a ++ String c b)%string -> P c).
Proof.
  intros H. induction s as [|x s IH]; cbn [all_chars].
  - split; [|reflexivity]. intros _ a c b E. destruct a; discriminate.
  - rewrite andb_true_iff, IH, H. split.
    + intros [X A] a c b E. destruct a as [|y a]; cbn [append] in E; [assert (x = c) by congruence; subst; exact X|]. apply (A a c b). congruence.
    + intros A. split; [apply (A "" x s); reflexivity|]. intros a c b E. apply (A (String x a) c b). rewrite E. reflexivity.
Qed.
Lemma word_char_iff c : word_char c = true <-> word_letter c.
Proof. unfold word_char, word_letter. rewrite !orb_true_iff, !andb_true_iff, !Nat.leb_le, Nat.eqb_eq. lia. Qed.
Lemma is_word_iff s : is_word s = true <-> file_word s.
Proof.
  unfold is_word, file_word, all_of. rewrite andb_true_iff, negb_true_iff, (all_chars_iff _ word_letter) by exact word_char_iff.
  destruct (String.eqb_spec s ""); split; intros [H1 H2]; (split; [congruence|exact H2]).
Qed.
Lemma is_number_iff s : is_number s = true <-> file_number s.
Proof.
  unfold is_number, file_number, all_of. rewrite andb_true_iff, negb_true_iff, (all_chars_iff _ (fun c => 48 <= nat_of_ascii c <= 57)).
  - destruct (String.eqb_spec s ""); split; intros [H1 H2]; (split; [congruence|exact H2]).
  - intros c. unfold digit_of. destruct ((48 <=? nat_of_ascii c) && (nat_of_ascii c <=? 57)) eqn:E.
    + apply andb_true_iff in E. rewrite !Nat.leb_le in E. tauto.
    + apply andb_false_iff in E. rewrite !Nat.leb_gt in E. split; [discriminate|lia].
Qed.
Lemma word_without w : file_word w -> without "." w.
Proof. intros [_ H] (a & b & E). specialize (H _ _ _ E). cbv in H. lia. Qed.
Lemma number_word k : file_number k -> file_word k.
Proof. intros [N H]. split; [exact N|]. intros a c b E. left. exact (H _ _ _ E). Qed.
Lemma concat_snoc c : forall l w, l <> [] -> String.concat c (l ++ [w]) = (String.concat c l ++ c ++ w)%string.
Proof.
  induction l as [|x l IH]; intros w N; [congruence|]. destruct l as [|y l]; [reflexivity|].
  change ((x :: y :: l) ++ [w]) with (x :: (y :: l) ++ [w]). cbn [String.concat]. destruct ((y :: l) ++ [w]) as [|z r] eqn:E; [discriminate|]. rewrite <- E, IH by discriminate.
  cbn [String.concat]. rewrite <- !OutputProofs.append_assoc. reflexivity.
Qed.
Lemma split_snoc c a w : without c w -> split_on c (a ++ String c w) = split_on c a ++ [w].
Proof.
  intros W. apply split_on_iff. destruct (split_on_spec c a) as (N & F & E). split; [destruct (split_on c a); discriminate|]. split; [apply Forall_app; auto|].
  rewrite concat_snoc by exact N. rewrite <- E. reflexivity.
Qed.
Lemma suffix_two pre a b : suffix_of (pre ++ [a; b]) = if is_word a && is_number b then a else if is_word b then b else "".
Proof.
  induction pre as [|x pre IH]; [reflexivity|]. destruct pre as [|y pre]; [reflexivity|].
  change ((x :: y :: pre) ++ [a; b]) with (x :: y :: pre ++ [a; b]). destruct (pre ++ [a; b]) as [|z r] eqn:E; [destruct pre; discriminate|].
  change (suffix_of (x :: y :: z :: r)) with (suffix_of (y :: z :: r)). rewrite <- E. exact IH.
Qed.
Lemma snoc_cases A (l : list A) : l = [] \/ exists pre x, l = pre ++ [x].
Proof. induction l as [|x l IH] using rev_ind; [auto|]. right. eauto. Qed.
Lemma append_mid a w k : (a ++ String "." (w ++ String "." k) = (a ++ String "." w) ++ String "." k)%string.
Proof. rewrite OutputProofs.append_assoc. reflexivity. Qed.
Lemma parts_cases (l : list string) : l = [] \/ (exists a, l = [a]) \/ exists pre a b, l = pre ++ [a; b].
Proof.
  destruct (snoc_cases _ l) as [->|(l1 & x & ->)]; [auto|]. destruct (snoc_cases _ l1) as [->|(l2 & y & ->)]; [right; left; exists x; reflexivity|].
  right. right. exists l2, y, x. rewrite <- app_assoc. reflexivity.
Qed.
Lemma suffix_iff name w : extension name w -> get_suffix name = lower w.
Proof.
  intros (W & H). pose proof (word_without _ W) as Wd. unfold get_suffix. destruct H as [(a & -> & H)|(a & k & -> & K)].
  - change (a ++ "." ++ w)%string with (a ++ String "." w)%string. rewrite (split_snoc "." a w Wd).
    destruct (split_on "." a) as [|f l] eqn:E; [destruct (split_on_nonempty "." a E)|]. cbn [app].
    f_equal. destruct (snoc_cases _ l) as [->|(l1 & x & ->)]; [cbn [app suffix_of]; rewrite (proj2 (is_word_iff w) W); reflexivity|].
    rewrite <- app_assoc. change ([x] ++ [w]) with [x; w]. rewrite suffix_two, (proj2 (is_word_iff w) W). destruct (is_word x && is_number w) eqn:B; [|reflexivity].
    exfalso. apply H. apply andb_true_iff in B. rewrite is_word_iff, is_number_iff in B. destruct B as [B1 B2]. split; [exact B2|].
    destruct (split_on_spec "." a) as (_ & _ & X). rewrite E in X. change (f :: l1 ++ [x]) with ((f :: l1) ++ [x]) in X. rewrite concat_snoc in X by discriminate.
    exists (String.concat "." (f :: l1)), x. split; [exact X|exact B1].
  - change (a ++ "." ++ w ++ "." ++ k)%string with (a ++ String "." (w ++ String "." k))%string. rewrite append_mid.
    rewrite (split_snoc "." (a ++ String "." w) k) by (apply word_without, number_word, K). rewrite (split_snoc "." a w Wd).
    destruct (split_on "." a) as [|f l] eqn:E; [destruct (split_on_nonempty "." a E)|]. cbn [app]. rewrite <- app_assoc. change ([w] ++ [k]) with [w; k].
    rewrite suffix_two, (proj2 (is_word_iff w) W), (proj2 (is_number_iff k) K). reflexivity.
Qed.
Lemma suffix_cases name : (exists w, extension name w) \/ get_suffix name = "".
Proof.
  unfold get_suffix. destruct (split_on "." name) as [|f parts] eqn:E; [auto|].
  destruct (split_on_spec "." name) as (_ & F & X). rewrite E in F, X.
  destruct (parts_cases parts) as [->|[(a & ->)|(pre & a & b & ->)]]; [auto| |].
  - cbn [suffix_of]. destruct (is_word a) eqn:W; [|auto]. left. exists a. apply is_word_iff in W. split; [exact W|]. left. exists f. split; [exact X|].
    intros [_ (a' & v & Ef & _)]. inversion F as [|? ? F1 _]. apply F1. exists a', v. exact Ef.
  - rewrite suffix_two. change (f :: pre ++ [a; b]) with ((f :: pre) ++ [a; b]) in *. change [a; b] with ([a] ++ [b]) in X. rewrite app_assoc, concat_snoc, concat_snoc in X; [|discriminate|destruct pre; discriminate].
    destruct (is_word a && is_number b) eqn:B.
    + left. apply andb_true_iff in B. rewrite is_word_iff, is_number_iff in B. destruct B as [B1 B2]. exists a. split; [exact B1|]. right. exists (String.concat "." (f :: pre)), b. split; [|exact B2].
      rewrite X, !OutputProofs.append_assoc. reflexivity.
    + destruct (is_word b) eqn:W; [|auto]. left. apply is_word_iff in W. exists b. split; [exact W|]. left. eexists. split; [exact X|].
      intros [Nb (a' & v & Ev & Fv)]. apply andb_false_iff in B.
      assert (v = a).
      { assert (S1 : split_on "." (String.concat "." (f :: pre) ++ String "." a) = (f :: pre) ++ [a]).
        { rewrite split_snoc.
          - f_equal. apply split_on_iff. split; [discriminate|]. split; [|reflexivity]. apply Forall_app in F. apply F.
          - apply Forall_app in F. destruct F as [_ F]. inversion F; assumption. }
        change ("." ++ a)%string with (String "." a) in Ev. rewrite Ev in S1. change ("." ++ v)%string with (String "." v) in S1. rewrite (split_snoc "." a' v (word_without _ Fv)) in S1.
        apply app_inj_tail in S1. destruct S1 as [_ ->]. reflexivity. }
      subst v. apply is_word_iff in Fv. apply is_number_iff in Nb. destruct B; congruence.
Qed.
Lemma no_capital_lower t : no_capital t -> all_lower t.
Proof.
  induction t as [|c t IH]; intros H; cbn [all_lower]; [exact I|]. split.
  - exact (H "" c t eq_refl).
  - apply IH. intros a x b ->. exact (H (String c a) x b eq_refl).
Qed.
Lemma lower_is_lower s : all_lower (lower s).
Proof.
  induction s as [|c s IH]; cbn [lower all_lower]; [exact I|]. split; [|exact IH]. unfold lower_case, lower_ascii.
  destruct ((65 <=? nat_of_ascii c) && (nat_of_ascii c <=? 90)) eqn:E.
  - apply andb_true_iff in E. rewrite !Nat.leb_le in E. rewrite nat_ascii_embedding by lia. lia.
  - apply andb_false_iff in E. rewrite !Nat.leb_gt in E. lia.
Qed.
Lemma all_lower_no_capital t : all_lower t -> no_capital t.
Proof.
  induction t as [|c t IH]; intros H a x b E; [destruct a; discriminate|]. destruct H as [H1 H2]. destruct a as [|y a]; cbn [append] in E.
  - assert (x = c) by congruence. subst. exact H1.
  - apply (IH H2 a x b). congruence.
Qed.
Lemma same_text_refl t : same_text t t.
Proof. induction t as [|c t IH]; cbn [same_text]; [exact I|]. split; [left; reflexivity|exact IH]. Qed.
Lemma lower_id t : all_lower t -> lower t = t.
Proof. intros H. apply (lower_same _ H), same_text_refl. Qed.
Lemma suffix_lower name : all_lower (get_suffix name).
Proof. destruct (suffix_cases name) as [(w & W)| ->]; [rewrite (suffix_iff _ _ W); apply lower_is_lower|exact I]. Qed.
Lemma file_type_iff t name : no_capital t -> t <> "" -> (file_type t name <-> get_suffix name = t).
Proof.
  intros C N. apply no_capital_lower in C. split.
  - intros (w & W & S). rewrite (suffix_iff _ _ W). apply (lower_same _ C), S.
  - intros E. destruct (suffix_cases name) as [(w & W)|X]; [|congruence]. exists w. split; [exact W|]. apply (lower_same _ C). rewrite <- (suffix_iff _ _ W). exact E.
Qed.
Lemma file_type_nonempty t name : file_type t name -> t <> "".
Proof. intros (w & ((N & _) & _) & S) ->. destruct w; [congruence|exact S]. Qed.
Lemma word_nonempty name w : extension name w -> lower w <> "".
Proof. intros ((N & _) & _). destruct w; [congruence|discriminate]. Qed.
Lemma mixed_iff t files f : get_suffix f = t -> (forallb (String.eqb t) (map get_suffix files) = false <-> mixed_types (f :: files)).
Proof.
  intros E. split.
  - intros B. assert (exists g, In g files /\ get_suffix g <> t) as (g & G & D).
    { apply forallb_false_exists in B. destruct B as (x & X & Y). apply in_map_iff in X. destruct X as (g & EX & G). exists g. split; [exact G|]. intros Eg. apply String.eqb_neq in Y. congruence. }
    destruct (string_dec t "") as [T|T].
    + exists g, f, (get_suffix g). split; [right; exact G|]. split; [left; reflexivity|]. pose proof (all_lower_no_capital _ (suffix_lower g)) as C. split; [exact C|].
      assert (N : get_suffix g <> "") by congruence. split; [apply file_type_iff; auto|]. intros H. apply (file_type_iff _ _ C N) in H. congruence.
    + exists f, g, t. split; [left; reflexivity|]. split; [right; exact G|]. assert (C : no_capital t) by (rewrite <- E; apply all_lower_no_capital, suffix_lower). split; [exact C|].
      split; [apply file_type_iff; auto|]. intros H. apply (file_type_iff _ _ C T) in H. congruence.
  - intros (a & b & u & A & B & C & Ta & Tb). pose proof (file_type_nonempty _ _ Ta) as N. apply (file_type_iff _ _ C N) in Ta. assert (Tb' : get_suffix b <> u) by (intros H; apply Tb, (file_type_iff _ _ C N), H).
    apply not_true_is_false. rewrite forallb_forall. intros H.
    assert (K : forall x, In x (f :: files) -> get_suffix x = t).
    { intros x [X|X]; [congruence|]. specialize (H (get_suffix x) (in_map _ _ _ X)). apply String.eqb_eq in H. congruence. }
    rewrite (K _ A) in Ta. rewrite (K _ B) in Tb'. congruence.
Qed.
Lemma capital_znc : no_capital "znc".
Proof. apply all_lower_no_capital. cbn. unfold lower_case. cbn. lia. Qed.
Lemma capital_mmclx : no_capital "mmclx".
Proof. apply all_lower_no_capital. cbn. unfold lower_case. cbn. lia. Qed.
Lemma keymaps_differ : znc_keymap <> mmclx_keymap.
Proof. discriminate. Qed.
Lemma keymap_spec files :
  (keymap_of_files files = Ok znc_keymap <-> files <> [] /\ Forall (file_type "znc") files) /\
  (keymap_of_files files = Ok mmclx_keymap <-> files <> [] /\ Forall (file_type "mmclx") files) /\
  (keymap_of_files files = Raise OSError <-> files = []) /\
  (keymap_of_files files = Raise TypeError <-> mixed_types files) /\
  (keymap_of_files files = Raise ValueError <-> ~ mixed_types files /\ exists f, In f files /\ ~ file_type "znc" f /\ ~ file_type "mmclx" f) /\
  (forall km, keymap_of_files files = Ok km -> km = znc_keymap \/ km = mmclx_keymap).
Proof.
  unfold keymap_of_files. destruct files as [|f files]; cbn [map].
  - split; [split; [discriminate|intros [H _]; congruence]|]. split; [split; [discriminate|intros [H _]; congruence]|]. split; [tauto|].
    split; [split; [discriminate|intros (a & b & t & [] & _)]|]. split; [split; [discriminate|intros (_ & a & [] & _)]|]. discriminate.
  - set (t := get_suffix f). pose proof (mixed_iff t files f eq_refl) as M. pose proof (suffix_lower f) as L. fold t in L.
    assert (Z : forall x, file_type "znc" x <-> get_suffix x = "znc") by (intros x; apply file_type_iff; [exact capital_znc|discriminate]).
    assert (X : forall x, file_type "mmclx" x <-> get_suffix x = "mmclx") by (intros x; apply file_type_iff; [exact capital_mmclx|discriminate]).
    destruct (forallb (String.eqb t) (map get_suffix files)) eqn:B.
    + assert (K : forall x, In x (f :: files) -> get_suffix x = t).
      { intros x [Y|Y]; [subst; reflexivity|]. rewrite forallb_forall in B. specialize (B (get_suffix x) (in_map _ _ _ Y)). apply String.eqb_eq in B. congruence. }
      assert (NM : ~ mixed_types (f :: files)) by (intros H; apply M in H; discriminate).
      assert (FZ : forall u, Forall (fun x => get_suffix x = u) (f :: files) <-> t = u).
      { intros u. rewrite Forall_forall. split; [intros H; rewrite <- (K f) by (left; reflexivity); apply H; left; reflexivity|]. intros <- x I. apply K, I. }
      assert (Fz : Forall (file_type "znc") (f :: files) <-> t = "znc") by (rewrite <- (FZ "znc"); split; apply Forall_impl; intros a; apply Z).
      assert (Fx : Forall (file_type "mmclx") (f :: files) <-> t = "mmclx") by (rewrite <- (FZ "mmclx"); split; apply Forall_impl; intros a; apply X).
      rewrite Fz, Fx. unfold get_keymap. rewrite (lower_id _ L).
      assert (NV : (exists g, In g (f :: files) /\ ~ file_type "znc" g /\ ~ file_type "mmclx" g) <-> t <> "znc" /\ t <> "mmclx").
      { split; [intros (g & G & A1 & A2); rewrite Z in A1; rewrite X in A2; rewrite (K _ G) in A1, A2; auto|]. intros [A1 A2]. exists f. split; [left; reflexivity|]. rewrite Z, X. auto. }
      rewrite NV. clearbody t. clear K FZ Fz Fx NV Z X M B L.
      destruct (String.eqb_spec t "znc") as [->|D1]; [|destruct (String.eqb_spec t "mmclx") as [->|D2]].
      * split; [split; [intros _; split; [discriminate|reflexivity]|reflexivity]|]. split; [split; [discriminate|intros [_ E]; discriminate]|].
        split; [split; discriminate|]. split; [split; [discriminate|intros H; contradiction]|]. split; [split; [discriminate|intros (_ & H & _); congruence]|]. intros km E. left. congruence.
      * split; [split; [discriminate|intros [_ E]; discriminate]|]. split; [split; [intros _; split; [discriminate|reflexivity]|reflexivity]|].
        split; [split; discriminate|]. split; [split; [discriminate|intros H; contradiction]|]. split; [split; [discriminate|intros (_ & _ & H); congruence]|]. intros km E. right. congruence.
      * split; [split; [discriminate|intros [_ E]; contradiction]|]. split; [split; [discriminate|intros [_ E]; contradiction]|].
        split; [split; discriminate|]. split; [split; [discriminate|intros H; contradiction]|]. split; [split; [intros _; auto|reflexivity]|]. discriminate.
    + assert (MM : mixed_types (f :: files)) by (apply M; reflexivity).
      assert (NF : forall u, no_capital u -> u <> "" -> ~ Forall (file_type u) (f :: files)).
      { intros u C N H. rewrite Forall_forall in H. apply not_true_iff_false in B. apply B, forallb_forall. intros x I. apply in_map_iff in I. destruct I as (g & <- & G).
        pose proof (proj1 (file_type_iff u f C N) (H f (or_introl eq_refl))) as E1. pose proof (proj1 (file_type_iff u g C N) (H g (or_intror G))) as E2. apply String.eqb_eq. fold t in E1. congruence. }
      split; [split; [discriminate|intros [_ H]; destruct (NF "znc" capital_znc ltac:(discriminate) H)]|]. split; [split; [discriminate|intros [_ H]; destruct (NF "mmclx" capital_mmclx ltac:(discriminate) H)]|].
      split; [split; discriminate|]. split; [tauto|]. split; [split; [discriminate|intros [H _]; contradiction]|]. discriminate.
Qed.

(** ** MIRA: variables *)
Lemma choice_two file keymap name first second :
  (exists a b c, keymap = a ++ (second, name) :: b ++ (first, name) :: c /\ Forall (fun kn => snd kn <> name) (a ++ b ++ c)) ->
  choice file (init_data file keymap []) name first second.
Proof.
  intros (a & b & c & -> & F). rewrite !Forall_app in F. destruct F as (Fa & Fb & Fc). rewrite Forall_forall in Fa, Fb, Fc. split; [|split].
  - intros v V. exists (read_variable v). split; [|apply read_variable_as]. rewrite app_comm_cons, app_assoc. apply init_data_last; [exact V|]. intros k K. destruct (Fc _ K eq_refl).
  - intros N v V. exists (read_variable v). split; [|apply read_variable_as]. apply init_data_last; [exact V|]. intros k K. apply in_app_iff in K. destruct K as [K|[K|K]]; [destruct (Fb _ K eq_refl)|congruence|destruct (Fc _ K eq_refl)].
  - intros N1 N2. apply init_data_none. intros k K. apply in_app_iff in K. destruct K as [K|[K|K]]; [destruct (Fa _ K eq_refl)|congruence|].
    apply in_app_iff in K. destruct K as [K|[K|K]]; [destruct (Fb _ K eq_refl)|congruence|destruct (Fc _ K eq_refl)].
Qed.
Ltac key_lists a b c := exists a, b, c; split; [reflexivity|cbn [app]; repeat (constructor; [discriminate|]); constructor].
Lemma znc_choices file name first second : In (name, first, second) znc_choice -> choice file (init_data file znc_keymap []) name first second.
Proof.
  intros H. apply choice_two. cbn [znc_choice In] in H.
  destruct H as [H|[H|[H|[H|[H|[]]]]]]; assert (H1 := f_equal (fun x => fst (fst x)) H); assert (H2 := f_equal (fun x => snd (fst x)) H); assert (H3 := f_equal snd H); cbn [fst snd] in H1, H2, H3; subst.
  - key_lists (firstn 0 znc_keymap) (@nil (string * string)) (skipn 2 znc_keymap).
  - key_lists (firstn 2 znc_keymap) (@nil (string * string)) (skipn 4 znc_keymap).
  - key_lists (firstn 4 znc_keymap) (@nil (string * string)) (skipn 6 znc_keymap).
  - key_lists (firstn 6 znc_keymap) (@nil (string * string)) (skipn 8 znc_keymap).
  - key_lists (firstn 8 znc_keymap) (@nil (string * string)) (skipn 10 znc_keymap).
Qed.
Lemma mmclx_choices file : choice file (init_data file mmclx_keymap []) "Zh" "Zg" "Ze".
Proof. apply choice_two. key_lists (firstn 0 mmclx_keymap) (@nil (string * string)) (skipn 2 mmclx_keymap). Qed.

(** ** MIRA: screening *)
Lemma filter_lookup (d : ndict) x k : lookup k (filter (fun kv : string * nvar => negb (String.eqb (fst kv) x)) d) = if String.eqb k x then None else lookup k d.
Proof.
  induction d as [|[a v] d IH]; [destruct (String.eqb k x); reflexivity|]. cbn [filter fst]. destruct (String.eqb_spec a x) as [E|E]; cbn [negb].
  - rewrite IH. destruct (String.eqb_spec k x) as [K|K]; [reflexivity|]. cbn [lookup]. destruct (String.eqb_spec k a) as [A|A]; [congruence|reflexivity].
  - cbn [lookup]. destruct (String.eqb_spec k a) as [A|A].
    + destruct (String.eqb_spec k x) as [K|K]; [congruence|reflexivity].
    + exact IH.
Qed.
Lemma visible_app a b : visible (a ++ b) = visible a ++ visible b.
Proof. induction a as [|[[q|] []] a IH]; cbn [app visible]; rewrite ?IH; reflexivity. Qed.
Lemma visible_concat m : visible (List.concat m) = List.flat_map visible m.
Proof. induction m as [|r m IH]; [reflexivity|]. cbn [List.concat flat_map]. rewrite visible_app, IH. reflexivity. Qed.
Lemma mask_all m i j x b : pixel m i j = Some (x, b) -> pixel (mask_where (imap (fun _ => true) m) m) i j = Some (x, true).
Proof.
  intros P. unfold mask_where. rewrite pixel_map2', pixel_imap, P. cbn [option_map]. unfold hide, number, hidden. cbn [fst snd]. rewrite orb_true_r. reflexivity.
Qed.
Lemma screen_ldr_spec d pol :
  (lookup "ldr" d = None -> screen_ldr pol d = Ok d) /\
  (lookup "ldr" d <> None -> pol = None -> screen_ldr pol d = Raise KeyError) /\
  (lookup "ldr" d <> None -> pol = Some "0" -> exists d', screen_ldr pol d = Ok d' /\ lookup "ldr" d' = None /\ forall k, k <> "ldr" -> lookup k d' = lookup k d) /\
  (forall p m, lookup "ldr" d = Some (N2 m) -> pol = Some p -> p <> "0" ->
   exists d' m', screen_ldr pol d = Ok d' /\ lookup "ldr" d' = Some (N2 m') /\ (forall k, k <> "ldr" -> lookup k d' = lookup k d) /\
     forall i j x b, pixel m i j = Some (x, b) -> exists b', pixel m' i j = Some (x, b') /\ (b' = true <-> b = true \/ exists q, image_mean m q /\ (0 < q)%Q)).
Proof.
  unfold screen_ldr. split; [intros ->; reflexivity|]. split; [|split].
  - intros H ->. destruct (lookup "ldr" d); [reflexivity|congruence].
  - intros H ->. destruct (lookup "ldr" d) eqn:E; [|congruence]. cbn [String.eqb]. change (String.eqb "0" "0") with true. cbv iota. eexists. split; [reflexivity|]. split; [rewrite filter_lookup; reflexivity|].
    intros k K. rewrite filter_lookup. destruct (String.eqb_spec k "ldr"); [contradiction|reflexivity].
  - intros p m L -> P. rewrite (image_of_ok _ _ _ L). replace (lookup "ldr" d) with (Some (N2 m)). destruct (String.eqb_spec p "0") as [E|_]; [contradiction|]. cbn [bind].
    unfold ma_stat. rewrite unmasked_visible, visible_concat. unfold image_mean. destruct (flat_map visible m) as [|y l] eqn:F.
    + exists d, m. split; [reflexivity|]. split; [exact L|]. split; [reflexivity|]. intros i j x b X. exists b. split; [exact X|]. split; [auto|]. intros [H|(q & (H & _) & _)]; [exact H|congruence].
    + assert (N : y :: l <> []) by discriminate. pose proof (mean_spec _ N) as Hm. destruct (qlt 0 (mean (y :: l))) eqn:G.
      * rewrite (mask_one_ok _ _ _ _ L). do 2 eexists. split; [reflexivity|]. split; [rewrite set_lookup; reflexivity|]. split.
        { intros k K. rewrite set_lookup. destruct (String.eqb_spec k "ldr"); [contradiction|reflexivity]. }
        intros i j x b X. exists true. split; [apply mask_all with b; exact X|]. split; [|reflexivity]. intros _. right. exists (mean (y :: l)). split; [split; [exact N|exact Hm]|apply qlt_iff, G].
      * exists d, m. split; [reflexivity|]. split; [exact L|]. split; [reflexivity|]. intros i j x b X. exists b. split; [exact X|]. split; [auto|]. intros [H|(q & (_ & H) & H0)]; [exact H|].
        apply qlt_false in G. pose proof (mean_unique _ _ _ N Hm H) as U. rewrite U in G. lra.
Qed.
Lemma in_db_cell db x b : exists x' b', in_db db (x, b) = (x', b') /\ (b' = true <-> b = true \/ undefined db x) /\
  (b' = false -> forall q, x = Some q -> x' = db q) /\ (b' = true -> x' = Some 10%Q).
Proof.
  unfold in_db, number, hidden, undefined. cbn [fst snd]. destruct x as [q|]; [|do 2 eexists; split; [reflexivity|]; split; [tauto|]; split; [discriminate|reflexivity]].
  destruct b; [do 2 eexists; split; [reflexivity|]; split; [tauto|]; split; [discriminate|reflexivity]|].
  destruct (db q) as [y|] eqn:E; do 2 eexists; (split; [reflexivity|]).
  - split; [split; [discriminate|intros [H|H]; discriminate]|]. split; [|discriminate]. intros _ q' Q'. congruence.
  - split; [tauto|]. split; [discriminate|reflexivity].
Qed.
Lemma linear_to_db_spec db d z l s : lookup "Zh" d = Some (N2 z) -> lookup "ldr" d = Some (N2 l) -> lookup "SNR" d = Some (N2 s) ->
  exists d', linear_to_db db ["Zh"; "ldr"; "SNR"] d = Ok d' /\
    lookup "Zh" d' = Some (N2 (imap (in_db db) z)) /\ lookup "ldr" d' = Some (N2 (imap (in_db db) l)) /\ lookup "SNR" d' = Some (N2 (imap (in_db db) s)) /\
    forall k, k <> "Zh" -> k <> "ldr" -> k <> "SNR" -> lookup k d' = lookup k d.
Proof.
  intros Z L S. cbn [linear_to_db]. rewrite (image_of_ok _ _ _ Z). cbn [bind].
  rewrite (image_of_ok _ "ldr" l) by (rewrite set_lookup; exact L). cbn [bind]. rewrite (image_of_ok _ "SNR" s) by (rewrite !set_lookup; exact S). cbn [bind].
  eexists. split; [reflexivity|]. split; [rewrite !set_lookup; reflexivity|]. split; [rewrite !set_lookup; reflexivity|]. split; [rewrite !set_lookup; reflexivity|].
  intros k K1 K2 K3. rewrite !set_lookup. destruct (String.eqb_spec k "SNR"); [contradiction|]. destruct (String.eqb_spec k "ldr"); [contradiction|]. destruct (String.eqb_spec k "Zh"); [contradiction|reflexivity].
Qed.
Lemma masked_db db m i j x b : pixel m i j = Some (x, b) -> (covered (imap (in_db db) m) i j <-> b = true \/ undefined db x).
Proof.
  intros P. unfold covered. rewrite pixel_imap, P. cbn [option_map]. destruct (in_db_cell db x b) as (x' & b' & E & I & _). rewrite E, <- I. split.
  - intros [y Y]. congruence.
  - intros ->. exists x'. reflexivity.
Qed.
Lemma low_db db limit snr i j : (limit <= 10)%Q -> (number_at (fun q => q < limit)%Q (imap (in_db db) snr) i j <-> exists q y, pixel snr i j = Some (Some q, false) /\ db q = Some y /\ (y < limit)%Q).
Proof.
  intros L. unfold number_at. rewrite pixel_imap. destruct (pixel snr i j) as [[x b]|]; cbn [option_map].
  - unfold in_db, number, hidden. cbn [fst snd]. split.
    + intros (q & c & E & H). destruct x as [r|].
      * destruct b; [assert (q = 10%Q) by congruence; subst; lra|]. destruct (db r) as [y|] eqn:D; [|assert (q = 10%Q) by congruence; subst; lra]. exists r, y. split; [reflexivity|]. split; [exact D|]. assert (y = q) by congruence. subst. exact H.
      * assert (q = 10%Q) by congruence. subst. lra.
    + intros (q & y & E & D & H). assert (x = Some q /\ b = false) as [-> ->] by (split; congruence). rewrite D. exists y, false. split; [reflexivity|exact H].
  - split; [intros (q & c & E & _); discriminate|intros (q & y & E & _); discriminate].
Qed.
Lemma mira_spec nt n db p limit d z v l snr : (limit <= 10)%Q -> radar_data nt n d ->
  lookup "Zh" d = Some (N2 z) -> lookup "v" d = Some (N2 v) -> lookup "ldr" d = Some (N2 l) -> lookup "SNR" d = Some (N2 snr) ->
  exists d', mira_screen db (Some p) limit d = Ok d' /\
    (p = "0" <-> lookup "ldr" d' = None) /\
    forall k m, k <> "ldr" -> lookup k d = Some (N2 m) -> exists m', lookup k d' = Some (N2 m') /\ sized nt n m' /\
      forall i j x b, pixel m i j = Some (x, b) -> exists x' b', pixel m' i j = Some (x', b') /\
        (b' = true <-> b = true \/ (linear_unit k /\ undefined db x) \/ mira_bad limit db snr z v i j) /\
        (b' = false -> (linear_unit k -> forall q, x = Some q -> x' = db q) /\ (~ linear_unit k -> x' = x)).
Proof.
  intros Lm R Hz Hv Hl Hs. unfold mira_screen. destruct (linear_to_db_spec db d z l snr Hz Hl Hs) as (d1 & E1 & Z1 & L1 & S1 & O1). rewrite E1. cbn [bind].
  assert (V1 : lookup "v" d1 = Some (N2 v)) by (rewrite O1 by discriminate; exact Hv).
  unfold screen_snr. rewrite (image_of_ok _ _ _ S1). cbn [bind]. set (s1 := imap (in_db db) snr) in *. set (z1 := imap (in_db db) z) in *.
  set (A := imap (test (fun q => qlt q limit)) s1). set (d2 := mask_each A d1).
  assert (Ss : sized nt n s1) by (apply sized_imap, (R _ _ Hs)). assert (Sz : sized nt n z1) by (apply sized_imap, (R _ _ Hz)).
  assert (SA : sized nt n A) by (apply sized_imap, Ss).
  assert (L2 : forall k, lookup k d2 = option_map (mask_var A) (lookup k d1)) by (intros k; apply mask_each_lookup).
  assert (D2 : lookup "ldr" d2 = Some (N2 (mask_where A (imap (in_db db) l)))) by (rewrite L2, L1; reflexivity).
  assert (exists d3, screen_ldr (Some p) d2 = Ok d3 /\ (forall k, k <> "ldr" -> lookup k d3 = lookup k d2) /\ (p = "0" <-> lookup "ldr" d3 = None)) as (d3 & E3 & O3 & P3).
  { destruct (screen_ldr_spec d2 (Some p)) as (_ & _ & B & C). destruct (string_dec p "0") as [->|N].
    - destruct (B ltac:(congruence) eq_refl) as (d3 & X & Y & W). exists d3. tauto.
    - destruct (C p _ D2 eq_refl N) as (d3 & m' & X & Y & W & _). exists d3. split; [exact X|]. split; [exact W|]. split; [contradiction|congruence]. }
  rewrite E3. cbn [bind].
  set (z2 := mask_where A z1). set (v2 := mask_where A v).
  assert (Z3 : lookup "Zh" d3 = Some (N2 z2)) by (rewrite O3, L2, Z1 by discriminate; reflexivity).
  assert (V3 : lookup "v" d3 = Some (N2 v2)) by (rewrite O3, L2, V1 by discriminate; reflexivity).
  unfold mask_invalid. rewrite (image_of_ok _ _ _ Z3), (image_of_ok _ _ _ V3). cbn [bind]. set (C := imap hidden z2). set (E := imap hidden v2).
  assert (Az : adds nt n (flag A) z1 z2) by (apply adds_mask; assumption).
  assert (Av : adds nt n (flag A) v v2) by (apply adds_mask; [exact SA|exact (R _ _ Hv)]).
  assert (SC : sized nt n C) by (apply sized_imap, (proj1 Az)). assert (SE : sized nt n E) by (apply sized_imap, (proj1 Av)).
  assert (L4 : forall k, lookup k (mask_each E (mask_each C d3)) = option_map (mask_var E) (option_map (mask_var C) (lookup k d3))) by (intros k; rewrite !mask_each_lookup; reflexivity).
  exists (mask_each E (mask_each C d3)). split; [reflexivity|]. split.
  { rewrite L4, P3. destruct (lookup "ldr" d3); cbn [option_map]; split; congruence. }
  intros k m K M. set (lin := linear_unit k).
  assert (exists m1, lookup k d1 = Some (N2 m1) /\ sized nt n m1 /\ ((lin /\ m1 = imap (in_db db) m) \/ (~ lin /\ m1 = m))) as (m1 & M1 & Sm1 & U1).
  { unfold lin, linear_unit. destruct (string_dec k "Zh") as [->|K1]; [exists z1; assert (m = z) by congruence; subst m; split; [exact Z1|]; split; [exact Sz|]; left; split; [auto|reflexivity]|].
    destruct (string_dec k "SNR") as [->|K2]; [exists s1; assert (m = snr) by congruence; subst m; split; [exact S1|]; split; [exact Ss|]; left; split; [auto|reflexivity]|].
    exists m. split; [rewrite O1 by assumption; exact M|]. split; [exact (R _ _ M)|]. right. split; [intros [H|H]; contradiction|reflexivity]. }
  pose proof (adds_mask nt n A m1 SA Sm1) as P2. pose proof (adds_mask nt n C _ SC (proj1 P2)) as P4. pose proof (adds_mask nt n E _ SE (proj1 P4)) as P5.
  pose proof (adds_trans _ _ _ _ _ _ _ (adds_trans _ _ _ _ _ _ _ P2 P4) P5) as P6.
  exists (mask_where E (mask_where C (mask_where A m1))). split; [rewrite L4, O3, L2, M1 by exact K; reflexivity|]. split; [exact (proj1 P6)|].
  intros i j x b X. destruct (sized_pixel _ _ _ _ _ _ (R _ _ M) X) as [Ii Jj].
  assert (FA : flag A i j <-> exists q y, pixel snr i j = Some (Some q, false) /\ db q = Some y /\ (y < limit)%Q).
  { rewrite <- (low_db db limit snr i j Lm). apply flag_test. intros q. apply qlt_iff. }
  destruct (sized_some _ _ _ i j (R _ _ Hz) Ii Jj) as [[xz bz] Pz].
  assert (CZ : covered z1 i j <-> covered z i j \/ exists x b, pixel z i j = Some (x, b) /\ undefined db x).
  { pose proof (masked_db db z i j xz bz Pz) as MD. fold z1 in MD. rewrite MD. split.
    - intros [->|H]; [left; exists xz; exact Pz|right; exists xz, bz; auto].
    - intros [[y Y]|(y & c & Y & H)]; [left; congruence|right]. assert (y = xz) by congruence. subst. exact H. }
  assert (FC : flag C i j <-> covered z1 i j \/ flag A i j) by (unfold C; rewrite flag_hidden, (adds_covered _ _ _ _ _ _ _ Sz Az Ii Jj); reflexivity).
  assert (FE : flag E i j <-> covered v i j \/ flag A i j) by (unfold E; rewrite flag_hidden, (adds_covered _ _ _ _ _ _ _ (R _ _ Hv) Av Ii Jj); reflexivity).
  assert (BAD : ((flag A i j \/ flag C i j) \/ flag E i j) <-> mira_bad limit db snr z v i j) by (unfold mira_bad; rewrite FC, FE, FA, CZ; tauto).
  destruct U1 as [[U ->]|[U ->]].
  - destruct (in_db_cell db x b) as (x1 & b1 & D1 & I1 & N1 & _). assert (X1 : pixel (imap (in_db db) m) i j = Some (x1, b1)) by (rewrite pixel_imap, X; cbn [option_map]; congruence).
    destruct (proj2 P6 i j x1 b1 X1) as (b' & X' & I'). exists x1, b'. split; [exact X'|]. split; [rewrite I', I1, BAD; tauto|].
    intros F. split; [|intros H; contradiction]. intros _. apply N1. destruct b1; [|reflexivity]. assert (b' = true) by (apply I'; auto). congruence.
  - destruct (proj2 P6 i j x b X) as (b' & X' & I'). exists x, b'. split; [exact X'|]. split; [rewrite I', BAD; tauto|]. intros _. split; [intros H; contradiction|reflexivity].
Qed.
Lemma mira_no_ldr db pol limit d z : lookup "Zh" d = Some (N2 z) -> lookup "ldr" d = None -> mira_screen db pol limit d = Raise KeyError.
Proof.
  intros Z L. unfold mira_screen. cbn [linear_to_db]. rewrite (image_of_ok _ _ _ Z). cbn [bind]. rewrite image_of_missing by (rewrite set_lookup; exact L). reflexivity.
Qed.
Lemma gates_exist p range : (forall q, {p q} + {~ p q}) -> exists gates, kept_gates p range gates /\ forall gates', kept_gates p range gates' -> gates' = gates.
Proof.
  intros D. set (f := fun x : cell => match fst x with Some q => if D q then true else false | None => false end).
  assert (K : kept_gates p range (where1 (map f range))).
  { split; [apply where1_sorted|]. intros j. rewrite where1_in, nth_error_map'. destruct (nth_error range j) as [[x b]|] eqn:E; cbn [option_map].
    - unfold f. cbn [fst]. destruct x as [q|].
      + destruct (D q) as [P|P]; split.
        * intros _. exists q, b. auto.
        * reflexivity.
        * discriminate.
        * intros (r & c & X & Y). assert (r = q) by congruence. subst. contradiction.
      + split; [discriminate|]. intros (r & c & X & _). discriminate.
    - split; [discriminate|]. intros (r & c & X & _). discriminate. }
  exists (where1 (map f range)). split; [exact K|]. intros gates' [S' H']. destruct K as [S H]. apply sorted_lt_unique; [exact S'|exact S|]. intros j. rewrite H, H'. reflexivity.
Qed.
