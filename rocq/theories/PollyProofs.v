(** Proofs about PollyXT files. *)
From Verif Require Import Base ArrayModel ArrayProofs TimeModel TimeSpec TimeProofs GridModel GridProofs OutputModel OutputProofs
  TelegramModel HatproSpec HatproProofs NcRadarModel NcRadarSpec NcRadarProofs LidarModel LidarSpec LidarProofs PollyModel PollySpec.
From Coq Require Import Qabs String Ascii Sorting.Sorted Lqa.
Open Scope string_scope.
Open Scope nat_scope.
Open Scope list_scope.
Local Notation length := List.length (only parsing).

(** ** Names *)
Lemma ends_with_iff p : forall s, ends_with p s = true <-> exists b, s = (b ++ p)%string.
Proof.
  induction s as [|c s IH]; cbn [ends_with]; rewrite orb_true_iff, String.eqb_eq.
  - split; [intros [->|H]; [exists ""; reflexivity|discriminate]|]. intros ([|x b] & E); [left; symmetry; exact E|discriminate].
  - rewrite IH. split.
    + intros [->|(b & ->)]; [exists ""; reflexivity|exists (String c b); reflexivity].
    + intros ([|x b] & E); [left; symmetry; exact E|right; exists b]. cbn in E. congruence.
Qed.
Lemma drop_append key r : drop (String.length key) (key ++ r)%string = r.
Proof. induction key as [|c key IH]; [destruct r; reflexivity|exact IH]. Qed.
Lemma fnmatch_iff key : forall s, fnmatch key s = true <-> named_like key s.
Proof.
  unfold named_like. induction s as [|c s IH]; cbn [fnmatch].
  - split; [discriminate|]. intros ([|x a] & c & b & E & _); discriminate E.
  - rewrite orb_true_iff, !andb_true_iff, IH. unfold is_digit. rewrite andb_true_iff, !Nat.leb_le, prefix_iff. split.
    + intros [((D & r & ->) & E)|(a & d & b & -> & D)].
      * rewrite drop_append in E. apply ends_with_iff in E as (b & ->). exists "", c, b. split; [reflexivity|exact D].
      * exists (String c a), d, b. split; [reflexivity|exact D].
    + intros ([|x a] & d & b & E & D).
      * left. cbn in E. assert (d = c) by congruence. subst d. assert (s = key ++ b ++ ".nc")%string by congruence. subst s.
        split; [split; [exact D|eexists; reflexivity]|]. rewrite drop_append. apply ends_with_iff. exists b. reflexivity.
      * right. cbn in E. exists a, d, b. split; [congruence|exact D].
Qed.
Lemma not_before_trans a b c : ~ before b a -> ~ before c b -> ~ before c a.
Proof.
  intros H1 H2 H. destruct (string_dec a b) as [->|N]; [contradiction|].
  pose proof (before_cases a b N) as C. destruct (a <=? b)%string; [|contradiction]. apply H2. exact (before_trans c a b H C).
Qed.
Lemma leb_before s t : (s <=? t)%string = true <-> ~ before t s.
Proof.
  unfold String.leb, before. rewrite (String.compare_antisym s t). destruct (t ?= s)%string; cbn; split; try congruence; intros H; try discriminate H; exfalso; apply H; reflexivity.
Qed.
Lemma before_asym a b : before a b -> ~ before b a.
Proof. unfold before. rewrite (String.compare_antisym a b). destruct (b ?= a)%string; discriminate. Qed.
Lemma insert_name_count s l x : count_occ string_dec (insert_name s l) x = count_occ string_dec (s :: l) x.
Proof.
  induction l as [|t l IH]; cbn [insert_name]; [reflexivity|]. destruct (s <=? t)%string; [reflexivity|].
  cbn [count_occ] in *. rewrite IH. destruct (string_dec t x), (string_dec s x); reflexivity.
Qed.
Lemma insert_name_in s l x : In x (insert_name s l) <-> x = s \/ In x l.
Proof.
  rewrite !(count_occ_In string_dec), insert_name_count. cbn [count_occ]. destruct (string_dec s x) as [->|N]; split; intros H; try lia; auto.
  destruct H as [->|H]; [congruence|exact H].
Qed.
Lemma insert_name_sorted s l : StronglySorted (fun a b => ~ before b a) l -> StronglySorted (fun a b => ~ before b a) (insert_name s l).
Proof.
  induction 1 as [|t l S IH F]; cbn [insert_name]; [constructor; constructor|]. destruct (s <=? t)%string eqn:E.
  - apply leb_before in E. constructor; [constructor; assumption|]. constructor; [exact E|]. rewrite Forall_forall in *. intros x X. exact (not_before_trans _ _ _ E (F x X)).
  - assert (B : before t s). { unfold String.leb in E. unfold before. rewrite String.compare_antisym. destruct (s ?= t)%string; cbn; congruence. }
    constructor; [exact IH|]. rewrite Forall_forall in *. intros x X. apply insert_name_in in X as [->|X]; [apply before_asym, B|apply F, X].
Qed.
Lemma sort_names_spec l : StronglySorted (fun a b => ~ before b a) (sort_names l) /\ forall x, count_occ string_dec (sort_names l) x = count_occ string_dec l x.
Proof.
  induction l as [|s l (S & C)]; [split; [constructor|reflexivity]|]. split; [apply insert_name_sorted, S|].
  intros x. change (sort_names (s :: l)) with (insert_name s (sort_names l)). rewrite insert_name_count. cbn [count_occ]. rewrite C. reflexivity.
Qed.
Lemma count_filter (f : string -> bool) l x : count_occ string_dec (filter f l) x = if f x then count_occ string_dec l x else 0.
Proof.
  induction l as [|s l IH]; cbn [filter]; [destruct (f x); reflexivity|]. destruct (f s) eqn:F; cbn [count_occ]; destruct (string_dec s x) as [->|N]; rewrite IH; try rewrite F; auto.
Qed.
Lemma picked_spec key files : picked_names key files (sort_names (filter (fnmatch key) files)).
Proof.
  destruct (sort_names_spec (filter (fnmatch key) files)) as (S & C). split; [exact S|]. intros s. split.
  - intros N. rewrite C, count_filter, (proj2 (fnmatch_iff key s) N). reflexivity.
  - intros N I. apply (count_occ_In string_dec) in I. rewrite C, count_filter in I. destruct (fnmatch key s) eqn:F; [apply N, fnmatch_iff, F|lia].
Qed.
Lemma picked_same key files a b : picked_names key files a -> picked_names key files b -> length a = length b.
Proof.
  intros (_ & A) (_ & B). apply Permutation_length. apply (Permutation_count_occ string_dec). intros s.
  destruct (fnmatch key s) eqn:F.
  - apply fnmatch_iff in F. rewrite (proj1 (A s) F), (proj1 (B s) F). reflexivity.
  - assert (N : ~ named_like key s) by (rewrite <- fnmatch_iff, F; discriminate).
    rewrite (proj1 (count_occ_not_In string_dec a s) (proj2 (A s) N)), (proj1 (count_occ_not_In string_dec b s) (proj2 (B s) N)). reflexivity.
Qed.

(** ** Ranges *)
Lemma nearest_unique x u v : nearest_integer x u -> nearest_integer x v -> u = v.
Proof.
  assert (T : forall w, nearest_integer x w -> rounds_to (x / 1000000) w).
  { intros w. unfold nearest_integer, rounds_to. assert (E : (x / 1000000 * 1000000 - inject_Z w == x - inject_Z w)%Q) by field.
    pose proof (Qabs_wd _ _ E) as E'. intros [H|(H & Ev)]; [left|right]; [|split; [|exact Ev]]; rewrite E'; exact H. }
  intros U V. exact (rounds_to_unique _ _ _ (T u U) (T v V)).
Qed.
Lemma height_sum_spec h s : height_total h s <-> exists v, height_sum h = Some v /\ (v == s)%Q.
Proof.
  unfold height_total, height_sum.
  assert (S : forall v w, Forall2 nearest_integer v w -> (fold_right Qplus 0 (map (fun h => inject_Z (round_half_even h)) v) == inject_Z (fold_right Z.add 0%Z w))%Q).
  { induction 1 as [|x u v w N _ IH]; cbn; [reflexivity|]. rewrite inject_Z_plus, IH. rewrite (nearest_unique x u (round_half_even x) N (round_half_even_spec x)). reflexivity. }
  split.
  - intros (v & w & K & NE & F & E). apply known_eq in K. rewrite <- K. destruct v as [|x v]; [congruence|]. eexists. split; [reflexivity|]. rewrite (S _ _ F), E. reflexivity.
  - intros (v & E & Es). destruct (unmasked h) as [|x l] eqn:U; [discriminate|]. exists (x :: l), (map round_half_even (x :: l)).
    split; [rewrite <- U; apply known_unmasked|]. split; [discriminate|].
    assert (F : Forall2 nearest_integer (x :: l) (map round_half_even (x :: l))).
    { clear. induction (x :: l); constructor; [apply round_half_even_spec|assumption]. }
    split; [exact F|]. rewrite <- Es. rewrite <- (S _ _ F). assert (v = fold_right Qplus 0%Q (map (fun h => inject_Z (round_half_even h)) (x :: l))) by congruence. subst v. reflexivity.
Qed.
Lemma qeq_bool_sym x y : Qeq_bool x y = Qeq_bool y x.
Proof. destruct (Qeq_bool x y) eqn:E; symmetry; [apply Qeq_bool_iff; symmetry; apply Qeq_bool_iff, E|]. destruct (Qeq_bool y x) eqn:F; [|reflexivity]. apply Qeq_bool_iff in F. symmetry in F. apply Qeq_bool_iff in F. congruence. Qed.
Definition has_sum (s : Q) (h : list (masked Q)) : bool := match height_sum h with Some v => Qeq_bool v s | None => false end.
Lemma has_sum_iff s h : has_sum s h = true <-> height_total h s.
Proof.
  rewrite height_sum_spec. unfold has_sum. destruct (height_sum h) as [v|]; [|split; [discriminate|intros (v & H & _); discriminate]].
  rewrite Qeq_bool_iff. split; [intros E; exists v; auto|intros (w & H & E)]. assert (w = v) by congruence. subst. exact E.
Qed.
Lemma where1_length l : length (where1 l) = length (filter (fun b : bool => b) l).
Proof. unfold where1. generalize 0. induction l as [|[] l IH]; intros n; cbn; [reflexivity| |]; rewrite IH; reflexivity. Qed.
Lemma occurrences_where s heights : occurrences s (unmasked (map height_sum heights)) = length (where1 (map (has_sum s) heights)).
Proof.
  rewrite where1_length. unfold occurrences. induction heights as [|h r IH]; [reflexivity|]. cbn [map unmasked filter]. unfold has_sum at 1.
  destruct (height_sum h) as [v|] eqn:E; [|exact IH]. cbn [unmasked filter]. rewrite (qeq_bool_sym s v). destruct (Qeq_bool v s); cbn [List.length]; rewrite IH; reflexivity.
Qed.
Lemma where1_nodup l : NoDup (where1 l).
Proof. pose proof (where1_sorted l) as S. induction S as [|a r S IH F]; constructor; [|exact IH]. intros I. rewrite Forall_forall in F. specialize (F a I). lia. Qed.
Lemma where1_map {A} (f : A -> bool) (P : A -> Prop) l : (forall x, f x = true <-> P x) -> forall i, In i (where1 (map f l)) <-> exists x, nth_error l i = Some x /\ P x.
Proof.
  intros H i. rewrite where1_in, nth_error_map'. destruct (nth_error l i) as [x|]; cbn [option_map].
  - split; [intros E; exists x; split; [reflexivity|apply H; congruence]|]. intros (y & E & Py). assert (y = x) by congruence. subst y. f_equal. apply H, Py.
  - split; [discriminate|intros (y & E & _); discriminate].
Qed.
Lemma share_iff s heights k : share s heights k <-> k = occurrences s (unmasked (map height_sum heights)).
Proof.
  rewrite occurrences_where. unfold share. pose proof (where1_map (has_sum s) (fun h => height_total h s) heights (has_sum_iff s)) as W. split.
  - intros (idx & ND & I & <-). apply Permutation_length. apply NoDup_Permutation; [exact ND|apply where1_nodup|]. intros i. rewrite I, W. reflexivity.
  - intros ->. exists (where1 (map (has_sum s) heights)). split; [apply where1_nodup|]. split; [exact W|reflexivity].
Qed.
Lemma most_common_of_spec all rest : forall best pre mid, 
  (forall y, In y pre -> occurrences y all < occurrences best all) -> (forall y, In y mid -> occurrences y all <= occurrences best all) ->
  exists s pre' post, most_common_of all rest best = s /\ pre ++ best :: mid ++ rest = pre' ++ s :: post /\
    (forall y, In y pre' -> occurrences y all < occurrences s all) /\ (forall y, In y post -> occurrences y all <= occurrences s all).
Proof.
  induction rest as [|x rest IH]; intros best pre mid HP HM; cbn [most_common_of].
  - exists best, pre, mid. rewrite app_nil_r. auto.
  - destruct (Nat.ltb_spec (occurrences best all) (occurrences x all)) as [L|L].
    + destruct (IH x (pre ++ best :: mid) []) as (s & pre' & post & E & D & H1 & H2).
      * intros y Y. apply in_app_or in Y as [Y|[<-|Y]]; [specialize (HP y Y); lia|exact L|specialize (HM y Y); lia].
      * intros y [].
      * exists s, pre', post. split; [exact E|]. split; [rewrite <- D, <- !app_assoc; cbn [app]; rewrite <- ?app_assoc; reflexivity|auto].
    + destruct (IH best pre (mid ++ [x])) as (s & pre' & post & E & D & H1 & H2).
      * exact HP.
      * intros y Y. apply in_app_or in Y as [Y|[<-|[]]]; [apply HM, Y|exact L].
      * exists s, pre', post. split; [exact E|]. split; [rewrite <- D, <- !app_assoc; reflexivity|auto].
Qed.
Lemma most_common_spec l : match most_common l with
  | None => l = []
  | Some s => exists pre post, l = pre ++ s :: post /\ (forall y, In y pre -> occurrences y l < occurrences s l) /\ (forall y, In y post -> occurrences y l <= occurrences s l)
  end.
Proof.
  unfold most_common. destruct l as [|x r]; [reflexivity|]. destruct (most_common_of_spec (x :: r) r x [] []) as (s & pre & post & <- & D & H); [intros y []|intros y []|].
  exists pre, post. split; [exact D|exact H].
Qed.
Lemma unmasked_split S : forall pre s post, unmasked S = pre ++ s :: post -> exists i, nth_error S i = Some (Some s) /\ forall j (v : Q), j < i -> nth_error S j = Some (Some v) -> In v pre.
Proof.
  induction S as [|[x|] S IH]; intros pre s post E; cbn [unmasked] in E.
  - destruct pre; discriminate.
  - destruct pre as [|p pre]; cbn in E.
    + exists 0. split; [cbn; congruence|]. intros j v J. lia.
    + assert (p = x) by congruence. subst p. destruct (IH pre s post) as (i & Ei & H); [congruence|]. exists (Datatypes.S i). split; [exact Ei|].
      intros [|j] v J Ej; cbn in Ej; [left; congruence|right; apply (H j); [lia|exact Ej]].
  - destruct (IH pre s post E) as (i & Ei & H). exists (Datatypes.S i). split; [exact Ei|]. intros [|j] v J Ej; cbn in Ej; [discriminate|apply (H j); [lia|exact Ej]].
Qed.
Lemma occurrences_wd x y l : (x == y)%Q -> occurrences x l = occurrences y l.
Proof.
  intros E. unfold occurrences. f_equal. apply filter_ext. intros z. destruct (Qeq_bool x z) eqn:A; symmetry.
  - apply Qeq_bool_iff. apply Qeq_bool_iff in A. rewrite <- E. exact A.
  - destruct (Qeq_bool y z) eqn:B; [|reflexivity]. apply Qeq_bool_iff in B. rewrite <- E in B. apply Qeq_bool_iff in B. congruence.
Qed.
Lemma occurrences_none x l : (forall y, In y l -> ~ (x == y)%Q) -> occurrences x l = 0.
Proof.
  intros H. unfold occurrences. replace (filter (Qeq_bool x) l) with (@nil Q); [reflexivity|]. symmetry. induction l as [|y l IH]; [reflexivity|]. cbn [filter].
  destruct (Qeq_bool x y) eqn:E; [apply Qeq_bool_iff in E; destruct (H y (or_introl eq_refl) E)|]. apply IH. intros z Z. apply H. right. exact Z.
Qed.
Lemma prevailing_most_common heights : match most_common (unmasked (map height_sum heights)) with
  | None => forall h s, In h heights -> ~ height_total h s
  | Some s => prevailing s heights
  end.
Proof.
  set (l := unmasked (map height_sum heights)). pose proof (most_common_spec l) as M.
  assert (IL : forall h v, In h heights -> height_sum h = Some v -> In v l).
  { intros h v I E. unfold l. clear -I E. induction heights as [|x r IH]; [destruct I|]. cbn [map unmasked]. destruct I as [->|I]; [rewrite E; left; reflexivity|].
    destruct (height_sum x); [right|]; apply IH, I. }
  destruct (most_common l) as [s|].
  - destruct M as (pre & post & E & H1 & H2). destruct (unmasked_split (map height_sum heights) pre s post E) as (i & Ei & HI).
    rewrite nth_error_map' in Ei. destruct (nth_error heights i) as [h|] eqn:Eh; [|discriminate]. cbn in Ei.
    exists i, h, (occurrences s l). split; [exact Eh|]. split; [apply height_sum_spec; exists s; split; [congruence|reflexivity]|].
    split; [apply share_iff; reflexivity|].
    assert (MAX : forall s', occurrences s' l <= occurrences s l).
    { intros s'. destruct (existsb (Qeq_bool s') l) eqn:X.
      - apply existsb_exists in X as (y & Y & Q). apply Qeq_bool_iff in Q. rewrite (occurrences_wd s' y l Q). rewrite E in Y. apply in_app_or in Y as [Y|[<-|Y]]; [specialize (H1 y Y); lia|lia|apply H2, Y].
      - rewrite (occurrences_none s' l); [lia|]. intros y Y Q. assert (existsb (Qeq_bool s') l = true); [|congruence]. apply existsb_exists. exists y. split; [exact Y|apply Qeq_bool_iff, Q]. }
    split; [intros s' k' K; apply share_iff in K; subst k'; apply MAX|].
    intros j h' s' k' J Ej T K. apply share_iff in K. subst k'. apply height_sum_spec in T as (v & Ev & Q). rewrite <- (occurrences_wd v s' _ Q).
    apply H1. apply (HI j v J). rewrite nth_error_map', Ej. cbn. congruence.
  - intros h s I T. apply height_sum_spec in T as (v & Ev & _). pose proof (IL h v I Ev) as X. rewrite M in X. destruct X.
Qed.
Lemma those_filter {A} (f : A -> bool) (P : A -> Prop) l : (forall x, f x = true <-> P x) -> those P l (filter f l).
Proof.
  intros H. exists (where1 (map f l)). split; [apply where1_sorted|]. split; [apply where1_map, H|].
  unfold where1. clear H. assert (G : forall l n full, (forall i x, nth_error l i = Some x -> nth_error full (n + i) = Some x) -> Forall2 (fun i x => nth_error full i = Some x) (where_from n (map f l)) (filter f l)).
  { clear. induction l as [|x l IH]; intros n full H; cbn; [constructor|].
    assert (R : forall i y, nth_error l i = Some y -> nth_error full (S n + i) = Some y) by (intros i y E; replace (S n + i) with (n + S i) by lia; apply H; exact E).
    destruct (f x); [|apply IH, R]. constructor; [replace n with (n + 0) by lia; apply H; reflexivity|apply IH, R]. }
  apply G. intros i x E. exact E.
Qed.
Lemma same_range_spec pairs :
  (exists s, prevailing s (all_heights pairs) /\ those (fun p => height_total (b_height (fst p)) s /\ height_total (d_height (snd p)) s) pairs (same_range pairs)) \/
  ((forall h s, In h (all_heights pairs) -> ~ height_total h s) /\ same_range pairs = []).
Proof.
  unfold same_range. pose proof (prevailing_most_common (all_heights pairs)) as M. unfold all_heights in M. rewrite map_app, !map_map in M.
  destruct (most_common (unmasked _)) as [s|]; [left|right; split; [exact M|reflexivity]].
  exists s. split; [exact M|]. apply those_filter. intros p. rewrite andb_true_iff. rewrite <- !has_sum_iff. reflexivity.
Qed.

(** ** The channel *)
Lemma flat_visible l : flat_map (fun x : cell => if hidden x then [] else match number x with Some q => [q] | None => [] end) l = visible l.
Proof. induction l as [|[[q|] []] l IH]; cbn in *; rewrite ?IH; reflexivity. Qed.
Lemma visible_hidden l : forallb hidden l = true -> visible l = [].
Proof. induction l as [|[[q|] []] l IH]; cbn; intros H; try discriminate; auto. Qed.
Lemma zeros_iff m : only_zeros_or_masked m = true <-> (fold_right Qplus 0 (visible (List.concat m)) == 0)%Q.
Proof.
  unfold only_zeros_or_masked. rewrite flat_visible, orb_true_iff, Qeq_bool_iff. split; [intros [H|H]; [exact H|]|auto].
  rewrite visible_hidden; [reflexivity|]. rewrite forallb_forall in H. apply forallb_forall. intros x X. apply in_concat in X as (row & R & X). specialize (H row R). rewrite forallb_forall in H. apply H, X.
Qed.
Lemma channel_works_spec c files : match channel_works c files with
  | Ok true => works_in c files
  | Ok false => Forall (dead c) files
  | Raise e => e = KeyError /\ exists pre f post, files = pre ++ f :: post /\ Forall (dead c) pre /\ lookup c (b_beta f) = None
  end.
Proof.
  induction files as [|f r IH]; cbn [channel_works]; [constructor|]. destruct (lookup c (b_beta f)) as [[beta k]|] eqn:E.
  - destruct (only_zeros_or_masked beta) eqn:Z.
    + assert (D : dead c f) by (exists beta, k; split; [exact E|apply zeros_iff, Z]). destruct (channel_works c r) as [[]|e].
      * destruct IH as (pre & x & post & -> & F & A). exists (f :: pre), x, post. split; [reflexivity|]. split; [constructor; assumption|exact A].
      * constructor; assumption.
      * destruct IH as (-> & pre & x & post & -> & F & A). split; [reflexivity|]. exists (f :: pre), x, post. split; [reflexivity|]. split; [constructor; assumption|exact A].
    + exists [], f, r. split; [reflexivity|]. split; [constructor|]. exists beta, k. split; [exact E|]. intros H. apply zeros_iff in H. congruence.
  - split; [reflexivity|]. exists [], f, r. split; [reflexivity|]. split; [constructor|exact E].
Qed.
Lemma dead_alive c f : dead c f -> alive c f -> False.
Proof. intros (b & k & E & Z) (b' & k' & E' & Z'). assert (b' = b) by congruence. subst. contradiction. Qed.
Lemma works_not_dead c files : works_in c files -> ~ Forall (dead c) files.
Proof. intros (pre & f & post & -> & _ & A) F. apply Forall_app in F as (_ & F). apply Forall_inv in F. exact (dead_alive _ _ F A). Qed.
Lemma works_present c files pre f post : works_in c files -> files = pre ++ f :: post -> Forall (dead c) pre -> lookup c (b_beta f) <> None.
Proof.
  intros (pre' & g & post' & -> & D' & A) E D N. revert pre E D. induction pre' as [|x pre' IH]; intros pre E D.
  - destruct pre as [|y pre]; cbn in E; [assert (f = g) by congruence; subst; destruct A as (b & k & X & _); congruence|].
    assert (y = g) by congruence. subst y. apply Forall_inv in D. exact (dead_alive _ _ D A).
  - apply Forall_inv_tail in D' as D''. apply Forall_inv in D'. destruct pre as [|y pre]; cbn in E.
    + assert (x = f) by congruence. subst x. destruct D' as (b & k & X & _). congruence.
    + apply (IH D'' pre); [congruence|]. exact (Forall_inv_tail D).
Qed.
Lemma valid_channel_iff files w : forall channels c w', valid_channel channels files w = Ok (c, w') <->
  (exists pre post, channels = pre ++ c :: post /\ Forall (fun x => Forall (dead x) files) pre /\ works_in c files) /\ w' = (if String.eqb c "1064" then w else c).
Proof.
  induction channels as [|x r IH]; intros c w'; cbn [valid_channel].
  - split; [discriminate|]. intros (([|y pre] & post & E & _) & _); discriminate.
  - pose proof (channel_works_spec x files) as S. destruct (channel_works x files) as [[]|e]; cbn [bind].
    + split.
      * intros H. assert (c = x) by congruence. subst c. split; [|congruence]. exists [], r. split; [reflexivity|]. split; [constructor|exact S].
      * intros (([|y pre] & post & E & F & W) & ->); [assert (c = x) by (cbn in E; congruence); subst; reflexivity|]. exfalso.
        assert (y = x) by (cbn in E; congruence). subst y. apply Forall_inv in F. exact (works_not_dead _ _ S F).
    + rewrite IH. split.
      * intros ((pre & post & -> & F & W) & E). split; [|exact E]. exists (x :: pre), post. split; [reflexivity|]. split; [constructor; assumption|exact W].
      * intros (([|y pre] & post & E & F & W) & E'); [assert (c = x) by (cbn in E; congruence); subst; destruct (works_not_dead _ _ W S)|].
        split; [|exact E']. exists pre, post. split; [cbn in E; congruence|]. split; [exact (Forall_inv_tail F)|exact W].
    + split; [discriminate|]. destruct S as (-> & pre' & f & post' & Ef & D & N). intros (([|y pre] & post & E & F & W) & _).
      * assert (c = x) by (cbn in E; congruence). subst. exact (False_ind _ (works_present _ _ _ _ _ W eq_refl D N)).
      * assert (y = x) by (cbn in E; congruence). subst y. apply Forall_inv in F. rewrite Ef in F. apply Forall_app in F as (_ & F). apply Forall_inv in F. destruct F as (b & k & X & _). congruence.
Qed.
Lemma valid_channel_none files w : forall channels, valid_channel channels files w = Raise ValidTimeStampError <-> Forall (fun x => Forall (dead x) files) channels.
Proof.
  induction channels as [|x r IH]; cbn [valid_channel]; [split; [constructor|reflexivity]|].
  pose proof (channel_works_spec x files) as S. destruct (channel_works x files) as [[]|e]; cbn [bind].
  - split; [discriminate|]. intros F. apply Forall_inv in F. destruct (works_not_dead _ _ S F).
  - rewrite IH. split; [intros F; constructor; assumption|intros F; exact (Forall_inv_tail F)].
  - destruct S as (-> & pre' & f & post' & Ef & D & N). split; [discriminate|]. intros F. apply Forall_inv in F. rewrite Ef in F. apply Forall_app in F as (_ & F). apply Forall_inv in F.
    destruct F as (b & k & X & _). congruence.
Qed.

(** ** The data *)
Lemma almost_equal_iff a b : almost_equal a b = true <-> same_times a b.
Proof.
  unfold almost_equal, same_times. rewrite andb_true_iff, Nat.eqb_eq, forallb_forall. revert b. induction a as [|x a IH]; intros [|y b]; cbn.
  - split; [constructor|]. intros _. split; [reflexivity|]. intros p [].
  - split; [intros (H & _); discriminate|intros H; inversion H].
  - split; [intros (H & _); discriminate|intros H; inversion H].
  - split.
    + intros (L & H). constructor; [apply qlt_iff, (H (x, y) (or_introl eq_refl))|]. apply IH. split; [congruence|]. intros p P. apply H. right. exact P.
    + intros H. inversion H as [|? ? ? ? H1 H2]; subst. apply IH in H2 as (L & H2). split; [congruence|]. intros p [<-|P]; [apply qlt_iff, H1|apply H2, P].
Qed.
Definition usable_bool (c : string) (p : bsc_file * depol_file) : bool :=
  almost_equal (b_time (fst p)) (d_time (snd p)) && match lookup c (b_snr (fst p)) with Some _ => true | None => false end.
Lemma usable_iff c p : usable_bool c p = true <-> usable c p.
Proof.
  unfold usable_bool, usable. rewrite andb_true_iff, almost_equal_iff. destruct (lookup c (b_snr (fst p))); split; intros (H & H'); split; auto; congruence.
Qed.
Lemma join_ok a b m : join a b = Ok m -> m = a ++ b.
Proof. unfold join. destruct a as [|r a], b as [|r' b]; try congruence. destruct (length r =? length r'); congruence. Qed.
Definition content (o : option polly) : polly :=
  match o with Some y => y | None => {| y_time := []; y_beta := []; y_depol := []; y_snr := []; y_factors := [] |} end.
Lemma add_pairs_spec c : forall pairs data data', add_pairs c pairs data = Ok data' ->
  exists pieces, Forall2 (piece_of c) (filter (usable_bool c) pairs) pieces /\
    y_time (content data') = y_time (content data) ++ List.concat (map e_time pieces) /\
    y_beta (content data') = y_beta (content data) ++ List.concat (map e_beta pieces) /\
    y_depol (content data') = y_depol (content data) ++ List.concat (map e_depol pieces) /\
    y_snr (content data') = y_snr (content data) ++ List.concat (map e_snr pieces) /\
    y_factors (content data') = y_factors (content data) ++ List.concat (map (fun e => repeat (e_factor e) (length (e_time e))) pieces) /\
    (pieces = [] -> data' = data) /\ (pieces <> [] -> data' <> None) /\ (data <> None -> data' <> None).
Proof.
  induction pairs as [|p pairs IH]; intros data data' H; cbn [add_pairs] in H.
  - assert (data' = data) by congruence. subst. exists []. cbn. rewrite !app_nil_r. split; [constructor|]. repeat (split; [reflexivity|]). split; [congruence|auto].
  - destruct (add_pair c p data) as [d1|] eqn:E; [|discriminate]. cbn [bind] in H. destruct (IH _ _ H) as (pieces & F & T & B & D & S & K & Z & NZ & NN). clear IH H.
    destruct p as [b d]. unfold add_pair in E. cbn [filter]. unfold usable_bool at 1. cbn [fst snd].
    destruct (almost_equal (b_time b) (d_time d)) eqn:AE; cbn [andb]; [|assert (d1 = data) by congruence; subst d1; exists pieces; auto 12].
    destruct (lookup c (b_beta b)) as [[beta k]|] eqn:LB; [|discriminate]. destruct (d_ratio d) as [depol|] eqn:LD; [|discriminate].
    destruct (lookup c (b_snr b)) as [snr|] eqn:LS; [|assert (d1 = data) by congruence; subst d1; exists pieces; auto 12].
    exists ({| e_time := b_time b; e_beta := beta; e_depol := depol; e_snr := snr; e_factor := k |} :: pieces).
    split; [constructor; [repeat split; cbn; assumption|exact F]|]. cbn [map List.concat e_time e_beta e_depol e_snr e_factor].
    assert (X : exists y, d1 = Some y /\ y_time y = y_time (content data) ++ b_time b /\ y_beta y = y_beta (content data) ++ beta /\ y_depol y = y_depol (content data) ++ depol /\
      y_snr y = y_snr (content data) ++ snr /\ y_factors y = y_factors (content data) ++ repeat k (length (b_time b))).
    { destruct data as [y|]; cbn [content].
      - destruct (join (y_beta y) beta) as [x1|] eqn:J1; [|discriminate]. cbn [bind] in E. destruct (join (y_depol y) depol) as [x2|] eqn:J2; [|discriminate]. cbn [bind] in E.
        destruct (join (y_snr y) snr) as [x3|] eqn:J3; [|discriminate]. cbn [bind] in E. apply join_ok in J1, J2, J3. subst. eexists. split; [symmetry; injection E as <-; reflexivity|]. cbn. auto 10.
      - eexists. split; [symmetry; injection E as <-; reflexivity|]. cbn. auto 10. }
    destruct X as (y & -> & X1 & X2 & X3 & X4 & X5). cbn [content] in T, B, D, S, K. rewrite X1 in T. rewrite X2 in B. rewrite X3 in D. rewrite X4 in S. rewrite X5 in K. rewrite <- app_assoc in T, B, D, S, K.
    repeat (split; [assumption|]). split; [discriminate|]. split; intros _; apply NN; discriminate.
Qed.
Lemma add_pairs_none c pairs : (forall p, In p pairs -> ~ usable c p) -> (forall p, In p pairs -> lookup c (b_beta (fst p)) <> None /\ d_ratio (snd p) <> None) -> add_pairs c pairs None = Ok None.
Proof.
  induction pairs as [|[b d] pairs IH]; intros N P; [reflexivity|]. cbn [add_pairs]. assert (E : add_pair c (b, d) None = Ok None).
  { unfold add_pair. destruct (almost_equal (b_time b) (d_time d)) eqn:A; [|reflexivity]. destruct (P (b, d) (or_introl eq_refl)) as (P1 & P2). cbn [fst snd] in *.
    destruct (lookup c (b_beta b)) as [[beta k]|]; [|congruence]. destruct (d_ratio d) as [depol|]; [|congruence]. destruct (lookup c (b_snr b)) as [snr|] eqn:L; [|reflexivity].
    exfalso. apply (N (b, d) (or_introl eq_refl)). split; [apply almost_equal_iff, A|]. cbn. congruence. }
  rewrite E. cbn [bind]. apply IH; intros p I; [apply N|apply P]; right; exact I.
Qed.
(** Arrays made of pieces of the same lengths. *)
Lemma concat_align {X A B} (f : X -> list A) (g : X -> list B) l : (forall x, In x l -> length (f x) = length (g x)) ->
  length (List.concat (map f l)) = length (List.concat (map g l)).
Proof. induction l as [|x l IH]; intros H; [reflexivity|]. cbn [map List.concat]. rewrite !app_length, (H x (or_introl eq_refl)), IH; [reflexivity|]. intros y Y. apply H. right. exact Y. Qed.
Lemma concat_row (l : list piece) : (forall e, In e l -> length (e_beta e) = length (e_time e) /\ length (e_depol e) = length (e_time e) /\ length (e_snr e) = length (e_time e)) ->
  forall i t, nth_error (List.concat (map e_time l)) i = Some t -> exists e k, In e l /\ nth_error (e_time e) k = Some t /\
    nth_error (List.concat (map e_beta l)) i = nth_error (e_beta e) k /\ nth_error (List.concat (map e_depol l)) i = nth_error (e_depol e) k /\
    nth_error (List.concat (map e_snr l)) i = nth_error (e_snr e) k /\ nth_error (List.concat (map (fun e => repeat (e_factor e) (length (e_time e))) l)) i = Some (e_factor e).
Proof.
  induction l as [|e l IH]; intros H i t E; [destruct i; discriminate|]. cbn [map List.concat] in *. destruct (H e (or_introl eq_refl)) as (H1 & H2 & H3).
  destruct (Nat.lt_ge_cases i (length (e_time e))) as [L|L].
  - rewrite nth_error_app1 in E by exact L. exists e, i. split; [left; reflexivity|]. split; [exact E|]. rewrite !nth_error_app1 by (rewrite ?repeat_length; lia). repeat (split; [reflexivity|]).
    assert (R : forall n k, k < n -> nth_error (repeat (e_factor e) n) k = Some (e_factor e)) by (induction n as [|n IHn]; intros [|k] K; cbn; [lia|lia|reflexivity|apply IHn; lia]). apply R, L.
  - rewrite nth_error_app2 in E by exact L. destruct (IH (fun x X => H x (or_intror X)) _ _ E) as (x & k & I & Et & Eb & Ed & Es & Ef). exists x, k. split; [right; exact I|]. split; [exact Et|].
    rewrite !nth_error_app2 by (rewrite ?repeat_length; lia). rewrite H1, H2, H3, repeat_length. auto.
Qed.

(** ** Masks *)
Lemma pixel_below limit snr raw i j s x : pixel snr i j = Some s -> pixel raw i j = Some x ->
  pixel (masked_below limit snr raw) i j = Some (hide (hidden s || test (fun q => qlt q limit) s) x).
Proof.
  unfold masked_below, pixel. rewrite nth_error_map2. destruct (nth_error snr i) as [rs|]; [|discriminate]. destruct (nth_error raw i) as [rx|]; [|discriminate].
  intros S X. rewrite nth_error_map2, S, X. reflexivity.
Qed.
Lemma rows_where_rows {A} valid (l : list A) : length l = length valid -> rows_of (where1 valid) l (rows_where valid l).
Proof.
  intros L. unfold rows_where, where1. assert (G : forall valid l n full, length l = length valid -> (forall i x, nth_error l i = Some x -> nth_error full (n + i) = Some x) ->
    Forall2 (fun k (x : A) => nth_error full k = Some x) (where_from n valid) (map snd (filter (fun p : bool * A => fst p) (combine valid l)))).
  { clear. induction valid as [|b valid IH]; intros [|x l] n full L H; try discriminate; cbn; [constructor|].
    assert (R : forall i y, nth_error l i = Some y -> nth_error full (S n + i) = Some y) by (intros i y E; replace (S n + i) with (n + S i) by lia; apply H; exact E).
    destruct b; cbn; [|apply IH; [cbn in L; lia|exact R]]. constructor; [replace n with (n + 0) by lia; apply H; reflexivity|apply IH; [cbn in L; lia|exact R]]. }
  specialize (G valid l 0 l L (fun i x E => E)). split.
  - clear -G. induction G; cbn; congruence.
  - clear -G. induction G as [|k x ks xs E G IH]; intros i n N; [destruct i; discriminate|]. destruct i as [|i]; cbn in N |- *; [exists x; split; congruence|apply IH; exact N].
Qed.
Lemma all_hidden_iff row : negb (forallb hidden row) = true <-> visible_pixel row.
Proof.
  rewrite negb_true_iff. unfold visible_pixel. split.
  - intros H. apply forallb_false_exists in H as ([x b] & I & H). cbn in H. subst b. eauto.
  - intros (x & I). destruct (forallb hidden row) eqn:E; [|reflexivity]. rewrite forallb_forall in E. specialize (E _ I). discriminate.
Qed.
Lemma those_in {A} (P : A -> Prop) l kept : those P l kept -> forall x, In x kept -> In x l /\ P x.
Proof.
  intros (idx & _ & HI & HF) x I. assert (X : exists j, In j idx /\ nth_error l j = Some x).
  { clear HI. induction HF as [|j y js ys EJ HF IH]; [destruct I|]. destruct I as [<-|I]; [exists j; split; [left; reflexivity|exact EJ]|]. destruct (IH I) as (j' & J & EJ'). exists j'. split; [right; exact J|exact EJ']. }
  destruct X as (j & J & EJ). apply HI in J as (y & Ey & Py). rewrite EJ in Ey. injection Ey as <-. split; [exact (nth_error_In _ _ EJ)|exact Py].
Qed.
