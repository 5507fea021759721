(** Proofs about the model fields and the cirrus filter of the model evaluation. *)
From Coq Require Import List Bool Arith ZArith QArith String Ascii Sorted Permutation Lia Lqa.
From Verif Require Import Base ArrayModel GridModel OutputModel ReaderModel TelegramModel.
From Verif Require Import GridProofs TelegramProofs.
From Verif Require Import WsProofs GaugeProofs AdvModel AdvSpec.
Import ListNotations.
Local Open Scope string_scope.
Local Open Scope nat_scope.
Local Open Scope list_scope.
Local Notation length := List.length (only parsing).

(** ** Points of arrays *)
Lemma at2_map : forall A B (f : A -> B) x i j b, at2 (map (map f) x) i j b <-> exists a, at2 x i j a /\ b = f a.
Proof.
  intros A B f x i j b. unfold at2. rewrite nth_error_map. split.
  - intros (row & H & K). destruct (nth_error x i) as [r|] eqn:E; [|discriminate]. injection H as <-. rewrite nth_error_map in K.
    destruct (nth_error r j) as [a|] eqn:J; [|discriminate]. injection K as <-. exists a. split; [exists r; auto|reflexivity].
  - intros (a & (r & E & J) & ->). exists (map f r). rewrite E. split; [reflexivity|]. rewrite nth_error_map, J. reflexivity.
Qed.
Lemma at2_pointwise : forall A B C (op : A -> B -> C) x y i j c, at2 (pointwise op x y) i j c <-> exists a b, at2 x i j a /\ at2 y i j b /\ c = op a b.
Proof.
  intros A B C op x y i j c. unfold at2, pointwise. split.
  - intros (row & H & K). apply map2_nth in H. destruct H as (r & s & X & Y & ->). apply map2_nth in K. destruct K as (a & b & P & Q & ->).
    exists a, b. split; [exists r; auto|]. split; [exists s; auto|reflexivity].
  - intros (a & b & (r & X & P) & (s & Y & Q) & ->). exists (map2 op r s). split; apply map2_nth; [exists r, s; auto|exists a, b; auto].
Qed.
Lemma nth_firstn : forall A n (l : list A) j, nth_error (firstn n l) j = if j <? n then nth_error l j else None.
Proof.
  intros A n. induction n as [|n IH]; intros l j; [destruct j; reflexivity|].
  destruct l as [|x l]; [destruct (j <? S n); destruct j; reflexivity|].
  destruct j as [|j]; [reflexivity|]. cbn [firstn nth_error]. rewrite IH. reflexivity.
Qed.
Lemma at2_cut : forall A n (x : image A) i j a, at2 (cut n x) i j a <-> j < n /\ at2 x i j a.
Proof.
  intros A n x i j a. unfold at2, cut. rewrite nth_error_map. split.
  - intros (row & H & K). destruct (nth_error x i) as [r|] eqn:E; [|discriminate]. injection H as <-. rewrite nth_firstn in K.
    destruct (Nat.ltb_spec j n) as [L|L]; [|discriminate]. split; [exact L|]. exists r. auto.
  - intros (L & r & E & K). exists (firstn n r). rewrite E. split; [reflexivity|]. rewrite nth_firstn. apply Nat.ltb_lt in L. rewrite L. exact K.
Qed.

(** ** Variables *)
Lemma get_variable : forall f name x, get String.eqb name (mf_fields f) = Some x <-> variable f name x.
Proof.
  intros f name x. unfold variable. induction (mf_fields f) as [|[k v] l IH]; cbn [get].
  - split; [discriminate|]. intros (a & r & H & _). destruct a; discriminate.
  - destruct (String.eqb_spec name k) as [<-|N].
    + split.
      * intros H. injection H as <-. exists [], l. split; [reflexivity|intros []].
      * intros ([|[k' v'] a] & r & H & K); injection H as -> ->; [reflexivity|]. exfalso. apply K. left. subst. reflexivity.
    + rewrite IH. split.
      * intros (a & r & -> & K). exists ((k, v) :: a), r. split; [reflexivity|]. cbn. intros [E|E]; [congruence|exact (K E)].
      * intros ([|[k' v'] a] & r & H & K); injection H as E1 E2; [congruence|]. exists a, r. split; [subst; auto|]. intros I. apply K. right. exact I.
Qed.
Lemma get_lacks : forall f name, get String.eqb name (mf_fields f) = None <-> lacks f name.
Proof.
  intros f name. unfold lacks. induction (mf_fields f) as [|[k v] l IH]; cbn [get map fst]; [split; [intros _ []|reflexivity]|].
  destruct (String.eqb_spec name k) as [<-|N]; [split; [discriminate|intros H; exfalso; apply H; left; reflexivity]|].
  rewrite IH. split; [intros H [E|I]; [congruence|exact (H I)]|intros H I; apply H; right; exact I].
Qed.
Lemma checked_ok : forall f name x, checked f name = Ok x <-> variable f name x.
Proof. intros f name x. unfold checked. rewrite <- get_variable. destruct (get _ _ _); split; congruence. Qed.
Lemma checked_raise : forall f name e, checked f name = Raise e <-> e = ModelDataError /\ lacks f name.
Proof. intros f name e. unfold checked. rewrite <- get_lacks. destruct (get _ _ _); split; intros H; try discriminate; [destruct H; discriminate|injection H as <-; auto|destruct H as [-> _]; reflexivity]. Qed.
Lemma getvar_ok : forall f name x, getvar f name = Ok x <-> variable f name x.
Proof. intros f name x. unfold getvar. rewrite <- get_variable. destruct (get _ _ _); split; congruence. Qed.
Lemma getvar_raise : forall f name e, getvar f name = Raise e <-> e = KeyError /\ lacks f name.
Proof. intros f name e. unfold getvar. rewrite <- get_lacks. destruct (get _ _ _); split; intros H; try discriminate; [destruct H; discriminate|injection H as <-; auto|destruct H as [-> _]; reflexivity]. Qed.
Lemma variable_unique : forall f name x y, variable f name x -> variable f name y -> x = y.
Proof. intros f name x y H K. apply get_variable in H, K. congruence. Qed.
Lemma variable_or : forall f name, (exists x, variable f name x) \/ lacks f name.
Proof. intros f name. destruct (get String.eqb name (mf_fields f)) as [x|] eqn:E; [left; exists x; apply get_variable; exact E|right; apply get_lacks; exact E]. Qed.
Lemma variable_lacks : forall f name x, variable f name x -> ~ lacks f name.
Proof. intros f name x H L. apply get_variable in H. apply get_lacks in L. congruence. Qed.

(** ** Levels *)
Lemma metres_ok : forall u k, metres u = Ok k <-> unit_factor u k.
Proof.
  intros u k. unfold metres, unit_factor. destruct (String.eqb_spec u "km") as [->|N].
  - split; [intros H; injection H as <-; left; auto|]. intros [[_ ->]|[[H|H] _]]; [reflexivity|discriminate|discriminate].
  - destruct (mem_str u ["m"; "meters"]) eqn:M; cbn [negb].
    + apply mem_str_iff in M. split; [intros H; injection H as <-; right; split; [|reflexivity]; destruct M as [<-|[<-|[]]]; auto|]. intros [[H _]|[_ ->]]; [congruence|reflexivity].
    + split; [discriminate|]. intros [[H _]|[H _]]; [congruence|]. exfalso. assert (X : mem_str u ["m"; "meters"] = true) by (apply mem_str_iff; destruct H as [-> | ->]; cbn; auto). congruence.
Qed.
Lemma metres_raise : forall u e, metres u = Raise e <-> e = ValueError /\ forall k, ~ unit_factor u k.
Proof.
  intros u e. split.
  - intros H. split; [|intros k K; apply metres_ok in K; congruence]. unfold metres in H. destruct (String.eqb u "km"); [discriminate|]. destruct (negb _); [congruence|discriminate].
  - intros [-> H]. destruct (metres u) as [k|e] eqn:E; [exfalso; apply (H k), metres_ok, E|]. unfold metres in E. destruct (String.eqb u "km"); [discriminate|]. destruct (negb _); [congruence|discriminate].
Qed.
(** A filter that keeps a start of the indices. *)
Lemma filter_start : forall (P : nat -> bool) n, (forall i j, i < j -> j < n -> P j = true -> P i = true) ->
  length (filter P (seq 0 n)) <= n /\ forall j, j < n -> (j < length (filter P (seq 0 n)) <-> P j = true).
Proof.
  intros P n. induction n as [|n IH]; intros D; [split; [apply le_n|lia]|]. rewrite seq_S, filter_app, app_length. cbn [Nat.add filter].
  destruct IH as [L H]; [intros i j A B C; apply (D i j); [exact A|lia|exact C]|]. destruct (P n) eqn:E.
  - assert (ALL : length (filter P (seq 0 n)) = n).
    { assert (F : filter P (seq 0 n) = seq 0 n); [|rewrite F; apply seq_length]. clear L H. assert (Q : forall i, In i (seq 0 n) -> P i = true).
      { intros i I. apply in_seq in I. apply (D i n); [lia|lia|exact E]. } clear D E. induction (seq 0 n) as [|x l IHl]; [reflexivity|]. cbn. rewrite (Q x (or_introl eq_refl)), IHl; [reflexivity|]. intros i I. apply Q. right. exact I. }
    cbn [length]. rewrite ALL. split; [lia|]. intros j J. split; [intros _|lia]. destruct (Nat.eq_dec j n) as [->|N]; [exact E|apply (D j n); lia || exact E].
  - cbn [length]. split; [lia|]. intros j J. rewrite Nat.add_0_r. destruct (Nat.eq_dec j n) as [->|N]; [split; [lia|congruence]|]. apply H. lia.
Qed.
Lemma nth_at : forall (rows : image Q) j k, existsb (fun row => qlt (nth j row 0 * k)%Q altitude_limit) rows = true -> (forall row, In row rows -> j < length row) -> low_level rows k j.
Proof.
  intros rows j k H B. apply existsb_exists in H. destruct H as (row & I & Q). apply qlt_iff in Q. apply In_nth_error in I as X. destruct X as (i & X).
  exists i, (nth j row 0%Q). split; [|exact Q]. exists row. split; [exact X|]. apply nth_error_nth', B, I.
Qed.
Lemma at_nth : forall (rows : image Q) j k, low_level rows k j -> existsb (fun row => qlt (nth j row 0 * k)%Q altitude_limit) rows = true.
Proof.
  intros rows j k (i & x & (row & X & J) & Q). apply existsb_exists. exists row. split; [eapply nth_error_In; exact X|]. apply qlt_iff. rewrite (nth_error_nth _ _ _ J). exact Q.
Qed.
Lemma rising_nth : forall l, StronglySorted Qle l -> forall i j x y, i < j -> nth_error l i = Some x -> nth_error l j = Some y -> (x <= y)%Q.
Proof.
  intros l S. induction S as [|a l S IH F]; intros [|i] [|j] x y L X Y; try lia; try discriminate.
  - cbn in X, Y. injection X as <-. rewrite Forall_forall in F. apply F. eapply nth_error_In. exact Y.
  - cbn in X, Y. apply (IH i j x y); [lia|exact X|exact Y].
Qed.
Lemma count_ok : forall rows k m, rectangular m rows -> rows <> [] -> upwards rows -> (0 < k)%Q ->
  count_levels k (Profiles rows) <= m /\ forall j, j < m -> (j < count_levels k (Profiles rows) <-> low_level rows k j).
Proof.
  intros rows k m R NE U K. cbn [count_levels]. assert (HL : length (hd [] rows) = m) by (destruct rows as [|r rows]; [congruence|apply R; left; reflexivity]). rewrite HL.
  assert (IFF : forall j, j < m -> (existsb (fun row => qlt (nth j row 0 * k)%Q altitude_limit) rows = true <-> low_level rows k j)).
  { intros j J. split; [intros H; apply nth_at; [exact H|]; intros row I; rewrite (R row I); exact J|apply at_nth]. }
  destruct (filter_start (fun j => existsb (fun row => qlt (nth j row 0 * k)%Q altitude_limit) rows) m) as [A B].
  - intros i j L J H. apply IFF; [lia|]. apply IFF in H; [|exact J]. destruct H as (a & x & (row & X & N) & Q).
    assert (I : In row rows) by (eapply nth_error_In; exact X). destruct (nth_error row i) as [y|] eqn:Y; [|apply nth_error_None in Y; rewrite (R row I) in Y; lia].
    exists a, y. split; [exists row; auto|]. assert (LE : (y <= x)%Q) by (exact (rising_nth _ (U row I) i j y x L Y N)).
    apply Qle_lt_trans with (x * k)%Q; [|exact Q]. apply Qmult_le_compat_r; [exact LE|lra].
  - split; [exact A|]. intros j J. rewrite B by exact J. apply IFF. exact J.
Qed.

(** ** Products *)
Lemma drop_below_iff : forall l x y, drop_below l x = y -> above l x y.
Proof.
  intros l x y <-. unfold drop_below, above. destruct (qlt x l) eqn:E; [left; split; [apply qlt_iff; exact E|reflexivity]|].
  right. split; [apply qlt_false; exact E|]. exists x. split; [reflexivity|apply Qeq_refl].
Qed.
Lemma screen_iff : forall l x y, (0 <= l)%Q -> screen_content l x = y -> above l x y.
Proof.
  intros l x y L <-. unfold screen_content, drop_below at 1. destruct (qlt x 0) eqn:E.
  - apply qlt_iff in E. left. split; [lra|reflexivity].
  - apply drop_below_iff. reflexivity.
Qed.
Lemma add_optional_at : forall f name q i j z, at2 (add_optional f name q) i j z -> exists a b, at2 q i j a /\ extra f name i j b /\ (z == a + b)%Q.
Proof.
  intros f name q i j z. unfold add_optional. destruct (get String.eqb name (mf_fields f)) as [x|] eqn:E.
  - intros H. apply at2_pointwise in H. destruct H as (a & b & A & B & ->). exists a, b. split; [exact A|]. split; [|apply Qeq_refl].
    right. exists x. split; [apply get_variable; exact E|exact B].
  - intros H. exists z, 0%Q. split; [exact H|]. split; [left; split; [apply get_lacks; exact E|apply Qeq_refl]|]. ring.
Qed.
Lemma add_optional_ex : forall f name q i j a b, at2 q i j a -> extra f name i j b -> exists z, at2 (add_optional f name q) i j z.
Proof.
  intros f name q i j a b A B. unfold add_optional. destruct (get String.eqb name (mf_fields f)) as [x|] eqn:E.
  - destruct B as [[L _]|(x' & V & B)]; [apply get_lacks in L; congruence|]. apply get_variable in V. assert (x' = x) by congruence. subst x'.
    exists (a + b)%Q. apply at2_pointwise. exists a, b. auto.
  - exists a. exact A.
Qed.
Lemma mixing_at : forall f product q i j z, product = "iwc" \/ product = "lwc" -> mixing_ratio f product = Ok q -> at2 q i j z -> total_ratio f product i j z.
Proof.
  intros f product q i j z [-> | ->]; unfold mixing_ratio; cbn [String.eqb Ascii.eqb Bool.eqb].
  - destruct (checked f "qi") as [x|e] eqn:E; cbn [bind]; [|discriminate]. intros H A. injection H as <-. apply checked_ok in E.
    apply add_optional_at in A. destruct A as (a & c & A & C & Z). apply add_optional_at in A. destruct A as (a' & b & A & B & Z').
    right. split; [reflexivity|]. exists x, a', b, c. repeat (split; [assumption|]). rewrite Z, Z'. ring.
  - intros H A. apply checked_ok in H. left. split; [reflexivity|]. exists q. auto.
Qed.
Lemma mixing_ex : forall f product q i j z, mixing_ratio f product = Ok q -> total_ratio f product i j z -> exists z', at2 q i j z'.
Proof.
  intros f product q i j z H [[-> (x & V & A)]|[-> (x & a & b & c & V & A & B & C & _)]]; unfold mixing_ratio in H; cbn [String.eqb Ascii.eqb Bool.eqb] in H.
  - apply checked_ok in H. rewrite (variable_unique _ _ _ _ H V). eauto.
  - destruct (checked f "qi") as [x'|e] eqn:E; cbn [bind] in H; [|discriminate]. injection H as <-. apply checked_ok in E. rewrite (variable_unique _ _ _ _ E V) in *.
    destruct (add_optional_ex f "qs" x i j a b A B) as (y & Y). exact (add_optional_ex f "qg" _ i j y c Y C).
Qed.
Lemma raw_ok : forall f n product out, product = "iwc" \/ product = "lwc" -> raw_content f n product = Ok out ->
  forall i j, (forall x, at2 out i j x -> j < n /\ density f product i j x) /\ (forall x, j < n -> density f product i j x -> exists x', at2 out i j x').
Proof.
  intros f n product out PR H i j. unfold raw_content in H. destruct (checked f "pressure") as [p|e] eqn:EP; cbn [bind] in H; [|discriminate].
  destruct (checked f "temperature") as [t|e] eqn:ET; cbn [bind] in H; [|discriminate]. destruct (mixing_ratio f product) as [q|e] eqn:EQ; cbn [bind] in H; [|discriminate].
  injection H as <-. apply checked_ok in EP, ET. split.
  - intros x A. apply at2_cut in A. destruct A as [L A]. split; [exact L|]. unfold calc_water_content in A. apply at2_pointwise in A. destruct A as (qp & rt & A & B & ->).
    apply at2_pointwise in A. destruct A as (qv & pv & Q & P & ->). apply at2_map in B. destruct B as (tv & T & ->).
    exists qv, p, t, pv, tv. split; [eapply mixing_at; eassumption|]. repeat (split; [assumption|]). intros NZ. unfold gas_constant. field. exact NZ.
  - intros x L (qv & p' & t' & pv & tv & Q & VP & P & VT & T & _). rewrite (variable_unique _ _ _ _ VP EP), (variable_unique _ _ _ _ VT ET) in *.
    destruct (mixing_ex f product q i j qv EQ Q) as (q' & Q'). eexists. apply at2_cut. split; [exact L|]. apply at2_pointwise. do 2 eexists. split; [apply at2_pointwise; do 2 eexists; split; [exact Q'|split; [exact P|reflexivity]]|].
    split; [apply at2_map; eexists; split; [exact T|reflexivity]|reflexivity].
Qed.
Lemma product_raise : forall f n product, In product ["cf"; "iwc"; "lwc"] ->
  ((exists k, In k (needs product) /\ lacks f k) <-> exists e, product_field f n product = Raise e) /\ (forall e, product_field f n product = Raise e -> e = ModelDataError).
Proof.
  intros f n product I. destruct I as [<-|[<-|[<-|[]]]]; cbn [needs String.eqb Ascii.eqb Bool.eqb]; unfold product_field, raw_content, mixing_ratio; cbn [String.eqb Ascii.eqb Bool.eqb].
  - destruct (checked f "cloud_fraction") as [x|e] eqn:E; cbn [bind].
    + split; [|discriminate]. split; [|intros (e & H); discriminate]. intros (k & [<-|[]] & L). apply checked_ok in E. exfalso. exact (variable_lacks _ _ _ E L).
    + apply checked_raise in E. destruct E as [-> L]. split; [|congruence]. split; [eauto|]. intros _. exists "cloud_fraction". split; [left; reflexivity|exact L].
  - destruct (checked f "pressure") as [x|e] eqn:E; cbn [bind].
    + destruct (checked f "temperature") as [x'|e] eqn:E'; cbn [bind].
      * destruct (checked f "qi") as [x''|e] eqn:E''; cbn [bind].
        -- split; [|discriminate]. split; [|intros (e & H); discriminate]. apply checked_ok in E, E', E''. intros (k & [<-|[<-|[<-|[]]]] & L); exfalso; [exact (variable_lacks _ _ _ E L)|exact (variable_lacks _ _ _ E' L)|exact (variable_lacks _ _ _ E'' L)].
        -- apply checked_raise in E''. destruct E'' as [-> L]. split; [|congruence]. split; [eauto|]. intros _. exists "qi". split; [cbn; auto|exact L].
      * apply checked_raise in E'. destruct E' as [-> L]. split; [|congruence]. split; [eauto|]. intros _. exists "temperature". split; [cbn; auto|exact L].
    + apply checked_raise in E. destruct E as [-> L]. split; [|congruence]. split; [eauto|]. intros _. exists "pressure". split; [cbn; auto|exact L].
  - destruct (checked f "pressure") as [x|e] eqn:E; cbn [bind].
    + destruct (checked f "temperature") as [x'|e] eqn:E'; cbn [bind].
      * destruct (checked f "ql") as [x''|e] eqn:E''; cbn [bind].
        -- split; [|discriminate]. split; [|intros (e & H); discriminate]. apply checked_ok in E, E', E''. intros (k & [<-|[<-|[<-|[]]]] & L); exfalso; [exact (variable_lacks _ _ _ E L)|exact (variable_lacks _ _ _ E' L)|exact (variable_lacks _ _ _ E'' L)].
        -- apply checked_raise in E''. destruct E'' as [-> L]. split; [|congruence]. split; [eauto|]. intros _. exists "ql". split; [cbn; auto|exact L].
      * apply checked_raise in E'. destruct E' as [-> L]. split; [|congruence]. split; [eauto|]. intros _. exists "temperature". split; [cbn; auto|exact L].
    + apply checked_raise in E. destruct E as [-> L]. split; [|congruence]. split; [eauto|]. intros _. exists "pressure". split; [cbn; auto|exact L].
Qed.
Lemma resolution_ok : forall f r, resolution f = Ok r <-> exists l pre, mf_resolution f = Some l /\ hd_error (valid l) = Some r /\ (0 < r)%Q /\ pre = valid l /\ forall x, In x pre -> (x == r)%Q.
Proof.
  intros f r. unfold resolution. destruct (mf_resolution f) as [l|]; [|split; [discriminate|intros (l & p & H & _); discriminate]].
  destruct (valid l) as [|x rest] eqn:V; [split; [discriminate|intros (l' & p & H & K & _); injection H as <-; rewrite V in K; discriminate]|].
  assert (E : forallb (Qeq_bool x) rest && negb (Qle_bool x 0) = true <-> (0 < x)%Q /\ forall y, In y (x :: rest) -> (y == x)%Q).
  { rewrite andb_true_iff, forallb_forall, negb_true_iff. split.
    - intros [A B]. split; [apply Qnot_le_lt; intros X; apply Qle_bool_iff in X; congruence|]. intros y [<-|I]; [apply Qeq_refl|]. symmetry. apply Qeq_bool_iff, A, I.
    - intros [A B]. split; [intros y I; apply Qeq_bool_iff; symmetry; apply B; right; exact I|]. destruct (Qle_bool x 0) eqn:Y; [apply Qle_bool_iff in Y; lra|reflexivity]. }
  destruct (forallb (Qeq_bool x) rest && negb (Qle_bool x 0)) eqn:X.
  - destruct (proj1 E eq_refl) as [A B]. split.
    + intros H. injection H as <-. exists l, (valid l). rewrite V. auto.
    + intros (l' & p & H & K & _). injection H as <-. rewrite V in K. injection K as ->. reflexivity.
  - split; [discriminate|]. intros (l' & p & H & K & R & -> & Q). injection H as <-. rewrite V in *. injection K as ->. exfalso. assert (false = true) by (apply E; auto). discriminate.
Qed.
Lemma resolution_raise : forall f e, resolution f = Raise e -> e = ModelDataError.
Proof. intros f e. unfold resolution. destruct (mf_resolution f); [|congruence]. destruct (valid l); [congruence|]. destruct (_ && _); congruence. Qed.
Lemma valid_in : forall A (l : list (masked A)) x, In x (valid l) <-> In (Some x) l.
Proof.
  intros A l x. induction l as [|[y|] l IH]; cbn [valid In]; [tauto| |]; rewrite IH.
  - split; (intros [H|H]; [left; congruence|right; exact H]).
  - split; [intros H; right; exact H|intros [H|H]; [discriminate|exact H]].
Qed.

(** ** Cirrus *)
Lemma drop_above : forall limit x, above limit x (drop_below limit x).
Proof. intros limit x. apply drop_below_iff. reflexivity. Qed.
Lemma grid_nth : forall f k x, nth_error (grid f) k = Some x <-> k < 249 /\ x = (inject_Z (Z.of_nat k) * (f / 249))%Q.
Proof.
  intros f k x. unfold grid. rewrite nth_error_map. split.
  - intros H. destruct (nth_error (seq 0 249) k) as [m|] eqn:E; [|discriminate]. injection H as <-.
    assert (L : k < 249) by (rewrite <- (seq_length 249 0); apply nth_error_Some; congruence). split; [exact L|].
    apply (nth_error_nth _ _ 0) in E. rewrite seq_nth in E by exact L. cbn in E. subst m. reflexivity.
  - intros [L ->]. assert (E : nth_error (seq 0 249) k = Some k) by (rewrite (nth_error_nth' _ 0) by (rewrite seq_length; exact L); rewrite seq_nth by exact L; reflexivity).
    rewrite E. reflexivity.
Qed.
Lemma grid_length : forall f, length (grid f) = 249.
Proof. intros f. unfold grid. rewrite map_length, seq_length. reflexivity. Qed.
Lemma grid_two : forall f, nth 2 (grid f) 0%Q = (inject_Z 2 * (f / 249))%Q.
Proof. intros f. apply nth_error_nth. apply grid_nth. split; [lia|reflexivity]. Qed.
Lemma distribution_spec : forall sq c v, abscissae sq c v (iwc_distribution sq c v).
Proof.
  intros sq c v. unfold abscissae, iwc_distribution. set (f := (c + 5 * (sq v * c))%Q). rewrite grid_two.
  assert (F : (f == c + 5 * sq v * c)%Q) by (unfold f; ring).
  assert (G : forall g k x, nth_error (grid g) k = Some x -> (x * 249 == inject_Z (Z.of_nat k) * g)%Q).
  { intros g k x H. apply grid_nth in H. destruct H as [_ ->]. field. }
  assert (T : (inject_Z 2 * (f / 249) * 249 == 2 * f)%Q) by (unfold inject_Z; field).
  destruct (qlt c (inject_Z 2 * (f / 249))%Q) eqn:E.
  - apply qlt_iff in E. split; [apply grid_length|]. exists (c * 10)%Q. split; [left; split; [rewrite <- F; lra|ring]|apply G].
  - apply qlt_false in E. split; [apply grid_length|]. exists f. split; [right; split; [rewrite <- F; lra|exact F]|apply G].
Qed.
Lemma qsum_sums : forall l, sums l (qsum l).
Proof. induction l as [|x l IH]; [apply SumNil; apply Qeq_refl|]. eapply SumCons; [exact IH|apply Qeq_refl]. Qed.
Lemma seen_mass : forall least d p, length p = length d ->
  mass_above least (combine d p) (qsum (map2 (fun (x : Q) (b : bool) => if b then x else 0%Q) p (map (qlt least) d))).
Proof.
  intros least d. induction d as [|x d IH]; intros [|y p] L; try discriminate; [apply MassNil; apply Qeq_refl|].
  cbn [combine map map2]. injection L as L. specialize (IH p L). destruct (qlt least x) eqn:E.
  - apply qlt_iff in E. eapply MassSeen; [exact E|exact IH|]. apply Qeq_refl.
  - apply qlt_false in E. apply MassNot; [exact E|]. cbn [qsum fold_right]. 
    assert (W : forall m l s t, (s == t)%Q -> mass_above m l s -> mass_above m l t).
    { clear. intros m l s t Q M. revert t Q. induction M as [s Z|a p l s t A M IH Z|a p l s A M IH]; intros u Q.
      - apply MassNil. rewrite <- Q. exact Z.
      - eapply MassSeen; [exact A|exact M|]. rewrite <- Q. exact Z.
      - apply MassNot; [exact A|]. apply IH. exact Q. }
    eapply W; [|exact IH]. symmetry. apply Qplus_0_l.
Qed.
Lemma gamma_split : forall pdf d v c,
  (existsb (fun x => match x with None => true | Some _ => false end) (gamma_distribution pdf d v c) = true /\ exists x, In x d /\ pdf x (1 / v)%Q (c / (1 / v))%Q = None) \/
  (existsb (fun x => match x with None => true | Some _ => false end) (gamma_distribution pdf d v c) = false /\ densities pdf c v d (valid (gamma_distribution pdf d v c))).
Proof.
  intros pdf d v c. induction d as [|x d IH]; [right; split; [reflexivity|constructor]|]. unfold gamma_distribution in *. cbn [map existsb].
  destruct (pdf x (1 / v)%Q (c / (1 / v))%Q) as [y|] eqn:E; cbn [orb valid].
  - destruct IH as [(A & z & B & C)|[A B]]; [left; split; [exact A|exists z; split; [right; exact B|exact C]]|right; split; [exact A|constructor; [exact E|exact B]]].
  - left. split; [reflexivity|]. exists x. split; [left; reflexivity|exact E].
Qed.
Lemma densities_length : forall pdf c v d p, densities pdf c v d p -> length p = length d.
Proof. intros pdf c v d p H. induction H; cbn; congruence. Qed.
Lemma ice_pixel_spec : forall sq pdf cf iwc v least, let c := (iwc / cf * 1000)%Q in
  ice_cloud pdf cf c v least (iwc_distribution sq c v) (match ice_pixel sq pdf cf iwc v least with None => None | Some y => drop_below (5 # 100) y end).
Proof.
  intros sq pdf cf iwc v least c. unfold ice_pixel. fold c. set (d := iwc_distribution sq c v).
  destruct (gamma_split pdf d v c) as [(A & x & B & C)|[A B]]; rewrite A; [apply IceInfinite with x; assumption|].
  set (p := valid (gamma_distribution pdf d v c)) in *.
  destruct (Qeq_bool (qsum p) 0 || qlt ((1 # 100) * qsum p) (last p 0%Q)) eqn:E.
  - apply IceBad with p (qsum p); [exact B|apply qsum_sums|]. apply orb_true_iff in E. destruct E as [E|E]; [left; apply Qeq_bool_iff; exact E|right; apply qlt_iff in E; lra].
  - apply orb_false_iff in E. destruct E as [E E']. apply qlt_false in E'. assert (N : ~ (qsum p == 0)%Q) by (intros X; apply Qeq_bool_iff in X; congruence).
    eapply IceSeen with (p := p) (tot := qsum p); [exact B|apply qsum_sums|exact N|lra|apply seen_mass; apply (densities_length _ _ _ _ _ B)| |apply drop_above].
    unfold filter_cirrus. field. exact N.
Qed.
Lemma weird_false : forall cf iwc lwc, (5 # 100 <= cf)%Q -> weird cf iwc lwc = false.
Proof.
  intros cf iwc lwc H. unfold weird. assert (A : qlt cf (1 # 1000) = false) by (apply qlt_false; lra). rewrite A, andb_false_r. cbn [orb].
  assert (B : Qeq_bool cf 0 = false) by (destruct (Qeq_bool cf 0) eqn:E; [apply Qeq_bool_iff in E; lra|reflexivity]). rewrite B, andb_false_r. reflexivity.
Qed.
Lemma cf_filtered_low : forall cf iwc lwc, (cf < 5 # 100)%Q -> cf_filtered cf iwc lwc = None.
Proof. intros cf iwc lwc H. unfold cf_filtered. destruct (weird cf iwc lwc); [reflexivity|]. unfold drop_below. apply qlt_iff in H. rewrite H. reflexivity. Qed.
Lemma cf_filtered_high : forall cf iwc lwc, (5 # 100 <= cf)%Q -> cf_filtered cf iwc lwc = Some cf.
Proof. intros cf iwc lwc H. unfold cf_filtered. rewrite weird_false by exact H. unfold drop_below. assert (A : qlt cf (5 # 100) = false) by (apply qlt_false; exact H). rewrite A. reflexivity. Qed.
Lemma drop_high : forall cf, (5 # 100 <= cf)%Q -> drop_below (5 # 100) cf = Some cf.
Proof. intros cf H. unfold drop_below. assert (A : qlt cf (5 # 100) = false) by (apply qlt_false; exact H). rewrite A. reflexivity. Qed.
Lemma ice_iff : forall cf iwc lwc, ice cf iwc lwc = true <-> icy cf iwc lwc.
Proof.
  intros cf iwc lwc. unfold ice, icy. rewrite !andb_true_iff, !qlt_iff.
  assert (E : (lwc < iwc / 10 <-> lwc * 10 < iwc)%Q) by (assert (X : (iwc / 10 * 10 == iwc)%Q) by field; split; intros H; lra). rewrite E. tauto.
Qed.
Lemma cirrus_spec : forall sq pdf x, cirrus_value sq pdf x (cirrus_pixel sq pdf (px_cf x) (px_iwc x) (px_lwc x) (px_variance x) (px_least x)).
Proof.
  intros sq pdf [cf iwc lwc v least]. cbn [px_cf px_iwc px_lwc px_variance px_least]. unfold cirrus_value, cirrus_pixel. cbn [px_cf px_iwc px_lwc px_variance px_least].
  destruct (Qlt_le_dec cf (5 # 100)) as [L|L]; [left; rewrite cf_filtered_low by exact L; auto|]. right. rewrite cf_filtered_high by exact L.
  destruct (ice cf iwc lwc) eqn:E.
  - right. apply ice_iff in E. split; [exact L|]. split; [exact E|]. exists (iwc_distribution sq (iwc / cf * 1000)%Q v). split; [apply distribution_spec|apply ice_pixel_spec].
  - left. split; [exact L|]. split; [intros H; apply ice_iff in H; congruence|apply drop_high; exact L].
Qed.
Lemma counted_some : forall x b, counted (px_cf x, px_iwc x, px_lwc x) = Some b <-> cloudy x /\ b = ice (px_cf x) (px_iwc x) (px_lwc x).
Proof.
  intros [cf iwc lwc v least] b. unfold counted, cloudy. cbn [px_cf px_iwc px_lwc].
  destruct (Qlt_le_dec cf (5 # 100)) as [L|L]; [rewrite cf_filtered_low by exact L; split; [discriminate|intros [(A & _) _]; lra]|]. rewrite cf_filtered_high by exact L.
  unfold drop_below. destruct (qlt iwc 0) eqn:A; [apply qlt_iff in A; split; [discriminate|intros [(_ & B & _) _]; lra]|].
  destruct (qlt lwc 0) eqn:B; [apply qlt_iff in B; split; [discriminate|intros [(_ & _ & C) _]; lra]|]. apply qlt_false in A, B.
  split; [intros H; injection H as <-; auto|intros [_ ->]; reflexivity].
Qed.
Lemma no_ice_iff : forall l, no_ice (map (fun x => (px_cf x, px_iwc x, px_lwc x)) l) = true <->
  (exists x, In x l /\ cloudy x) /\ (forall x, In x l -> cloudy x -> ~ icy (px_cf x) (px_iwc x) (px_lwc x)).
Proof.
  intros l. unfold no_ice. rewrite map_map.
  assert (V : forall b, In b (valid (map (fun x => counted (px_cf x, px_iwc x, px_lwc x)) l)) <-> exists x, In x l /\ cloudy x /\ b = ice (px_cf x) (px_iwc x) (px_lwc x)).
  { intros b. rewrite valid_in, in_map_iff. split; [intros (x & H & I); apply counted_some in H; exists x; tauto|intros (x & I & H); exists x; split; [apply counted_some; exact H|exact I]]. }
  destruct (valid (map (fun x => counted (px_cf x, px_iwc x, px_lwc x)) l)) as [|b bs] eqn:E.
  - split; [discriminate|]. intros [(x & I & C) _]. assert (H : In (ice (px_cf x) (px_iwc x) (px_lwc x)) []) by (apply V; eauto). destruct H.
  - rewrite negb_true_iff. clear E. split.
    + intros H. split.
      * destruct (proj1 (V b) (or_introl eq_refl)) as (x & I & C & _). eauto.
      * intros x I C K. apply ice_iff in K. assert (J : In (ice (px_cf x) (px_iwc x) (px_lwc x)) (b :: bs)) by (apply V; eauto).
        rewrite K in J. assert (X : existsb (fun b => b) (b :: bs) = true) by (apply existsb_exists; exists true; auto). congruence.
    + intros [_ N]. destruct (existsb (fun b => b) (b :: bs)) eqn:X; [|reflexivity]. apply existsb_exists in X. destruct X as (c & I & ->).
      apply V in I. destruct I as (x & I & C & K). exfalso. apply (N x I C). apply ice_iff. symmetry. exact K.
Qed.
Lemma mass_bounds : forall m l s, mass_above m l s -> (forall x p, In (x, p) l -> (0 <= p)%Q) -> forall tot, sums (map snd l) tot -> (0 <= s <= tot)%Q.
Proof.
  intros m l s H. induction H as [s Z|x p l s t A M IH Z|x p l s A M IH]; intros N tot T; cbn [map snd] in T; inversion T; subst.
  - split; lra.
  - assert (B : (0 <= s <= s0)%Q) by (apply IH; [intros a b I; apply (N a b); right; exact I|assumption]). assert (P : (0 <= p)%Q) by (apply (N x p); left; reflexivity). destruct B. split; lra.
  - assert (B : (0 <= s <= s0)%Q) by (apply IH; [intros a b I; apply (N a b); right; exact I|assumption]). assert (P : (0 <= p)%Q) by (apply (N x p); left; reflexivity). destruct B. split; lra.
Qed.
Lemma sums_unique : forall l s, sums l s -> forall t, sums l t -> (s == t)%Q.
Proof. intros l s H. induction H as [s Z|x l s t H IH Z]; intros u U; inversion U; subst; [lra|]. specialize (IH _ H2). lra. Qed.
Lemma sums_nonneg : forall l s, sums l s -> (forall x, In x l -> (0 <= x)%Q) -> (0 <= s)%Q.
Proof. intros l s H. induction H as [s Z|x l s t H IH Z]; intros N; [lra|]. assert (A : (0 <= x)%Q) by (apply N; left; reflexivity). assert (B : (0 <= s)%Q) by (apply IH; intros y I; apply N; right; exact I). lra. Qed.
Lemma combine_snd : forall A B (d : list A) (p : list B), length p = length d -> map snd (combine d p) = p.
Proof. intros A B d. induction d as [|x d IH]; intros [|y p] L; try discriminate; [reflexivity|]. cbn. f_equal. apply IH. injection L as L. exact L. Qed.
Lemma densities_nonneg : forall pdf c v d p, (forall x a b y, pdf x a b = Some y -> (0 <= y)%Q) -> densities pdf c v d p -> forall y, In y p -> (0 <= y)%Q.
Proof. intros pdf c v d p N H. induction H as [|x y d p E H IH]; intros z [<-|I] || intros z []; [eapply N; exact E|apply IH; exact I]. Qed.
Lemma combine_in : forall A B (d : list A) (p : list B) x y, In (x, y) (combine d p) -> In x d /\ In y p.
Proof. intros A B d p x y I. split; [eapply in_combine_l; exact I|eapply in_combine_r; exact I]. Qed.
Lemma cirrus_bounds : forall sq pdf x y, (forall x a b y, pdf x a b = Some y -> (0 <= y)%Q) -> cirrus_value sq pdf x (Some y) -> (5 # 100 <= y <= px_cf x)%Q.
Proof.
  intros sq pdf x y N [[_ H]|[(L & _ & H)|(L & I & d & _ & H)]]; [discriminate|injection H as ->; lra|].
  inversion H as [| |p tot s z y' D S NZ LA M E AB]; subst. destruct AB as [[_ AB]|(G & z' & AB & ZZ)]; [discriminate|]. injection AB as <-.
  pose proof (densities_length _ _ _ _ _ D) as LE. pose proof (densities_nonneg _ _ _ _ _ N D) as NN.
  assert (B : (0 <= s <= tot)%Q). { eapply mass_bounds; [exact M|intros a b J; apply NN; exact (proj2 (combine_in _ _ _ _ _ _ J))|rewrite combine_snd by exact LE; exact S]. }
  assert (T : (0 <= tot)%Q) by (eapply sums_nonneg; [exact S|exact NN]). assert (TP : (0 < tot)%Q) by (apply Qnot_le_lt; intros X; apply NZ; lra).
  destruct B as [B1 B2]. split; [lra|]. assert (C : (z * tot <= px_cf x * tot)%Q).
  { rewrite E. rewrite (Qmult_comm (px_cf x)). apply Qmult_le_compat_r; [exact B2|lra]. }
  apply Qmult_le_r in C; [lra|exact TP].
Qed.
Lemma seen_le : forall l l' d p, (l <= l')%Q -> (forall y, In y p -> (0 <= y)%Q) ->
  (qsum (map2 (fun (x : Q) (b : bool) => if b then x else 0%Q) p (map (qlt l') d)) <= qsum (map2 (fun (x : Q) (b : bool) => if b then x else 0%Q) p (map (qlt l) d)))%Q.
Proof.
  intros l l' d p L. revert d. induction p as [|y p IH]; intros [|x d] N; try apply Qle_refl. cbn [map map2 qsum fold_right].
  assert (P : (0 <= y)%Q) by (apply N; left; reflexivity). specialize (IH d (fun z I => N z (or_intror I))). unfold qsum in IH.
  destruct (qlt l' x) eqn:A; destruct (qlt l x) eqn:B; try lra. apply qlt_iff in A. apply qlt_false in B. lra.
Qed.
Lemma qsum_nonneg : forall p, (forall y, In y p -> (0 <= y)%Q) -> (0 <= qsum p)%Q.
Proof. intros p N. eapply sums_nonneg; [apply qsum_sums|exact N]. Qed.
Lemma drop_mono : forall l x y, (y <= x)%Q -> dominates (drop_below l x) (drop_below l y).
Proof.
  intros l x y H. unfold drop_below, dominates. destruct (qlt y l) eqn:E; [exact I|]. apply qlt_false in E.
  assert (F : qlt x l = false) by (apply qlt_false; lra). rewrite F. eauto.
Qed.
Lemma cirrus_mono : forall sq pdf cf iwc lwc v l l', (forall x a b y, pdf x a b = Some y -> (0 <= y)%Q) -> (l <= l')%Q ->
  dominates (cirrus_pixel sq pdf cf iwc lwc v l) (cirrus_pixel sq pdf cf iwc lwc v l').
Proof.
  intros sq pdf cf iwc lwc v l l' N L. unfold cirrus_pixel. destruct (Qlt_le_dec cf (5 # 100)) as [C|C]; [rewrite cf_filtered_low by exact C; exact I|].
  rewrite cf_filtered_high by exact C. destruct (ice cf iwc lwc); [|rewrite drop_high by exact C; cbn; exists cf; split; [reflexivity|lra]].
  unfold ice_pixel. set (c := (iwc / cf * 1000)%Q). set (d := iwc_distribution sq c v).
  destruct (gamma_split pdf d v c) as [(A & _)|[A B]]; rewrite A; [exact I|]. set (p := valid (gamma_distribution pdf d v c)) in *.
  destruct (_ || _) eqn:E; [exact I|]. apply drop_mono. apply orb_false_iff in E. destruct E as [E _].
  assert (NN : forall y, In y p -> (0 <= y)%Q) by (eapply densities_nonneg; [exact N|exact B]).
  assert (TP : (0 < qsum p)%Q). { apply Qnot_le_lt. intros X. assert (Y : (0 <= qsum p)%Q) by (apply qsum_nonneg; exact NN). assert (Z : (qsum p == 0)%Q) by lra. apply Qeq_bool_iff in Z. congruence. }
  unfold filter_cirrus. apply Qmult_le_compat_r; [|lra]. unfold Qdiv. apply Qmult_le_compat_r; [apply seen_le; assumption|]. apply Qinv_le_0_compat. lra.
Qed.
Lemma seen_all : forall l d p, length p = length d -> (forall x, In x d -> (l < x)%Q) -> map2 (fun (x : Q) (b : bool) => if b then x else 0%Q) p (map (qlt l) d) = p.
Proof.
  intros l d. induction d as [|x d IH]; intros [|y p] L A; try discriminate; [reflexivity|]. cbn [map map2].
  assert (B : qlt l x = true) by (apply qlt_iff, A; left; reflexivity). rewrite B. f_equal. apply IH; [injection L as L; exact L|intros z I; apply A; right; exact I].
Qed.
Lemma cirrus_all_seen : forall sq pdf cf iwc lwc v l y, (forall x, (0 <= sq x)%Q) -> (l < 0)%Q -> cirrus_pixel sq pdf cf iwc lwc v l = Some y -> (y == cf)%Q.
Proof.
  intros sq pdf cf iwc lwc v l y SQ L. unfold cirrus_pixel. destruct (Qlt_le_dec cf (5 # 100)) as [C|C]; [rewrite cf_filtered_low by exact C; discriminate|].
  rewrite cf_filtered_high by exact C. destruct (ice cf iwc lwc) eqn:IC; [|rewrite drop_high by exact C; intros H; injection H as <-; apply Qeq_refl].
  apply ice_iff in IC. destruct IC as (_ & IW & _). unfold ice_pixel. set (c := (iwc / cf * 1000)%Q). set (d := iwc_distribution sq c v).
  destruct (gamma_split pdf d v c) as [(A & _)|[A B]]; rewrite A; [discriminate|]. set (p := valid (gamma_distribution pdf d v c)) in *.
  destruct (_ || _) eqn:E; [discriminate|]. apply orb_false_iff in E. destruct E as [E _]. intros H.
  assert (NZ : ~ (qsum p == 0)%Q) by (intros X; apply Qeq_bool_iff in X; congruence).
  assert (CP : (0 < c)%Q). { unfold c. apply Qmult_lt_0_compat; [|lra]. unfold Qdiv. apply Qmult_lt_0_compat; [exact IW|]. apply Qinv_lt_0_compat. lra. }
  assert (DP : forall x, In x d -> (l < x)%Q).
  { intros x I. apply In_nth_error in I. destruct I as (k & I). destruct (distribution_spec sq c v) as (_ & f & F & G). fold d in G. specialize (G k x I).
    assert (FP : (0 <= f)%Q). { destruct F as [[_ ->]|[_ ->]]; [lra|]. assert (S : (0 <= 5 * sq v * c)%Q). { apply Qmult_le_0_compat; [apply Qmult_le_0_compat; [lra|apply SQ]|lra]. } lra. }
    assert (KP : (0 <= inject_Z (Z.of_nat k))%Q) by (change 0%Q with (inject_Z 0); rewrite <- Zle_Qle; lia).
    pose proof (Qmult_le_0_compat _ _ KP FP). lra. }
  assert (Z : (filter_cirrus p (map (qlt l) d) cf == cf)%Q). { unfold filter_cirrus. rewrite seen_all; [field; exact NZ|apply (densities_length _ _ _ _ _ B)|exact DP]. }
  pose proof (drop_below_iff _ _ _ H) as [[_ X]|(_ & z & X & Y)]; [discriminate|]. injection X as <-. rewrite Y. exact Z.
Qed.
Lemma cirrus_ok : forall sq pdf fr se he px out, cirrus_filter sq pdf fr se he px = Ok out -> pointed (cirrus_value sq pdf) px out.
Proof.
  intros sq pdf fr se he px out. unfold cirrus_filter. destruct fr, se, he; cbn [negb]; try discriminate. destruct (no_ice _); [discriminate|]. intros H. injection H as <-.
  unfold pointed. induction px as [|r px IH]; cbn [map]; constructor; [|exact IH]. induction r as [|x r IHr]; cbn [map]; constructor; [apply cirrus_spec|exact IHr].
Qed.
Lemma cirrus_raise : forall sq pdf fr se he px e, cirrus_filter sq pdf fr se he px = Raise e <-> e = ValueError /\
  (fr = false \/ se = false \/ he = false \/ ((exists x, In x (List.concat px) /\ cloudy x) /\ forall x, In x (List.concat px) -> cloudy x -> ~ icy (px_cf x) (px_iwc x) (px_lwc x))).
Proof.
  intros sq pdf fr se he px e. rewrite <- no_ice_iff. unfold cirrus_filter.
  destruct fr, se, he; cbn [negb]; try (split; [intros H; injection H as <-; auto 6|intros [-> _]; reflexivity]).
  destruct (no_ice _); split; intros H; try (injection H as <-; auto 6); try discriminate; destruct H as [-> H]; [reflexivity|]. destruct H as [H|[H|[H|H]]]; discriminate.
Qed.

(** ** Wind shear *)
Lemma map2_at : forall A B C (f : A -> B -> C) x y k c, nth_error (map2 f x y) k = Some c <-> exists a b, nth_error x k = Some a /\ nth_error y k = Some b /\ c = f a b.
Proof.
  intros A B C f x. induction x as [|a x IH]; intros [|b y] [|k] c; cbn [map2 nth_error]; try (split; [discriminate|intros (p & q & H & K & _); discriminate]).
  - split; [intros H; injection H as <-; eauto|intros (p & q & H & K & ->); congruence].
  - apply IH.
Qed.
Lemma nth_row : forall A (x : image A) i j a, nth_error (nth i x []) j = Some a <-> at2 x i j a.
Proof.
  intros A x i j a. unfold at2. split.
  - intros H. destruct (nth_error x i) as [r|] eqn:E; [rewrite (nth_error_nth _ _ [] E) in H; eauto|]. apply nth_error_None in E. rewrite nth_overflow in H by exact E. destruct j; discriminate.
  - intros (r & E & H). rewrite (nth_error_nth _ _ [] E). exact H.
Qed.
Lemma gradient_row_at : forall w h b a j g, nth_error (gradient_row w h b a) j = Some g -> slope w h a b j g.
Proof.
  intros w h b a j g H. unfold gradient_row in H. apply map2_at in H. destruct H as (dy & dh & H & K & ->). apply map2_at in H, K.
  destruct H as (y & x & Y & X & ->). destruct K as (q & p & Q & P & ->). apply nth_row in Y, X, Q, P. exists x, y, p, q. repeat (split; [assumption|]).
  intros N. field. intros Z. apply N. lra.
Qed.
Lemma gradient_ok : forall w h out, gradient w h = Ok out -> 2 <= length w /\ length out = length w /\
  forall i j g, at2 out i j g -> exists a b, compared (length w) i a b /\ slope w h a b j g.
Proof.
  intros w h out. unfold gradient. destruct (length w <? 2) eqn:E; [discriminate|]. apply Nat.ltb_ge in E. intros H. injection H as <-. split; [exact E|].
  split; [rewrite map_length, seq_length; reflexivity|]. intros i j g (r & A & B). rewrite nth_error_map in A. destruct (nth_error (seq 0 (length w)) i) as [k|] eqn:K; [|discriminate]. injection A as <-.
  assert (L : i < length w) by (rewrite <- (seq_length (length w) 0); apply nth_error_Some; congruence). apply (nth_error_nth _ _ 0) in K. rewrite seq_nth in K by exact L. cbn [Nat.add] in K. subst k.
  destruct (i =? 0) eqn:Z; [apply Nat.eqb_eq in Z; exists 0, 1; split; [left; auto|apply gradient_row_at; exact B]|]. apply Nat.eqb_neq in Z.
  destruct (i =? length w - 1) eqn:Y; [apply Nat.eqb_eq in Y; exists (length w - 2), (length w - 1); split; [right; left; repeat split; auto; lia|apply gradient_row_at; exact B]|]. apply Nat.eqb_neq in Y.
  exists (i - 1), (i + 1). split; [right; right; repeat split; lia|apply gradient_row_at; exact B].
Qed.
Lemma shear_ok : forall sq wind u v h out, wind_shear sq wind u v h = Ok out -> length u = length wind -> length v = length wind ->
  2 <= length wind /\ forall i j s, at2 out i j s -> exists a b gw gu gv, compared (length wind) i a b /\ slope wind h a b j gw /\ slope u h a b j gu /\ slope v h a b j gv /\
    (((gw < 0)%Q /\ (s == - sq (gu * gu + gv * gv))%Q) \/ ((0 <= gw)%Q /\ s = sq (gu * gu + gv * gv)%Q)).
Proof.
  intros sq wind u v h out H LU LV. unfold wind_shear in H.
  destruct (gradient wind h) as [gw|e] eqn:GW; cbn [bind] in H; [|discriminate]. destruct (gradient u h) as [gu|e] eqn:GU; cbn [bind] in H; [|discriminate].
  destruct (gradient v h) as [gv|e] eqn:GV; cbn [bind] in H; [|discriminate]. injection H as <-.
  apply gradient_ok in GW, GU, GV. destruct GW as (L & _ & GW), GU as (_ & _ & GU), GV as (_ & _ & GV). rewrite LU in GU. rewrite LV in GV. split; [exact L|].
  intros i j s A. apply at2_pointwise in A. destruct A as (g & r & A & B & ->). apply at2_pointwise in B. destruct B as (x & y & X & Y & ->).
  apply GW in A. apply GU in X. apply GV in Y. destruct A as (a & b & C & A), X as (a' & b' & C' & X), Y as (a'' & b'' & C'' & Y).
  assert (U : forall n i a b a' b', compared n i a b -> compared n i a' b' -> a = a' /\ b = b') by (clear; unfold compared; intros; lia).
  destruct (U _ _ _ _ _ _ C C') as [-> ->]. destruct (U _ _ _ _ _ _ C' C'') as [-> ->].
  exists a'', b'', g, x, y. repeat (split; [assumption|]). destruct (qlt g 0) eqn:Z; [left; apply qlt_iff in Z; split; [exact Z|ring]|right; apply qlt_false in Z; auto].
Qed.
Lemma shear_raise : forall sq wind u v h e, length u = length wind -> length v = length wind -> (wind_shear sq wind u v h = Raise e <-> e = IndexError /\ length wind < 2).
Proof.
  intros sq wind u v h e LU LV. unfold wind_shear, gradient. rewrite LU, LV. destruct (length wind <? 2) eqn:E; cbn [bind].
  - apply Nat.ltb_lt in E. split; [intros H; injection H as <-; auto|intros [-> _]; reflexivity].
  - apply Nat.ltb_ge in E. split; [discriminate|]. intros [_ H]. lia.
Qed.

(** ** File of a day *)
Lemma process_iff : forall A B C content overwrite product present (ob : result A) (mo : result B) (ci : result C) (re : result unit) out,
  process_l3 content overwrite product present ob mo ci re = Ok out <->
  (content = false \/ overwrite = true) /\ (exists a, ob = Ok a) /\ (exists b, mo = Ok b) /\ (exists u, re = Ok u) /\
  ((product = "cf" /\ (exists c, ci = Ok c) /\ out = l3_names present product true) \/ (product = "cf" /\ ci = Raise ValueError /\ out = l3_names present product false) \/
   (product <> "cf" /\ out = l3_names present product false)).
Proof.
  intros A B C content overwrite product present ob mo ci re out. unfold process_l3.
  destruct (content && negb overwrite) eqn:E.
  - apply andb_true_iff in E. destruct E as [-> E]. destruct overwrite; [discriminate|]. split; [discriminate|intros [[H|H] _]; discriminate].
  - assert (X : content = false \/ overwrite = true) by (destruct content, overwrite; auto; discriminate).
    destruct ob as [a|ea]; cbn [bind]; [|split; [discriminate|intros (_ & (a & H) & _); discriminate]].
    destruct mo as [b|eb]; cbn [bind]; [|split; [discriminate|intros (_ & _ & (b & H) & _); discriminate]].
    destruct re as [u|er]; cbn [bind].
    + destruct (String.eqb product "cf") eqn:P.
      * apply String.eqb_eq in P. subst product. destruct ci as [c|ec]; cbn [bind].
        -- split; [intros H; injection H as <-; repeat (split; [eauto|]); left; eauto|]. intros (_ & _ & _ & _ & [(_ & _ & ->)|[(_ & H & _)|(H & _)]]); [reflexivity|discriminate|congruence].
        -- destruct ec; cbn [bind]; try (split; [discriminate|intros (_ & _ & _ & _ & [(_ & (c & H) & _)|[(_ & H & _)|(H & _)]]); congruence]).
           split; [intros H; injection H as <-; repeat (split; [eauto|]); right; left; auto|]. intros (_ & _ & _ & _ & [(_ & (c & H) & _)|[(_ & _ & ->)|(H & _)]]); [discriminate|reflexivity|congruence].
      * apply String.eqb_neq in P. cbn [bind]. split; [intros H; injection H as <-; repeat (split; [eauto|]); right; right; auto|]. intros (_ & _ & _ & _ & [(H & _)|[(H & _)|(_ & ->)]]); [congruence|congruence|reflexivity].
    + split; [|intros (_ & _ & _ & (u & H) & _); discriminate]. destruct (String.eqb product "cf"); [destruct ci as [c|[]]|]; discriminate.
Qed.
Lemma l3_in : forall present product c k, In k (l3_names present product c) <->
  (In k coordinates /\ In k present) \/ (k = "model_forecast_time" /\ In "forecast_time" present) \/ k = "model_height" \/ k = ("model_" ++ product)%string \/
  (product = "cf" /\ ((c = true /\ k = "model_cf_cirrus") \/ In k ["cf_V"; "cf_A"; "cf_V_adv"; "cf_A_adv"])) \/ (product <> "cf" /\ (k = product \/ k = (product ++ "_adv")%string)).
Proof.
  intros present product c k. unfold l3_names. rewrite !in_app_iff, filter_In, mem_str_iff. change ["time"; "level"; "latitude"; "longitude"; "horizontal_resolution"] with coordinates.
  assert (F : In k (if mem_str "forecast_time" present then ["model_forecast_time"] else []) <-> k = "model_forecast_time" /\ In "forecast_time" present).
  { destruct (mem_str "forecast_time" present) eqn:E; (split; [intros H|intros [-> H]]).
    - destruct H as [<-|[]]. split; [reflexivity|apply mem_str_iff; exact E].
    - left. reflexivity.
    - destruct H.
    - apply mem_str_iff in H. congruence. }
  assert (O : forall a, In k [a] <-> k = a) by (intros a; cbn; split; [intros [<-|[]]; reflexivity|intros ->; auto]).
  assert (P : In k (if String.eqb product "cf" then (if c then ["model_cf_cirrus"] else []) ++ ["cf_V"; "cf_A"; "cf_V_adv"; "cf_A_adv"] else [product; (product ++ "_adv")%string]) <->
    (product = "cf" /\ ((c = true /\ k = "model_cf_cirrus") \/ In k ["cf_V"; "cf_A"; "cf_V_adv"; "cf_A_adv"])) \/ (product <> "cf" /\ (k = product \/ k = (product ++ "_adv")%string))).
  { destruct (String.eqb product "cf") eqn:E.
    - apply String.eqb_eq in E. rewrite in_app_iff. assert (Q : In k (if c then ["model_cf_cirrus"] else []) <-> c = true /\ k = "model_cf_cirrus").
      { destruct c; (split; [intros H|intros [H ->]]); [destruct H as [<-|[]]; auto|left; reflexivity|destruct H|discriminate]. }
      rewrite Q. split; [intros H; left; auto|intros [[_ H]|[H _]]; [exact H|congruence]].
    - apply String.eqb_neq in E. split; [intros [<-|[<-|[]]]; right; auto|intros [[H _]|[_ [-> | ->]]]; [congruence|left; reflexivity|right; left; reflexivity]]. }
  rewrite F, P, !O. reflexivity.
Qed.
Lemma l3_unit : forall date present product c k, In product ["cf"; "iwc"; "lwc"] -> In k (l3_names present product c) -> exists u, l3_units date k = Some u /\ In (k, u) (units_table date).
Proof.
  intros date present product c k I K. apply l3_in in K.
  destruct K as [[K _]|[[-> _]|[-> |[-> |[[-> [[_ ->]|K]]|[N [-> | ->]]]]]]].
  - unfold coordinates in K. destruct K as [<-|[<-|[<-|[<-|[<-|[]]]]]]; eexists; (split; [reflexivity|cbn; auto 30]).
  - eexists; (split; [reflexivity|cbn; auto 30]).
  - eexists; (split; [reflexivity|cbn; auto 30]).
  - destruct I as [<-|[<-|[<-|[]]]]; eexists; (split; [reflexivity|cbn; auto 30]).
  - eexists; (split; [reflexivity|cbn; auto 30]).
  - destruct K as [<-|[<-|[<-|[<-|[]]]]]; eexists; (split; [reflexivity|cbn; auto 30]).
  - destruct I as [<-|[<-|[<-|[]]]]; [congruence| |]; eexists; (split; [reflexivity|cbn; auto 30]).
  - destruct I as [<-|[<-|[<-|[]]]]; [congruence| |]; eexists; (split; [reflexivity|cbn; auto 30]).
Qed.

(** ** Model files *)
Lemma count_profile : forall k row, (0 < k)%Q -> StronglySorted Qle row ->
  count_levels k (Profile row) <= length row /\ forall j x, nth_error row j = Some x -> (j < count_levels k (Profile row) <-> (x * k < 22000)%Q).
Proof.
  intros k row K S. cbn [count_levels]. induction S as [|a row S [IL IH] F]; [split; [apply le_n|intros [|j] x H; discriminate]|].
  cbn [filter]. destruct (qlt (a * k) altitude_limit) eqn:E; cbn [length].
  - split; [apply le_n_S; exact IL|]. apply qlt_iff in E. intros [|j] x H; cbn [nth_error] in H; [injection H as <-; split; [intros _; exact E|intros _; lia]|]. rewrite <- (IH j x H). lia.
  - apply qlt_false in E. unfold altitude_limit in E.
    assert (Z : filter (fun x => qlt (x * k) altitude_limit) row = []).
    { destruct (filter (fun x => qlt (x * k) altitude_limit) row) as [|y l] eqn:G; [reflexivity|]. assert (I : In y (filter (fun x => qlt (x * k) altitude_limit) row)) by (rewrite G; left; reflexivity).
      apply filter_In in I. destruct I as [I Q]. apply qlt_iff in Q. unfold altitude_limit in Q. rewrite Forall_forall in F. specialize (F y I).
      assert (X : (a * k <= y * k)%Q) by (apply Qmult_le_compat_r; [exact F|lra]). lra. }
    rewrite Z. cbn [length]. split; [lia|]. intros [|j] x H; cbn [nth_error] in H; [injection H as <-; split; [lia|intros X; lra]|].
    split; [lia|]. intros X. apply nth_error_In in H. rewrite Forall_forall in F. specialize (F x H). assert (Y : (a * k <= x * k)%Q) by (apply Qmult_le_compat_r; [exact F|lra]). lra.
Qed.
Lemma levels_ok : forall f n, number_of_levels f = Ok n <-> exists v k, mf_height f = Some v /\ hv_level v = true /\ unit_factor (hv_units v) k /\ n = count_levels k (hv_data v).
Proof.
  intros f n. unfold number_of_levels. destruct (mf_height f) as [v|]; [|split; [discriminate|intros (v & k & H & _); discriminate]].
  destruct (hv_level v) eqn:L; [|split; [discriminate|intros (w & k & H & A & _); congruence]].
  destruct (metres (hv_units v)) as [k|e] eqn:M; cbn [bind].
  - split; [intros H; injection H as <-; exists v, k; apply metres_ok in M; auto|]. intros (w & k' & H & _ & U & ->). injection H as <-. apply metres_ok in U. congruence.
  - split; [discriminate|]. intros (w & k' & H & _ & U & _). injection H as <-. apply metres_ok in U. congruence.
Qed.
Lemma levels_raise : forall f e, number_of_levels f = Raise e <-> (e = ModelDataError /\ (mf_height f = None \/ exists v, mf_height f = Some v /\ hv_level v = false)) \/
  (e = ValueError /\ exists v, mf_height f = Some v /\ hv_level v = true /\ forall k, ~ unit_factor (hv_units v) k).
Proof.
  intros f e. unfold number_of_levels. destruct (mf_height f) as [v|].
  - destruct (hv_level v) eqn:L.
    + destruct (metres (hv_units v)) as [k|x] eqn:M; cbn [bind].
      * split; [discriminate|]. intros [(_ & [H|(w & H & N)])|(_ & w & H & _ & N)]; [discriminate|congruence|]. injection H as <-. apply metres_ok in M. exfalso. exact (N k M).
      * apply metres_raise in M. destruct M as [-> N]. split; [intros H; injection H as <-; right; eauto|]. intros [(_ & [H|(w & H & A)])|(-> & _)]; [discriminate|congruence|reflexivity].
    + split; [intros H; injection H as <-; left; split; [reflexivity|right; eauto]|]. intros [(-> & _)|(_ & w & H & A & _)]; [reflexivity|congruence].
  - split; [intros H; injection H as <-; left; auto|]. intros [(-> & _)|(_ & w & H & _)]; [reflexivity|discriminate].
Qed.
Lemma product_ok : forall f n product, In product ["cf"; "iwc"; "lwc"] -> ((exists x, product_field f n product = Ok x) <-> forall k, In k (needs product) -> ~ lacks f k).
Proof.
  intros f n product I. destruct (product_raise f n product I) as [R _]. split.
  - intros (x & H) k K L. destruct (proj1 R (ex_intro _ k (conj K L))) as (e & E). congruence.
  - intros H. destruct (product_field f n product) as [x|e] eqn:E; [eauto|]. destruct (proj2 R (ex_intro _ e eq_refl)) as (k & K & L). exfalso. exact (H k K L).
Qed.
Lemma product_unknown : forall f n product, ~ In product ["cf"; "iwc"; "lwc"] -> product_field f n product = Raise KeyError.
Proof.
  intros f n product N. unfold product_field.
  destruct (String.eqb_spec product "cf") as [->|A]; [exfalso; apply N; cbn; auto|]. destruct (String.eqb_spec product "iwc") as [->|B]; [exfalso; apply N; cbn; auto|].
  destruct (String.eqb_spec product "lwc") as [->|C]; [exfalso; apply N; cbn; auto|reflexivity].
Qed.
Lemma wind_ok : forall sq f n w, wind_speed sq f n = Ok w <-> exists u v, variable f "uwind" u /\ variable f "vwind" v /\ w = pointwise (fun a b => sq (a * a + b * b)%Q) (cut n u) (cut n v).
Proof.
  intros sq f n w. unfold wind_speed. destruct (getvar f "uwind") as [u|e] eqn:U; cbn [bind].
  - apply getvar_ok in U. destruct (getvar f "vwind") as [v|e] eqn:V; cbn [bind].
    + apply getvar_ok in V. split; [intros H; injection H as <-; eauto|]. intros (u' & v' & U' & V' & ->). rewrite (variable_unique _ _ _ _ U' U), (variable_unique _ _ _ _ V' V). reflexivity.
    + apply getvar_raise in V. destruct V as [_ V]. split; [discriminate|]. intros (u' & v' & _ & V' & _). exfalso. exact (variable_lacks _ _ _ V' V).
  - apply getvar_raise in U. destruct U as [_ U]. split; [discriminate|]. intros (u' & v' & U' & _). exfalso. exact (variable_lacks _ _ _ U' U).
Qed.
Lemma wind_raise : forall sq f n e, wind_speed sq f n = Raise e -> e = KeyError /\ (lacks f "uwind" \/ lacks f "vwind").
Proof.
  intros sq f n e. unfold wind_speed. destruct (getvar f "uwind") as [u|x] eqn:U; cbn [bind].
  - destruct (getvar f "vwind") as [v|x] eqn:V; cbn [bind]; [discriminate|]. apply getvar_raise in V. destruct V as [-> V]. intros H. injection H as <-. auto.
  - apply getvar_raise in U. destruct U as [-> U]. intros H. injection H as <-. auto.
Qed.
Lemma manager_ok : forall sq f product m, model_manager sq f product = Ok m ->
  exists v, mf_height f = Some v /\ number_of_levels f = Ok (mm_levels m) /\ mm_height m = cut_heights (mm_levels m) (hv_data v) /\ product_field f (mm_levels m) product = Ok (mm_product m) /\
    wind_speed sq f (mm_levels m) = Ok (mm_wind m) /\ resolution f = Ok (mm_resolution m).
Proof.
  intros sq f product m. unfold model_manager. destruct (number_of_levels f) as [n|e] eqn:L; cbn [bind]; [|discriminate]. destruct (mf_height f) as [v|]; [|discriminate].
  destruct (product_field f n product) as [x|e] eqn:P; cbn [bind]; [|discriminate]. destruct (wind_speed sq f n) as [w|e] eqn:W; cbn [bind]; [|discriminate].
  destruct (resolution f) as [r|e] eqn:R; cbn [bind]; [|discriminate]. intros H. injection H as <-. exists v. cbn. auto 10.
Qed.
Lemma manager_ex : forall sq f product, (exists m, model_manager sq f product = Ok m) <->
  (exists n, number_of_levels f = Ok n) /\ (exists n x, product_field f n product = Ok x) /\ (exists n x, wind_speed sq f n = Ok x) /\ (exists r, resolution f = Ok r).
Proof.
  intros sq f product. split.
  - intros (m & H). apply manager_ok in H. destruct H as (v & A & B & C & D & E & F). repeat split; eauto.
  - intros ((n & N) & (n1 & x & X) & (n2 & w & W) & (r & R)). unfold model_manager. rewrite N. cbn [bind]. assert (E : exists v, mf_height f = Some v) by (apply levels_ok in N; destruct N as (v & k & V & _); eauto).
    destruct E as (v & ->). assert (P : exists y, product_field f n product = Ok y).
    { destruct (in_dec String.string_dec product ["cf"; "iwc"; "lwc"]) as [I|I]; [apply (product_ok f n product I), (product_ok f n1 product I); eauto|rewrite product_unknown in X by exact I; discriminate]. }
    destruct P as (y & ->). cbn [bind]. apply wind_ok in W. destruct W as (u & v' & U & V & _). assert (W : exists z, wind_speed sq f n = Ok z) by (eexists; apply wind_ok; eauto).
    destruct W as (z & ->). cbn [bind]. rewrite R. cbn [bind]. eauto.
Qed.
Lemma manager_raise : forall sq f product e, model_manager sq f product = Raise e ->
  number_of_levels f = Raise e \/ (exists n, product_field f n product = Raise e) \/ (exists n, wind_speed sq f n = Raise e) \/ resolution f = Raise e.
Proof.
  intros sq f product e. unfold model_manager. destruct (number_of_levels f) as [n|x] eqn:L; cbn [bind]; [|intros H; injection H as <-; auto].
  destruct (mf_height f) as [v|] eqn:HV; [|unfold number_of_levels in L; rewrite HV in L; discriminate].
  destruct (product_field f n product) as [x|x] eqn:P; cbn [bind]; [|intros H; injection H as <-; eauto]. destruct (wind_speed sq f n) as [w|x'] eqn:W; cbn [bind]; [|intros H; injection H as <-; eauto].
  destruct (resolution f) as [r|x'] eqn:R; cbn [bind]; [discriminate|]. intros H. injection H as <-. auto.
Qed.
