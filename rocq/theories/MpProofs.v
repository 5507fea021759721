(** Proofs about the records of MP radiometers: superblocks, titles, nearest values. *)
From Verif Require Import Base ArrayModel FillModel LayerModel GridModel OutputModel SiteModel TelegramModel
  RadiometricsModel TimeSpec SiteSpec TelegramSpec RadiometricsSpec
  ArrayProofs FillProofs GridProofs SiteProofs TelegramProofs RadiometricsProofs.
From Coq Require Import Qabs String Ascii Lqa.
Open Scope string_scope.
Open Scope nat_scope.
Open Scope list_scope.
Local Notation length := List.length (only parsing).

Lemma sequence_iff {A B} (f : A -> result B) l : forall out,
  sequence (map f l) = Ok out <-> Forall2 (fun x y => f x = Ok y) l out.
Proof.
  induction l as [|x l IH]; intros out; cbn [map sequence].
  - split; [intros H; assert (out = []) by congruence; subst out; constructor|]. intros H. inversion H. reflexivity.
  - split.
    + destruct (f x) as [y|e] eqn:E; [|discriminate]. destruct (sequence (map f l)) as [ys|e]; cbn [bind]; [|discriminate].
      intros H. assert (out = y :: ys) by congruence. subst out. constructor; [exact E|]. apply IH. reflexivity.
    + intros H. inversion H as [|? y ? ys E F]; subst. rewrite E. apply IH in F. rewrite F. reflexivity.
Qed.
Lemma forall2_iff {A B} (P Q : A -> B -> Prop) l : (forall x y, P x y <-> Q x y) -> forall out, Forall2 P l out <-> Forall2 Q l out.
Proof.
  intros H. induction l as [|x l IH]; intros out; split; intros F; inversion F as [|? y ? ys E R]; subst; constructor;
    try (apply H; exact E); apply IH; exact R.
Qed.
Lemma bind_ok {A B} (r : result A) (f : A -> result B) y : bind r f = Ok y <-> exists x, r = Ok x /\ f x = Ok y.
Proof. destruct r as [a|e]; cbn [bind]; split; [eauto|intros (x & E & H); congruence|discriminate|intros (x & E & _); discriminate]. Qed.

Section Proofs.
Variable to_int : string -> option Z.
Variable to_float : string -> option (masked Q).
Variable ranges : list string.
Local Notation titled := (titled to_int).
Local Notation title_of := (title_of to_int).
Local Notation no_title := (no_title to_int).
Local Notation contributes := (contributes to_int to_float ranges).
Local Notation all_items := (all_items to_int to_float ranges).
Local Notation processor_of := (processor_of to_int).
Local Notation count_300 := (count_300 to_int).
Local Notation profile_of := (profile_of to_float ranges).
Local Notation number_of := (number_of to_float).
Local Notation well_formed := (well_formed to_int).

Lemma value_iff r c v : value r c = Ok v <-> has r c v.
Proof. apply ok_or_ok. Qed.
Lemma has_fun r c v v' : has r c v -> has r c v' -> v = v'.
Proof. unfold has. congruence. Qed.
Lemma number_iff r c x : bind (value r c) (fun v => ok_or ValueError (to_float v)) = Ok x <-> number_of r c x.
Proof. rewrite bind_ok. unfold RadiometricsSpec.number_of. split; intros (v & A & B); exists v; [rewrite ok_or_ok in B; rewrite value_iff in A|rewrite ok_or_ok; rewrite value_iff]; auto. Qed.
Lemma parse_floats_iff r x : parse_floats to_float ranges r = Ok x <-> profile_of r x.
Proof.
  unfold parse_floats, RadiometricsSpec.profile_of. rewrite sequence_iff. apply forall2_iff. intros c y. rewrite bind_ok.
  split; intros (v & A & B); exists v.
  - apply value_iff in A. split; [exact A|]. destruct (isdigit (drop_dot v)) eqn:D.
    + left. apply plain_iff in D. apply ok_or_ok in B. auto.
    + right. split; [intros P; apply plain_iff in P; congruence|congruence].
  - apply value_iff in A. split; [exact A|]. destruct B as [[P B]|[P B]].
    + apply plain_iff in P. rewrite P. apply ok_or_ok. exact B.
    + destruct (isdigit (drop_dot v)) eqn:D; [apply plain_iff in D; contradiction|]. congruence.
Qed.
Lemma procs_iff block procs : get_procs block = Ok procs <-> processors block procs.
Proof. unfold get_procs, processors. rewrite sequence_iff. apply forall2_iff. intros x y. apply value_iff. Qed.
Lemma forall2_fun {A B} (R : A -> B -> Prop) l : (forall x y y', R x y -> R x y' -> y = y') ->
  forall a b, Forall2 R l a -> Forall2 R l b -> a = b.
Proof.
  intros H. induction l as [|x l IH]; intros a b F G; inversion F; inversion G; subst; [reflexivity|]. f_equal; [eapply H; eassumption|apply IH; assumption].
Qed.
Lemma zenith_iff p : mem_str p good_procs = true <-> zenith p.
Proof.
  unfold mem_str, good_procs, zenith. cbn [existsb]. rewrite !orb_true_iff, !String.eqb_eq. split.
  - intros [H|[H|[H|[H|H]]]]; [auto..|discriminate].
  - intros [H|[H|[H|H]]]; auto.
Qed.

(** ** Titles *)
Definition titles_ok (before : list record) (l : lists) : Prop :=
  forall k t, find_z k (l_titles l) = Some t <-> titled before (k + 1)%Z t.
Lemma titled_snoc before r k t : well_formed r ->
  titled (before ++ [r]) k t <->
  (k_type r = 100%Z /\ exists f, has r "Record Type" f /\ to_int f = Some k /\ has r "Title" t) \/
  (titled before k t /\ ~ (k_type r = 100%Z /\ exists f, has r "Record Type" f /\ to_int f = Some k)).
Proof.
  intros W. split.
  - intros (b1 & s & b2 & f & E & T & H1 & H2 & H3 & L). destruct b2 as [|x b2] using rev_ind.
    + apply app_inj_tail in E as [-> ->]. left. split; [exact T|]. exists f. auto.
    + clear IHb2. right. rewrite app_comm_cons, app_assoc in E. apply app_inj_tail in E as [-> ->]. split.
      * exists b1, s, b2, f. split; [reflexivity|]. repeat (split; [assumption|]). intros s' f' I. apply L. apply in_or_app. auto.
      * intros (T' & f' & A & B). apply (L x f'); [apply in_or_app; right; left; reflexivity|assumption..].
  - intros [(T & f & A & B & C)|[(b1 & s & b2 & f & -> & T & H1 & H2 & H3 & L) N]].
    + exists before, r, [], f. split; [reflexivity|]. repeat (split; [assumption|]). intros s' f' [].
    + exists b1, s, (b2 ++ [r]), f. split; [rewrite <- app_assoc; reflexivity|]. repeat (split; [assumption|]).
      intros s' f' I T' A B. apply in_app_or in I as [I|[<-|[]]]; [apply (L s' f' I T' A B)|]. apply N. split; [exact T'|]. exists f'. auto.
Qed.
Lemma new_title_ok before l r : titles_ok before l -> well_formed r ->
  exists l1, new_title to_int r l = Ok l1 /\ titles_ok (before ++ [r]) l1 /\
    exists new, l1 = l \/ (exists k t, l1 = add_title k t l /\ new = (k, t)).
Proof.
  intros H W. unfold new_title. destruct (k_type r =? 100)%Z eqn:T.
  - apply Z.eqb_eq in T. destruct W as [W1 W2]. destruct (W1 T) as (f & k & t & A & B & C).
    assert (A' := A). assert (C' := C). apply value_iff in A'. apply value_iff in C'. rewrite A'. cbn [bind]. rewrite B. cbn [ok_or bind].
    rewrite C'. cbn [bind]. eexists. split; [reflexivity|]. split; [|exists ((k - 1)%Z, t); right; eauto].
    intros k' t'. cbn [l_titles add_title find_z]. rewrite titled_snoc by (split; assumption). destruct (Z.eqb k' (k - 1)) eqn:K.
    + apply Z.eqb_eq in K. subst k'. split.
      * intros E. left. split; [exact T|]. exists f. replace (k - 1 + 1)%Z with k by lia. assert (t = t') by congruence. subst t'. auto.
      * intros [(_ & f' & A2 & B2 & C2)|[_ N]]; [f_equal; eapply has_fun; eassumption|]. exfalso. apply N. split; [exact T|]. exists f.
        replace (k - 1 + 1)%Z with k by lia. auto.
    + apply Z.eqb_neq in K. rewrite (H k' t'). split.
      * intros I. right. split; [exact I|]. intros (_ & f' & A2 & B2). pose proof (has_fun _ _ _ _ A A2). subst f'. assert (k = k' + 1)%Z by congruence. lia.
      * intros [(_ & f' & A2 & B2 & _)|[I _]]; [|exact I]. pose proof (has_fun _ _ _ _ A A2). subst f'. assert (k = k' + 1)%Z by congruence. lia.
  - apply Z.eqb_neq in T. exists l. split; [reflexivity|]. split; [|exists (0%Z, ""); auto].
    intros k t. rewrite titled_snoc by exact W. rewrite (H k t). split; [intros I; right; split; [exact I|]; intros [T' _]; contradiction|].
    intros [[T' _]|[I _]]; [contradiction|exact I].
Qed.
Lemma new_title_inv l r l1 : new_title to_int r l = Ok l1 -> k_type r = 100%Z ->
  exists f k t, has r "Record Type" f /\ to_int f = Some k /\ has r "Title" t.
Proof.
  unfold new_title. intros H T. rewrite T in H. cbn [Z.eqb] in H. change (100 =? 100)%Z with true in H. cbv iota in H.
  apply bind_ok in H as (f & A & H). apply bind_ok in H as (k & B & H). apply bind_ok in H as (t & C & H).
  apply value_iff in A. apply ok_or_ok in B. apply value_iff in C. exists f, k, t. auto.
Qed.
Lemma title_cases before l1 r : titles_ok (before ++ [r]) l1 ->
  (exists a t, find_z (k_type r + k_index r)%Z (l_titles l1) = Some (String a t) /\ title_of before r (String a t)) \/
  (match find_z (k_type r + k_index r)%Z (l_titles l1) with Some (String _ _) => False | _ => True end /\ no_title before r).
Proof.
  intros H. destruct (find_z (k_type r + k_index r)%Z (l_titles l1)) as [[|a t]|] eqn:E.
  - right. split; [exact I|]. intros t [T N]. apply H in E. assert (X : find_z (k_type r + k_index r)%Z (l_titles l1) = Some t) by (apply H; exact T).
    apply H in E. congruence.
  - left. exists a, t. split; [reflexivity|]. split; [apply H; exact E|discriminate].
  - right. split; [exact I|]. intros t [T N]. apply H in T. congruence.
Qed.
Lemma title_fun before l1 r t t' : titles_ok (before ++ [r]) l1 -> title_of before r t -> title_of before r t' -> t = t'.
Proof. intros H [A _] [B _]. apply H in A. apply H in B. congruence. Qed.

(** ** Lists and items *)
Definition lists_are (l : lists) (items : list item) : Prop :=
  l_times l = map fst (integrals items) /\ l_lwps l = map (fun p => fst (snd p)) (integrals items) /\
  l_iwvs l = map (fun p => snd (snd p)) (integrals items) /\
  l_irt_times l = map fst (infrareds items) /\ l_irts l = map snd (infrareds items) /\
  l_temp_times l = map fst (temperatures items) /\ l_temps l = map snd (temperatures items) /\
  l_rh_times l = map fst (rel_humidities items) /\ l_rhs l = map snd (rel_humidities items) /\
  l_ah_times l = map fst (abs_humidities items) /\ l_ahs l = map snd (abs_humidities items).
Ltac lists_tac H := destruct H as (E1 & E2 & E3 & E4 & E5 & E6 & E7 & E8 & E9 & E10 & E11);
  unfold lists_are, integrals, infrareds, temperatures, rel_humidities, abs_humidities in *;
  rewrite !flat_map_app, !map_app; cbn [flat_map app map fst snd];
  cbn [l_times l_lwps l_iwvs l_irts l_irt_times l_temps l_temp_times l_rhs l_rh_times l_ahs l_ah_times
       add_integrals add_irt add_temp add_rh add_ah add_title];
  rewrite ?app_nil_r, E1, E2, E3, E4, E5, E6, E7, E8, E9, E10, E11; repeat split; reflexivity.
Lemma lists_title l items k t : lists_are l items -> lists_are (add_title k t l) items.
Proof. intros H. exact H. Qed.
Lemma lists_integrals l items t a b : lists_are l items -> lists_are (add_integrals t a b l) (items ++ [Integrals t a b]).
Proof. intros H. lists_tac H. Qed.
Lemma lists_irt l items t a : lists_are l items -> lists_are (add_irt t a l) (items ++ [Infrared t a]).
Proof. intros H. lists_tac H. Qed.
Lemma lists_temp l items t a : lists_are l items -> lists_are (add_temp t a l) (items ++ [Temperature t a]).
Proof. intros H. lists_tac H. Qed.
Lemma lists_rh l items t a : lists_are l items -> lists_are (add_rh t a l) (items ++ [RelHumidity t a]).
Proof. intros H. lists_tac H. Qed.
Lemma lists_ah l items t a : lists_are l items -> lists_are (add_ah t a l) (items ++ [AbsHumidity t a]).
Proof. intros H. lists_tac H. Qed.
Lemma lists_nil : lists_are no_lists [].
Proof. repeat split. Qed.

(** ** One record *)
Definition proc_is (procs : list string) (n : nat) (p : option string) : Prop :=
  match procs with [] => p = None | _ => exists q, p = Some q /\ nth_error procs n = Some q end.
Definition counts (before : list record) (r : record) : Prop := k_type r = 300%Z /\ no_title before r.

Lemma record_fwd before r after procs l n l' n' items :
  titles_ok before l -> lists_are l items ->
  (k_type r = 400%Z -> k_index r = 1%Z -> exists p, has r "LV2 Processor" p) ->
  (k_type r = 300%Z -> no_title before r -> forall p, proc_is procs n p -> processor_of before r after p) ->
  process_record to_int to_float ranges procs (l, n) r = Ok (l', n') ->
  exists its, contributes before r after its /\ lists_are l' (items ++ its) /\ titles_ok (before ++ [r]) l' /\
    (procs <> [] -> counts before r /\ n' = Datatypes.S n \/ ~ counts before r /\ n' = n).
Proof.
  intros Ht Hl Wp Hp H. unfold process_record in H. apply bind_ok in H as (l1 & E1 & H).
  assert (W : well_formed r).
  { split; [|exact Wp]. intros T. eapply new_title_inv; eassumption. }
  destruct (new_title_ok before l r Ht W) as (l1' & E1' & Ht1 & new & Hn). assert (l1' = l1) by congruence. subst l1'. clear E1'.
  assert (Hl1 : lists_are l1 items) by (destruct Hn as [->|(k & t & -> & _)]; exact Hl). clear Hn.
  destruct (title_cases before l1 r Ht1) as [(a & t & F & Ti)|[F Nt]].
  - rewrite F in H. apply bind_ok in H as (l2 & E2 & H). assert (l2 = l' /\ n = n') as [-> <-] by (split; congruence). clear H.
    assert (Nc : ~ counts before r) by (intros [_ N]; eapply N; exact Ti).
    unfold titled_record in E2. apply bind_ok in E2 as (proc & Ep & E2). apply value_iff in Ep.
    destruct (mem_str proc good_procs) eqn:G; cbn [negb] in E2.
    2:{ assert (l1 = l') by congruence. subst l1. exists []. rewrite app_nil_r. split; [|split; [exact Hl1|split; [exact Ht1|auto]]].
        split; [exact W|]. left. exists (String a t), proc. split; [exact Ti|]. split; [exact Ep|]. left. split; [|reflexivity].
        intros Z. apply zenith_iff in Z. congruence. }
    apply zenith_iff in G.
    destruct (String.eqb (String a t) "Temperature (K)") eqn:Q1; [|destruct (String.eqb (String a t) "Relative Humidity (%)") eqn:Q2; [|destruct (String.eqb (String a t) "Vapor Density (g/m^3)") eqn:Q3]].
    + apply bind_ok in E2 as (x & Ex & E2). apply parse_floats_iff in Ex. assert (l' = add_temp (k_time r) x l1) by congruence. subst l'.
      apply String.eqb_eq in Q1. exists [Temperature (k_time r) x]. split; [|split; [apply lists_temp; exact Hl1|split; [exact Ht1|auto]]].
      split; [exact W|]. left. exists (String a t), proc. split; [exact Ti|]. split; [exact Ep|]. right. split; [exact G|]. left. split; [exact Q1|]. exists x. auto.
    + apply bind_ok in E2 as (x & Ex & E2). apply parse_floats_iff in Ex. assert (l' = add_rh (k_time r) x l1) by congruence. subst l'.
      apply String.eqb_eq in Q2. exists [RelHumidity (k_time r) x]. split; [|split; [apply lists_rh; exact Hl1|split; [exact Ht1|auto]]].
      split; [exact W|]. left. exists (String a t), proc. split; [exact Ti|]. split; [exact Ep|]. right. split; [exact G|]. right. left. split; [exact Q2|]. exists x. auto.
    + apply bind_ok in E2 as (x & Ex & E2). apply parse_floats_iff in Ex. assert (l' = add_ah (k_time r) x l1) by congruence. subst l'.
      apply String.eqb_eq in Q3. exists [AbsHumidity (k_time r) x]. split; [|split; [apply lists_ah; exact Hl1|split; [exact Ht1|auto]]].
      split; [exact W|]. left. exists (String a t), proc. split; [exact Ti|]. split; [exact Ep|]. right. split; [exact G|]. right. right. left. split; [exact Q3|]. exists x. auto.
    + apply String.eqb_neq in Q1. apply String.eqb_neq in Q2. apply String.eqb_neq in Q3. assert (l1 = l') by congruence. subst l1.
      exists []. rewrite app_nil_r. split; [|split; [exact Hl1|split; [exact Ht1|auto]]].
      split; [exact W|]. left. exists (String a t), proc. split; [exact Ti|]. split; [exact Ep|]. right. split; [exact G|]. right. right. right. auto.
  - assert (H' : (if (k_type r =? 10)%Z then bind (record_10 to_float ranges r l1) (fun l => Ok (l, n))
      else if (k_type r =? 200)%Z then bind (bind (number to_float r "Tir(K)") (fun x => Ok (add_irt (k_time r) x l1))) (fun l => Ok (l, n))
      else if (k_type r =? 300)%Z then record_300 to_float procs r l1 n else Ok (l1, n)) = Ok (l', n')).
    { destruct (find_z (k_type r + k_index r)%Z (l_titles l1)) as [[|a t]|]; [exact H|contradiction|exact H]. }
    clear H F. destruct (k_type r =? 10)%Z eqn:T10; [apply Z.eqb_eq in T10|apply Z.eqb_neq in T10; destruct (k_type r =? 200)%Z eqn:T200; [apply Z.eqb_eq in T200|apply Z.eqb_neq in T200; destruct (k_type r =? 300)%Z eqn:T300; [apply Z.eqb_eq in T300|apply Z.eqb_neq in T300]]].
    + apply bind_ok in H' as (l2 & E2 & H). assert (l2 = l' /\ n = n') as [-> <-] by (split; congruence). clear H.
      assert (Nc : ~ counts before r) by (intros [T _]; lia).
      unfold record_10 in E2. destruct (k_index r =? 0)%Z eqn:I0; [apply Z.eqb_eq in I0|apply Z.eqb_neq in I0; destruct (k_index r =? 1)%Z eqn:I1; [apply Z.eqb_eq in I1|apply Z.eqb_neq in I1; destruct (k_index r =? 2)%Z eqn:I2; [apply Z.eqb_eq in I2|apply Z.eqb_neq in I2]]].
      * apply bind_ok in E2 as (v1 & V1 & E2). apply bind_ok in E2 as (v2 & V2 & E2). apply bind_ok in E2 as (v3 & V3 & E2).
        apply bind_ok in E2 as (x1 & X1 & E2). apply bind_ok in E2 as (x2 & X2 & E2). apply bind_ok in E2 as (x3 & X3 & E2).
        apply bind_ok in E2 as (x & Ex & E2). apply parse_floats_iff in Ex. apply value_iff in V1. apply value_iff in V2. apply value_iff in V3.
        apply ok_or_ok in X1. apply ok_or_ok in X2. apply ok_or_ok in X3.
        assert (l' = add_temp (k_time r) x (add_irt (k_time r) x3 (add_integrals (k_time r) x1 x2 l1))) by congruence. subst l'.
        exists [Integrals (k_time r) x1 x2; Infrared (k_time r) x3; Temperature (k_time r) x].
        split; [|split; [|split; [exact Ht1|auto]]].
        -- split; [exact W|]. right. split; [exact Nt|]. left. split; [exact T10|]. split; [exact I0|]. exists x1, x2, x3, x.
           split; [exists v1; auto|]. split; [exists v2; auto|]. split; [exists v3; auto|]. split; [exact Ex|reflexivity].
        -- replace (items ++ _) with (((items ++ [Integrals (k_time r) x1 x2]) ++ [Infrared (k_time r) x3]) ++ [Temperature (k_time r) x])
             by (rewrite <- !app_assoc; reflexivity).
           apply lists_temp, lists_irt, lists_integrals. exact Hl1.
      * apply bind_ok in E2 as (x & Ex & E2). apply parse_floats_iff in Ex. assert (l' = add_ah (k_time r) x l1) by congruence. subst l'.
        exists [AbsHumidity (k_time r) x]. split; [|split; [apply lists_ah; exact Hl1|split; [exact Ht1|auto]]].
        split; [exact W|]. right. split; [exact Nt|]. right. left. split; [exact T10|]. split; [exact I1|]. exists x. auto.
      * apply bind_ok in E2 as (x & Ex & E2). apply parse_floats_iff in Ex. assert (l' = add_rh (k_time r) x l1) by congruence. subst l'.
        exists [RelHumidity (k_time r) x]. split; [|split; [apply lists_rh; exact Hl1|split; [exact Ht1|auto]]].
        split; [exact W|]. right. split; [exact Nt|]. right. right. left. split; [exact T10|]. split; [exact I2|]. exists x. auto.
      * assert (l1 = l') by congruence. subst l1. exists []. rewrite app_nil_r. split; [|split; [exact Hl1|split; [exact Ht1|auto]]].
        split; [exact W|]. right. split; [exact Nt|]. right. right. right. left. split; [exact T10|]. split; [lia|reflexivity].
    + apply bind_ok in H' as (l2 & E2 & H). assert (l2 = l' /\ n = n') as [-> <-] by (split; congruence). clear H.
      assert (Nc : ~ counts before r) by (intros [T _]; lia).
      apply bind_ok in E2 as (x & Ex & E2). apply number_iff in Ex. assert (l' = add_irt (k_time r) x l1) by congruence. subst l'.
      exists [Infrared (k_time r) x]. split; [|split; [apply lists_irt; exact Hl1|split; [exact Ht1|auto]]].
      split; [exact W|]. right. split; [exact Nt|]. right. right. right. right. left. split; [exact T200|]. exists x. auto.
    + assert (C : counts before r) by (split; assumption). specialize (Hp T300 Nt).
      assert (Read : forall l2, bind (value r "Int. Liquid(mm)") (fun lwp => bind (value r "Int. Vapor(cm)") (fun iwv =>
          bind (ok_or ValueError (to_float lwp)) (fun lwp => bind (ok_or ValueError (to_float iwv)) (fun iwv =>
          Ok (add_integrals (k_time r) lwp iwv l1))))) = Ok l2 ->
          exists a b, number_of r "Int. Liquid(mm)" a /\ number_of r "Int. Vapor(cm)" b /\ l2 = add_integrals (k_time r) a b l1).
      { intros l2 E. apply bind_ok in E as (v1 & V1 & E). apply bind_ok in E as (v2 & V2 & E).
        apply bind_ok in E as (x1 & X1 & E). apply bind_ok in E as (x2 & X2 & E). apply value_iff in V1. apply value_iff in V2.
        apply ok_or_ok in X1. apply ok_or_ok in X2. exists x1, x2. split; [exists v1; auto|]. split; [exists v2; auto|]. congruence. }
      unfold record_300 in H'. destruct procs as [|p0 procs'].
      * apply bind_ok in H' as (l2 & E2 & H). assert (l2 = l' /\ n = n') as [-> <-] by (split; congruence). clear H.
        destruct (Read _ E2) as (x & y & X & Y & ->). exists [Integrals (k_time r) x y].
        split; [|split; [apply lists_integrals; exact Hl1|split; [exact Ht1|congruence]]].
        split; [exact W|]. right. split; [exact Nt|]. right. right. right. right. right. left. split; [exact T300|].
        exists None. split; [apply Hp; reflexivity|]. right. split; [auto|]. exists x, y. auto.
      * apply bind_ok in H' as (q & Q & H). apply ok_or_ok in Q.
        assert (Pq : processor_of before r after (Some q)) by (apply Hp; exists q; auto).
        destruct (mem_str q good_procs) eqn:G.
        -- apply zenith_iff in G. apply bind_ok in H as (l2 & E2 & H). assert (l2 = l' /\ n' = Datatypes.S n) as [-> ->] by (split; congruence). clear H.
           destruct (Read _ E2) as (x & y & X & Y & ->). exists [Integrals (k_time r) x y].
           split; [|split; [apply lists_integrals; exact Hl1|split; [exact Ht1|auto]]].
           split; [exact W|]. right. split; [exact Nt|]. right. right. right. right. right. left. split; [exact T300|].
           exists (Some q). split; [exact Pq|]. right. split; [right; exists q; auto|]. exists x, y. auto.
        -- assert (l1 = l' /\ n' = Datatypes.S n) as [-> ->] by (split; congruence). exists []. rewrite app_nil_r.
           split; [|split; [exact Hl1|split; [exact Ht1|auto]]].
           split; [exact W|]. right. split; [exact Nt|]. right. right. right. right. right. left. split; [exact T300|].
           exists (Some q). split; [exact Pq|]. left. split; [|reflexivity]. exists q. split; [reflexivity|]. intros Z. apply zenith_iff in Z. congruence.
    + assert (l1 = l' /\ n = n') as [-> <-] by (split; congruence). exists []. rewrite app_nil_r.
      split; [|split; [exact Hl1|split; [exact Ht1|]]].
      * split; [exact W|]. right. split; [exact Nt|]. right. right. right. right. right. right. auto.
      * intros _. right. split; [intros [T _]; lia|reflexivity].
Qed.

Lemma record_bwd before r after procs l n its :
  titles_ok before l ->
  (k_type r = 300%Z -> no_title before r -> forall p, processor_of before r after p -> proc_is procs n p) ->
  contributes before r after its -> exists l' n', process_record to_int to_float ranges procs (l, n) r = Ok (l', n').
Proof.
  intros Ht Hp (W & C). unfold process_record.
  destruct (new_title_ok before l r Ht W) as (l1 & -> & Ht1 & _). cbn [bind].
  destruct C as [(title & proc & Ti & Ep & C)|(Nt & C)].
  - destruct (title_cases before l1 r Ht1) as [(a & t & F & Ti')|[_ Nt]]; [|exfalso; eapply Nt; exact Ti].
    rewrite F. assert (Et := title_fun _ _ _ _ _ Ht1 Ti Ti'). rewrite <- Et. clear Et Ti' F a t.
    unfold titled_record. apply value_iff in Ep. rewrite Ep. cbn [bind].
    destruct C as [[Z ->]|[Z C]].
    + destruct (mem_str proc good_procs) eqn:G; [apply zenith_iff in G; contradiction|]. cbn. eauto.
    + apply zenith_iff in Z. rewrite Z. cbn [negb]. destruct C as [(-> & x & X & ->)|[(-> & x & X & ->)|[(-> & x & X & ->)|(N1 & N2 & N3 & ->)]]].
      * cbn [String.eqb]. change (String.eqb "Temperature (K)" "Temperature (K)") with true. cbv iota. apply parse_floats_iff in X. rewrite X. cbn. eauto.
      * change (String.eqb "Relative Humidity (%)" "Temperature (K)") with false. change (String.eqb "Relative Humidity (%)" "Relative Humidity (%)") with true.
        cbv iota. apply parse_floats_iff in X. rewrite X. cbn. eauto.
      * change (String.eqb "Vapor Density (g/m^3)" "Temperature (K)") with false. change (String.eqb "Vapor Density (g/m^3)" "Relative Humidity (%)") with false.
        change (String.eqb "Vapor Density (g/m^3)" "Vapor Density (g/m^3)") with true. cbv iota. apply parse_floats_iff in X. rewrite X. cbn. eauto.
      * apply String.eqb_neq in N1. apply String.eqb_neq in N2. apply String.eqb_neq in N3. rewrite N1, N2, N3. cbn. eauto.
  - destruct (title_cases before l1 r Ht1) as [(a & t & _ & Ti)|[F _]]; [exfalso; eapply Nt; exact Ti|].
    assert (G : exists l' n', (if (k_type r =? 10)%Z then bind (record_10 to_float ranges r l1) (fun l => Ok (l, n))
      else if (k_type r =? 200)%Z then bind (bind (number to_float r "Tir(K)") (fun x => Ok (add_irt (k_time r) x l1))) (fun l => Ok (l, n))
      else if (k_type r =? 300)%Z then record_300 to_float procs r l1 n else Ok (l1, n)) = Ok (l', n')).
    2:{ destruct (find_z (k_type r + k_index r)%Z (l_titles l1)) as [[|a t]|]; [exact G|contradiction|exact G]. }
    clear F. unfold record_10.
    destruct C as [(T & I0 & x1 & x2 & x3 & x & (v1 & V1 & X1) & (v2 & V2 & X2) & (v3 & V3 & X3) & X & ->)|[(T & I1 & x & X & ->)|[(T & I2 & x & X & ->)|[(T & Io & ->)|[(T & x & X & ->)|[(T & p & P & C)|(N1 & N2 & N3 & ->)]]]]]].
    + rewrite T, I0. change (10 =? 10)%Z with true. change (0 =? 0)%Z with true. cbv iota.
      apply value_iff in V1. apply value_iff in V2. apply value_iff in V3. rewrite V1, V2, V3. cbn [bind]. rewrite X1, X2, X3. cbn [ok_or bind].
      apply parse_floats_iff in X. rewrite X. cbn [bind]. eauto.
    + rewrite T, I1. change (10 =? 10)%Z with true. change (1 =? 0)%Z with false. change (1 =? 1)%Z with true. cbv iota.
      apply parse_floats_iff in X. rewrite X. cbn [bind]. eauto.
    + rewrite T, I2. change (10 =? 10)%Z with true. change (2 =? 0)%Z with false. change (2 =? 1)%Z with false. change (2 =? 2)%Z with true. cbv iota.
      apply parse_floats_iff in X. rewrite X. cbn [bind]. eauto.
    + rewrite T. change (10 =? 10)%Z with true. cbv iota.
      assert (Q : (k_index r =? 0)%Z = false /\ (k_index r =? 1)%Z = false /\ (k_index r =? 2)%Z = false) by (rewrite !Z.eqb_neq; lia).
      destruct Q as (-> & -> & ->). cbn [bind]. eauto.
    + rewrite T. change (200 =? 10)%Z with false. change (200 =? 200)%Z with true. cbv iota. apply number_iff in X. unfold number. rewrite X. cbn [bind]. eauto.
    + specialize (Hp T Nt p P). rewrite T. change (300 =? 10)%Z with false. change (300 =? 200)%Z with false. change (300 =? 300)%Z with true. cbv iota.
      assert (Read : (exists lwp iwv, number_of r "Int. Liquid(mm)" lwp /\ number_of r "Int. Vapor(cm)" iwv /\ its = [Integrals (k_time r) lwp iwv]) ->
        exists l2, bind (value r "Int. Liquid(mm)") (fun lwp => bind (value r "Int. Vapor(cm)") (fun iwv =>
          bind (ok_or ValueError (to_float lwp)) (fun lwp => bind (ok_or ValueError (to_float iwv)) (fun iwv =>
          Ok (add_integrals (k_time r) lwp iwv l1))))) = Ok l2).
      { intros (x1 & x2 & (v1 & V1 & X1) & (v2 & V2 & X2) & _). apply value_iff in V1. apply value_iff in V2. rewrite V1, V2. cbn [bind].
        rewrite X1, X2. cbn [ok_or bind]. eauto. }
      unfold record_300. destruct procs as [|p0 procs'].
      * cbn [proc_is] in Hp. subst p. destruct C as [[(q & Q & _) _]|[_ C]]; [discriminate|]. destruct (Read C) as [l2 ->]. cbn [bind]. eauto.
      * destruct Hp as (q & -> & Q). rewrite Q. cbn [ok_or bind]. destruct C as [[(q' & E & Z) _]|[[E|(q' & E & Z)] C]].
        -- assert (q' = q) by congruence. subst q'. destruct (mem_str q good_procs) eqn:G; [apply zenith_iff in G; contradiction|]. eauto.
        -- discriminate.
        -- assert (q' = q) by congruence. subst q'. apply zenith_iff in Z. rewrite Z. destruct (Read C) as [l2 ->]. cbn [bind]. eauto.
    + apply Z.eqb_neq in N1. apply Z.eqb_neq in N2. apply Z.eqb_neq in N3. rewrite N1, N2, N3. eauto.
Qed.

(** ** Superblocks *)
Definition no_200 (l : list record) : Prop := Forall (fun r => k_type r <> 200%Z) l.
Definition good_block (first block : list record) : Prop :=
  (block = [] -> first = []) /\ no_200 (tl block) /\ (first = [] \/ exists r rest, block = r :: rest /\ k_type r = 200%Z).
Definition ends_here (rest : list record) : Prop := rest = [] \/ exists r rest', rest = r :: rest' /\ k_type r = 200%Z.

Lemma no_200_existsb l : no_200 l -> existsb (fun s => (k_type s =? 200)%Z) l = false.
Proof. induction 1 as [|r l N _ IH]; [reflexivity|]. cbn. apply Z.eqb_neq in N. rewrite N, IH. reflexivity. Qed.
Lemma since_self l : no_200 (tl l) -> since_200 l = l.
Proof. destruct l as [|r l]; [reflexivity|]. intros H. cbn [tl] in H. cbn [since_200]. rewrite no_200_existsb by exact H. reflexivity. Qed.
Lemma since_app first r l : k_type r = 200%Z -> no_200 l -> since_200 (first ++ r :: l) = r :: l.
Proof.
  intros T N. induction first as [|x first IH]; [apply since_self; exact N|]. cbn [app since_200].
  assert (E : existsb (fun s => (k_type s =? 200)%Z) (first ++ r :: l) = true).
  { apply existsb_exists. exists r. split; [apply in_or_app; right; left; reflexivity|]. apply Z.eqb_eq. exact T. }
  rewrite E. exact IH.
Qed.
Lemma block_before_eq first done r todo : good_block first (done ++ r :: todo) -> block_before (first ++ done) r = done.
Proof.
  intros (_ & N & H). unfold block_before. destruct done as [|x done].
  - rewrite app_nil_r. destruct (k_type r =? 200)%Z eqn:T; [reflexivity|]. destruct H as [->|(r' & rest & E & T')]; [reflexivity|].
    cbn [app] in E. apply Z.eqb_neq in T. congruence.
  - cbn [app tl] in N. apply Forall_app in N as [N1 N2]. inversion N2 as [|? ? Nr _]; subst. apply Z.eqb_neq in Nr. rewrite Nr.
    destruct H as [->|(r' & rest & E & T)].
    + cbn [app]. apply since_self. exact N1.
    + cbn [app] in E. assert (r' = x) by congruence. subst r'. apply since_app; assumption.
Qed.
Lemma until_eq todo rest : no_200 todo -> ends_here rest -> until_200 (todo ++ rest) = todo.
Proof.
  intros N E. induction N as [|r todo Nr _ IH]; cbn [app until_200].
  - destruct E as [->|(r & rest' & -> & T)]; [reflexivity|]. cbn [until_200]. apply Z.eqb_eq in T. rewrite T. reflexivity.
  - apply Z.eqb_neq in Nr. rewrite Nr, IH. reflexivity.
Qed.
Lemma good_tail first done r todo : good_block first (done ++ r :: todo) -> no_200 todo.
Proof.
  intros (_ & N & _). destruct done as [|x done]; cbn [app tl] in N; [exact N|]. apply Forall_app in N as [_ N]. inversion N; assumption.
Qed.

Lemma counts_dec before r l : titles_ok (before ++ [r]) l -> counts before r \/ ~ counts before r.
Proof.
  intros H. destruct (Z.eq_dec (k_type r) 300) as [T|T]; [|right; intros [T' _]; contradiction].
  destruct (title_cases before l r H) as [(a & t & _ & Ti)|[_ N]]; [right; intros [_ N]; eapply N; exact Ti|left; split; assumption].
Qed.
Lemma count_snoc first done n r : count_300 first done n ->
  (counts (first ++ done) r -> count_300 first (done ++ [r]) (Datatypes.S n)) /\
  (~ counts (first ++ done) r -> count_300 first (done ++ [r]) n).
Proof.
  induction 1 as [b|b s block n T N _ IH|b s block n T _ IH].
  - rewrite app_nil_r. split.
    + intros [T N]. cbn [app]. apply count_one; [exact T|exact N|constructor].
    + intros N. cbn [app]. apply count_skip; [|constructor]. destruct (Z.eq_dec (k_type r) 300) as [T|T]; [|auto].
      right. intros Nt. apply N. split; assumption.
  - replace (b ++ s :: block) with ((b ++ [s]) ++ block) by (rewrite <- app_assoc; reflexivity). destruct IH as [I1 I2]. cbn [app].
    split; intros H; apply count_one; auto.
  - replace (b ++ s :: block) with ((b ++ [s]) ++ block) by (rewrite <- app_assoc; reflexivity). destruct IH as [I1 I2]. cbn [app].
    split; intros H; apply count_skip; auto.
Qed.
Lemma count_fun first block n : count_300 first block n -> forall n', count_300 first block n' -> n = n'.
Proof.
  induction 1 as [b|b s block n T N _ IH|b s block n T _ IH]; intros n' H; inversion H; subst.
  - reflexivity.
  - f_equal. apply IH. assumption.
  - exfalso. match goal with X : _ \/ _ |- _ => destruct X; contradiction end.
  - exfalso. destruct T; contradiction.
  - apply IH. assumption.
Qed.
Lemma processors_fun block p q : processors block p -> processors block q -> p = q.
Proof. unfold processors. apply forall2_fun. intros x y y'. apply has_fun. Qed.

(** Contributions of a part of the records. *)
Inductive part : list record -> list record -> list record -> list item -> Prop :=
| part_none before rest : part before [] rest []
| part_one before r todo rest its more : contributes before r (todo ++ rest) its ->
    part (before ++ [r]) todo rest more -> part before (r :: todo) rest (its ++ more).
Lemma part_all before todo rest its more : part before todo rest its -> all_items (before ++ todo) rest more ->
  all_items before (todo ++ rest) (its ++ more).
Proof.
  induction 1 as [b rest|b r todo rest its its' C _ IH]; intros H.
  - rewrite app_nil_r in H. exact H.
  - cbn [app]. rewrite <- app_assoc. constructor; [exact C|]. apply IH. rewrite <- app_assoc. exact H.
Qed.
Lemma all_part todo : forall before rest items, all_items before (todo ++ rest) items ->
  exists its more, items = its ++ more /\ part before todo rest its /\ all_items (before ++ todo) rest more.
Proof.
  induction todo as [|r todo IH]; intros before rest items H; cbn [app] in H.
  - exists [], items. split; [reflexivity|]. split; [constructor|]. rewrite app_nil_r. exact H.
  - inversion H as [|? ? ? its more C H']; subst. destruct (IH _ _ _ H') as (i1 & i2 & -> & P & A).
    exists (its ++ i1), i2. rewrite <- !app_assoc in *. split; [reflexivity|]. split; [constructor; assumption|exact A].
Qed.

Lemma block_fwd procs first rest : ends_here rest -> forall todo done l n items l' n',
  good_block first (done ++ todo) -> processors (done ++ todo) procs ->
  titles_ok (first ++ done) l -> lists_are l items ->
  (exists c, count_300 first done c /\ (procs <> [] -> c = n)) ->
  fold_result (process_record to_int to_float ranges procs) todo (l, n) = Ok (l', n') ->
  exists its, part (first ++ done) todo rest its /\ lists_are l' (items ++ its) /\ titles_ok (first ++ done ++ todo) l'.
Proof.
  intros Er. induction todo as [|r todo IH]; intros done l n items l' n' G Hp Ht Hl (c & Hc & Ec) H; cbn [fold_result] in H.
  - assert (l = l') by congruence. subst l'. exists []. rewrite !app_nil_r. split; [constructor|]. split; [exact Hl|exact Ht].
  - apply bind_ok in H as ([l1 n1] & E1 & H).
    assert (Bb := block_before_eq _ _ _ _ G).
    assert (Ut : until_200 (todo ++ rest) = todo) by (apply until_eq; [eapply good_tail; exact G|exact Er]).
    destruct (record_fwd (first ++ done) r (todo ++ rest) procs l n l1 n1 items) as (its & C & Hl1 & Ht1 & Hn); try assumption.
    + intros T I. unfold processors in Hp. rewrite filter_app in Hp. apply Forall2_app_inv_l in Hp as (p1 & p2 & _ & Hp & _).
      cbn [filter] in Hp. apply Z.eqb_eq in T. apply Z.eqb_eq in I. rewrite T, I in Hp. cbn [andb] in Hp. inversion Hp; subst. eauto.
    + intros T N p P. exists procs, c, first. rewrite Bb, Ut. split; [exact Hp|]. split; [reflexivity|]. split; [exact Hc|].
      unfold proc_is in P. destruct procs as [|p0 procs']; [exact P|]. rewrite Ec by discriminate. exact P.
    + assert (X : (done ++ [r]) ++ todo = done ++ r :: todo) by (rewrite <- app_assoc; reflexivity).
      assert (Y : first ++ (done ++ [r]) = (first ++ done) ++ [r]) by (rewrite app_assoc; reflexivity).
      destruct (IH (done ++ [r]) l1 n1 (items ++ its) l' n') as (its2 & P2 & Hl2 & Ht2).
      * rewrite X. exact G.
      * rewrite X. exact Hp.
      * rewrite Y. exact Ht1.
      * exact Hl1.
      * destruct (count_snoc first done c r Hc) as [S1 S2].
        destruct (counts_dec _ _ _ Ht1) as [K|K].
        -- exists (Datatypes.S c). split; [apply S1; exact K|]. intros Np. destruct (Hn Np) as [[_ ->]|[K' _]]; [|contradiction].
           rewrite Ec by exact Np. reflexivity.
        -- exists c. split; [apply S2; exact K|]. intros Np. destruct (Hn Np) as [[K' _]|[_ ->]]; [contradiction|]. apply Ec. exact Np.
      * exact H.
      * exists (its ++ its2). rewrite X in Ht2. rewrite Y in P2. split; [constructor; assumption|].
        split; [rewrite app_assoc; exact Hl2|exact Ht2].
Qed.
Lemma block_bwd procs first rest : ends_here rest -> forall todo done l n its items,
  good_block first (done ++ todo) -> processors (done ++ todo) procs ->
  titles_ok (first ++ done) l -> lists_are l items ->
  (exists c, count_300 first done c /\ (procs <> [] -> c = n)) -> part (first ++ done) todo rest its ->
  exists l' n', fold_result (process_record to_int to_float ranges procs) todo (l, n) = Ok (l', n').
Proof.
  intros Er. induction todo as [|r todo IH]; intros done l n its items G Hp Ht Hl (c & Hc & Ec) P; cbn [fold_result].
  - eauto.
  - inversion P as [|? ? ? ? i1 more C P']; subst.
    assert (Bb := block_before_eq _ _ _ _ G).
    assert (Ut : until_200 (todo ++ rest) = todo) by (apply until_eq; [eapply good_tail; exact G|exact Er]).
    destruct (record_bwd (first ++ done) r (todo ++ rest) procs l n i1) as (l1 & n1 & E1); try assumption.
    + intros T N p (procs2 & n2 & first2 & Q & Eb & Q2 & Q3). rewrite Bb in *. rewrite Ut in Q.
      apply app_inv_tail in Eb. subst first2. assert (procs2 = procs) by (eapply processors_fun; eassumption). subst procs2.
      assert (n2 = c) by (eapply count_fun; eassumption). subst n2. unfold proc_is. destruct procs as [|p0 procs']; [exact Q3|].
      rewrite <- (Ec ltac:(discriminate)). exact Q3.
    + rewrite E1. cbn [bind].
      destruct (record_fwd (first ++ done) r (todo ++ rest) procs l n l1 n1 items) as (its2 & C2 & Hl1 & Ht1 & Hn); try assumption.
      * destruct C as [[_ W] _]. exact W.
      * intros T N p P2. exists procs, c, first. rewrite Bb, Ut. split; [exact Hp|]. split; [reflexivity|]. split; [exact Hc|].
        unfold proc_is in P2. destruct procs as [|p0 procs']; [exact P2|]. rewrite Ec by discriminate. exact P2.
      * assert (X : (done ++ [r]) ++ todo = done ++ r :: todo) by (rewrite <- app_assoc; reflexivity).
        assert (Y : first ++ (done ++ [r]) = (first ++ done) ++ [r]) by (rewrite app_assoc; reflexivity).
        apply (IH (done ++ [r]) l1 n1 more (items ++ its2)).
        -- rewrite X. exact G.
        -- rewrite X. exact Hp.
        -- rewrite Y. exact Ht1.
        -- exact Hl1.
        -- destruct (count_snoc first done c r Hc) as [S1 S2].
           destruct (counts_dec _ _ _ Ht1) as [K|K].
           ++ exists (Datatypes.S c). split; [apply S1; exact K|]. intros Np. destruct (Hn Np) as [[_ ->]|[K' _]]; [|contradiction].
              rewrite Ec by exact Np. reflexivity.
           ++ exists c. split; [apply S2; exact K|]. intros Np. destruct (Hn Np) as [[K' _]|[_ ->]]; [contradiction|]. apply Ec. exact Np.
        -- rewrite Y. exact P'.
Qed.
Lemma part_processors before todo rest its : part before todo rest its -> exists procs, processors todo procs.
Proof.
  induction 1 as [b rest|b r todo rest its more C _ [procs IH]]; [exists []; constructor|].
  unfold processors in *. cbn [filter]. destruct ((k_type r =? 400)%Z && (k_index r =? 1)%Z) eqn:E; [|eauto].
  apply andb_true_iff in E as [E1 E2]. apply Z.eqb_eq in E1. apply Z.eqb_eq in E2. destruct C as [[_ W] _].
  destruct (W E1 E2) as [p Hp]. exists (p :: procs). constructor; assumption.
Qed.

Lemma superblock_fwd first block rest l items l' : ends_here rest -> good_block first block -> titles_ok first l -> lists_are l items ->
  process_superblock to_int to_float ranges block l = Ok l' ->
  exists its, part first block rest its /\ lists_are l' (items ++ its) /\ titles_ok (first ++ block) l'.
Proof.
  intros Er G Ht Hl H. unfold process_superblock in H. apply bind_ok in H as (procs & Ep & H). apply procs_iff in Ep.
  apply bind_ok in H as ([l1 n1] & E & H). cbn [fst] in H. assert (l1 = l') by congruence. subst l1.
  destruct (block_fwd procs first rest Er block [] l 0 items l' n1) as (its & P & L & T); try assumption.
  - rewrite app_nil_r. exact Ht.
  - exists 0. split; [constructor|reflexivity].
  - rewrite app_nil_r in P. exists its. auto.
Qed.
Lemma superblock_bwd first block rest l items its : ends_here rest -> good_block first block -> titles_ok first l -> lists_are l items ->
  part first block rest its -> exists l', process_superblock to_int to_float ranges block l = Ok l'.
Proof.
  intros Er G Ht Hl P. destruct (part_processors _ _ _ _ P) as [procs Hp]. unfold process_superblock.
  assert (Ep := Hp). apply procs_iff in Ep. rewrite Ep. cbn [bind].
  destruct (block_bwd procs first rest Er block [] l 0 its items) as (l' & n' & E); try assumption.
  - rewrite app_nil_r. exact Ht.
  - exists 0. split; [constructor|reflexivity].
  - rewrite app_nil_r. exact P.
  - rewrite E. cbn [bind fst]. eauto.
Qed.

Definition finish (records : list record) (st : list record * lists) : result lists :=
  bind (fold_result (read_record to_int to_float ranges) records st) (fun st =>
  let (superblock, l) := st in
  if length superblock =? 0 then Ok l else process_superblock to_int to_float ranges superblock l).
Lemma finish_fwd records : forall first sb l items l', good_block first sb -> titles_ok first l -> lists_are l items ->
  finish records (sb, l) = Ok l' -> exists its, all_items first (sb ++ records) its /\ lists_are l' (items ++ its).
Proof.
  unfold finish. induction records as [|r records IH]; intros first sb l items l' G Ht Hl H; cbn [fold_result] in H.
  - cbn [bind] in H. destruct sb as [|s sb].
    + cbn [length Nat.eqb] in H. assert (l = l') by congruence. subst l'. exists []. rewrite (app_nil_r items). split; [apply items_none|exact Hl].
    + cbn [length Nat.eqb] in H. destruct (superblock_fwd first (s :: sb) [] l items l') as (its & P & L & _); try assumption; [left; reflexivity|].
      exists its. split; [|exact L]. rewrite <- (app_nil_r its). apply part_all; [exact P|apply items_none].
  - cbn [read_record] in H. destruct ((k_type r =? 200)%Z && negb (length sb =? 0)) eqn:B.
    + apply andb_true_iff in B as [T B]. apply Z.eqb_eq in T. apply negb_true_iff, Nat.eqb_neq in B.
      apply bind_ok in H as ([sb2 l2] & H & F). apply bind_ok in H as ([sb1 l1] & E & H).
      apply bind_ok in E as (l1' & E & E'). assert (sb1 = [r] /\ l1 = l1') as [-> ->] by (split; congruence). clear E'.
      destruct (superblock_fwd first sb (r :: records) l items l1') as (its & P & L & T'); try assumption; [right; eauto|].
      destruct (IH (first ++ sb) [r] l1' (items ++ its) l') as (its2 & A & L2); try assumption.
      * split; [discriminate|]. split; [constructor|]. right. eauto.
      * rewrite H. exact F.
      * exists (its ++ its2). split; [|rewrite app_assoc; exact L2]. apply part_all; [exact P|exact A].
    + cbn [bind] in H. replace (sb ++ r :: records) with ((sb ++ [r]) ++ records) by (rewrite <- app_assoc; reflexivity).
      apply (IH first (sb ++ [r]) l); try assumption. destruct G as (G1 & G2 & G3). apply andb_false_iff in B.
      destruct sb as [|s sb].
      * rewrite (G1 eq_refl). split; [discriminate|]. split; [constructor|]. left. reflexivity.
      * destruct B as [B|B]; [|discriminate]. apply Z.eqb_neq in B. split; [discriminate|]. cbn [app tl] in *.
        split; [apply Forall_app; split; [exact G2|constructor; [exact B|constructor]]|].
        destruct G3 as [->|(r' & rest & E & T)]; [left; reflexivity|]. right. exists r', (rest ++ [r]). split; [|exact T].
        assert (s = r' /\ sb = rest) as [-> ->] by (split; congruence). reflexivity.
Qed.
Lemma finish_bwd records : forall first sb l items its, good_block first sb -> titles_ok first l -> lists_are l items ->
  all_items first (sb ++ records) its -> exists l', finish records (sb, l) = Ok l'.
Proof.
  unfold finish. induction records as [|r records IH]; intros first sb l items its G Ht Hl H; cbn [fold_result].
  - cbn [bind]. destruct sb as [|s sb]; cbn [length Nat.eqb]; [exists l; reflexivity|]. apply all_part in H as (i1 & i2 & _ & P & _).
    eapply superblock_bwd; try eassumption. left. reflexivity.
  - cbn [read_record]. destruct ((k_type r =? 200)%Z && negb (length sb =? 0)) eqn:B.
    + apply andb_true_iff in B as [T B]. apply Z.eqb_eq in T.
      assert (Er : ends_here (r :: records)) by (right; eauto).
      apply all_part in H as (i1 & i2 & _ & P & A). destruct (superblock_bwd first sb (r :: records) l items i1) as [l1 E]; try assumption.
      rewrite E. cbn [bind]. destruct (superblock_fwd first sb (r :: records) l items l1) as (its' & _ & L & T'); try assumption.
      apply (IH (first ++ sb) [r] l1 (items ++ its') i2); try assumption.
      split; [discriminate|]. split; [constructor|]. right. eauto.
    + cbn [bind]. apply (IH first (sb ++ [r]) l items its); try assumption.
      * destruct G as (G1 & G2 & G3). apply andb_false_iff in B.
        destruct sb as [|s sb].
        -- rewrite (G1 eq_refl). split; [discriminate|]. split; [constructor|]. left. reflexivity.
        -- destruct B as [B|B]; [|discriminate]. apply Z.eqb_neq in B. split; [discriminate|]. cbn [app tl] in *.
           split; [apply Forall_app; split; [exact G2|constructor; [exact B|constructor]]|].
           destruct G3 as [->|(r' & rest & E & T)]; [left; reflexivity|]. right. exists r', (rest ++ [r]). split; [|exact T].
           assert (s = r' /\ sb = rest) as [-> ->] by (split; congruence). reflexivity.
      * rewrite <- app_assoc. exact H.
Qed.

(** ** Nearest values *)
Lemma argmin_from_first l : forall pre best bestv,
  nth_error pre best = Some bestv -> (forall k w, nth_error pre k = Some w -> (bestv <= w)%Q /\ (k < best -> (bestv < w)%Q)) ->
  exists v, nth_error (pre ++ l) (argmin_from (length pre) best bestv l) = Some v /\
    forall k w, nth_error (pre ++ l) k = Some w ->
      (v <= w)%Q /\ (k < argmin_from (length pre) best bestv l -> (v < w)%Q).
Proof.
  induction l as [|x l IH]; intros pre best bestv Hb Hmin; cbn [argmin_from].
  - exists bestv. rewrite app_nil_r. auto.
  - assert (Happ : pre ++ x :: l = (pre ++ [x]) ++ l) by (rewrite <- app_assoc; reflexivity).
    assert (Hlen : Datatypes.S (length pre) = length (pre ++ [x])) by (rewrite app_length; cbn [length]; lia).
    assert (Hx : nth_error (pre ++ [x]) (length pre) = Some x) by (rewrite nth_error_app2, Nat.sub_diag by lia; reflexivity).
    assert (Bl : best < length pre) by (apply nth_error_Some; congruence).
    rewrite Happ. destruct (qgt bestv x) eqn:E; rewrite Hlen; apply IH.
    + exact Hx.
    + apply qgt_iff in E. intros k w Hk. destruct (Nat.lt_ge_cases k (length pre)) as [Hlt|Hge].
      * rewrite nth_error_app1 in Hk by exact Hlt. apply Hmin in Hk as [Hk _]. split; [|intros _]; lra.
      * rewrite nth_error_app2 in Hk by exact Hge. destruct (k - length pre) as [|[|?]]; cbn in Hk; try discriminate.
        assert (x = w) by congruence. subst w. split; [lra|]. intros L. lia.
    + rewrite nth_error_app1; [exact Hb|exact Bl].
    + apply qgt_false in E. intros k w Hk. destruct (Nat.lt_ge_cases k (length pre)) as [Hlt|Hge].
      * rewrite nth_error_app1 in Hk by exact Hlt. apply Hmin. exact Hk.
      * rewrite nth_error_app2 in Hk by exact Hge. destruct (k - length pre) as [|[|?]]; cbn in Hk; try discriminate.
        assert (x = w) by congruence. subst w. split; [lra|]. intros L. lia.
Qed.
Lemma argmin_first l : l <> [] -> exists i v, argmin l = Ok i /\ nth_error l i = Some v /\
  forall k w, nth_error l k = Some w -> (v <= w)%Q /\ (k < i -> (v < w)%Q).
Proof.
  destruct l as [|x l]; [congruence|]. intros _. cbn [argmin].
  destruct (argmin_from_first l [x] 0 x) as (v & V & M); [reflexivity| |].
  - intros [|[|k]] w W; cbn in W; try discriminate. assert (x = w) by congruence. subst w. split; [lra|]. intros L. lia.
  - eexists. exists v. split; [reflexivity|]. exact (conj V M).
Qed.
Lemma closest_ok {A} (given : list (Z * A)) times : given <> [] ->
  exists l, find_closest (map fst given) (map snd given) times = Ok l /\ Forall2 (nearest given) times l.
Proof.
  intros Ne. unfold find_closest.
  apply (sequence_forall2 (fun t => bind (argmin (map (fun u => inject_Z (Z.abs (t - u))) (map fst given)))
    (fun k => ok_or IndexError (nth_error (map snd given) k))) (nearest given)).
  apply Forall_forall. intros t _.
  destruct (argmin_first (map (fun u => inject_Z (Z.abs (t - u))) (map fst given))) as (i & v & E & V & M).
  - destruct given; [congruence|discriminate].
  - rewrite E. cbn [bind]. rewrite !nth_error_map' in V. rewrite nth_error_map'. destruct (nth_error given i) as [[u x]|] eqn:G; [|discriminate].
    cbn [option_map fst snd ok_or] in *. exists x. split; [reflexivity|]. exists i, u. split; [exact G|].
    intros k' u' x' G'. specialize (M k' (inject_Z (Z.abs (t - u')))). rewrite !nth_error_map', G' in M. cbn [option_map fst] in M.
    destruct (M eq_refl) as [M1 M2]. assert (v = inject_Z (Z.abs (t - u))) by congruence. subst v. rewrite <- Zle_Qle in M1.
    split; [exact M1|]. intros L. specialize (M2 L). rewrite <- Zlt_Qlt in M2. exact M2.
Qed.
Lemma nearest_map {A B} (f : A -> B) given t y : nearest (map (fun p => (fst p, f (snd p))) given) t y ->
  exists x, nearest given t x /\ y = f x.
Proof.
  intros (k & u & E & M). rewrite nth_error_map' in E. destruct (nth_error given k) as [[u0 x]|] eqn:G; [|discriminate].
  cbn [option_map fst snd] in E. assert (u0 = u /\ y = f x) as [-> ->] by (split; congruence). exists x. split; [|reflexivity].
  exists k, u. split; [exact G|]. intros k' u' x' G'. apply (M k' u' (f x')). rewrite nth_error_map', G'. reflexivity.
Qed.
Lemma quantity_ok {A B} (f : A -> B) (change : A -> B -> Prop) (given : list (Z * A)) times : (forall x, change x (f x)) ->
  exists out, closest (map fst given) (map f (map snd given)) times = Ok out /\ quantity change given times out.
Proof.
  intros Hf. unfold closest, quantity. destruct given as [|g given]; [cbn; eauto|].
  destruct (closest_ok (map (fun p => (fst p, f (snd p))) (g :: given)) times) as (l & E & F); [discriminate|].
  assert (E1 : map fst (map (fun p => (fst p, f (snd p))) (g :: given)) = map fst (g :: given)) by (rewrite map_map; reflexivity).
  assert (E2 : map snd (map (fun p => (fst p, f (snd p))) (g :: given)) = map f (map snd (g :: given))) by (rewrite !map_map; reflexivity).
  rewrite E1, E2 in E. cbn [map] in E |- *. rewrite E. cbn [bind]. eexists. split; [reflexivity|]. exists l. split; [reflexivity|].
  clear - F Hf. induction F as [|t y ts ys N _ IH]; constructor; [|exact IH]. apply nearest_map in N as (x & N & ->). eauto.
Qed.
Lemma scale_scaled f x : scaled f x (scale f x).
Proof. destruct x as [q|]; cbn; [ring|exact I]. Qed.
Lemma scale_all f x : Forall2 (scaled f) x (map (scale f) x).
Proof. induction x as [|y x IH]; constructor; [apply scale_scaled|exact IH]. Qed.

Local Notation mp_ok := (mp_ok to_int to_float ranges).
Lemma good_nil : good_block [] [].
Proof. split; [reflexivity|]. split; [constructor|]. left. reflexivity. Qed.
Lemma titles_nil : titles_ok [] no_lists.
Proof. intros k t. cbn. split; [discriminate|]. intros (b1 & s & b2 & f & E & _). destruct b1; discriminate. Qed.

Lemma read_mp_eq records : read_mp to_int to_float ranges records =
  bind (finish records ([], no_lists)) (fun l =>
  bind (closest (l_irt_times l) (l_irts l) (l_times l)) (fun irt =>
  bind (closest (l_temp_times l) (l_temps l) (l_times l)) (fun temperature =>
  bind (closest (l_rh_times l) (map (map (scale (1 # 100))) (l_rhs l)) (l_times l)) (fun rh =>
  bind (closest (l_ah_times l) (map (map (scale (1 # 1000))) (l_ahs l)) (l_times l)) (fun ah =>
  Ok {| d_time := l_times l; d_lwp := l_lwps l; d_iwv := map (scale 10) (l_iwvs l); d_irt := irt;
        d_temperature := temperature; d_rh := rh; d_ah := ah |}))))).
Proof.
  unfold read_mp, finish. destruct (fold_result (read_record to_int to_float ranges) records ([], no_lists)) as [[sb l]|e]; reflexivity.
Qed.
Lemma read_mp_lists records l items : finish records ([], no_lists) = Ok l -> all_items [] records items -> lists_are l items ->
  exists d, read_mp to_int to_float ranges records = Ok d /\ mp_ok records d items.
Proof.
  intros E A L. rewrite read_mp_eq, E. cbn [bind]. destruct L as (E1 & E2 & E3 & E4 & E5 & E6 & E7 & E8 & E9 & E10 & E11).
  rewrite E1, E2, E3, E4, E5, E6, E7, E8, E9, E10, E11. set (times := map fst (integrals items)).
  destruct (quantity_ok (fun x : masked Q => x) eq (infrareds items) times (fun x => eq_refl)) as (o1 & Q1 & R1).
  destruct (quantity_ok (fun x : list (masked Q) => x) eq (temperatures items) times (fun x => eq_refl)) as (o2 & Q2 & R2).
  destruct (quantity_ok (map (scale (1 # 100))) (Forall2 (scaled (1 # 100))) (rel_humidities items) times (scale_all _)) as (o3 & Q3 & R3).
  destruct (quantity_ok (map (scale (1 # 1000))) (Forall2 (scaled (1 # 1000))) (abs_humidities items) times (scale_all _)) as (o4 & Q4 & R4).
  rewrite map_id in Q1, Q2. rewrite Q1, Q2, Q3, Q4. cbn [bind]. eexists. split; [reflexivity|].
  unfold mp_ok. cbn [d_time d_lwp d_iwv d_irt d_temperature d_rh d_ah]. split; [exact A|]. split; [reflexivity|]. split; [reflexivity|].
  split; [|auto]. clear. induction (integrals items) as [|p l IH]; cbn [map]; constructor; [apply scale_scaled|exact IH].
Qed.
Lemma read_mp_fwd records d : read_mp to_int to_float ranges records = Ok d -> exists items, mp_ok records d items.
Proof.
  intros H. assert (H' := H). rewrite read_mp_eq in H'. apply bind_ok in H' as (l & E & _).
  destruct (finish_fwd records [] [] no_lists [] l good_nil titles_nil lists_nil E) as (its & A & L). cbn [app] in A, L.
  destruct (read_mp_lists records l its E A L) as (d' & E' & M). assert (d' = d) by congruence. subst d'. eauto.
Qed.
Lemma read_mp_bwd records items : all_items [] records items -> exists d, read_mp to_int to_float ranges records = Ok d.
Proof.
  intros A. destruct (finish_bwd records [] [] no_lists [] items good_nil titles_nil lists_nil A) as [l E].
  destruct (finish_fwd records [] [] no_lists [] l good_nil titles_nil lists_nil E) as (its & A' & L). cbn [app] in A', L.
  destruct (read_mp_lists records l its E A' L) as (d & E' & _). eauto.
Qed.
End Proofs.
