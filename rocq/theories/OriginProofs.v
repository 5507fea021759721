(** Lemmas about the sources of variables and about references. *)
From Verif Require Import Base OriginModel OriginSpec.
From Coq Require Import String.
Open Scope string_scope.
Open Scope list_scope.

(** ** Dictionaries *)

Definition lookup (common d : dict) (k : string) : option meta :=
  match d k with Some m => Some m | None => common k end.
Definition upd (g : origin) (m : meta) : meta :=
  {| m_rest := m_rest m; m_units := m_units m; m_source := g_source g; m_pid := g_pid g |}.

Lemma set_same : forall d k m, set_key d k m k = Some m.
Proof. intros. unfold set_key. rewrite String.eqb_refl. reflexivity. Qed.
Lemma set_other : forall d k m x, x <> k -> set_key d k m x = d x.
Proof. intros. unfold set_key. destruct (String.eqb_spec x k); [contradiction|reflexivity]. Qed.

Lemma set_sources_ok : forall common g s keys d d', g_source g = Some s -> set_sources common s (g_pid g) keys d = (d', None) ->
  forall k, (In k keys -> exists m, lookup common d k = Some m /\ d' k = Some (upd g m)) /\ (~ In k keys -> d' k = d k).
Proof.
  intros common g s keys. induction keys as [|k0 r IH]; intros d d' G H k; cbn in H.
  - assert (d' = d) by congruence. subst. split; [intros []|reflexivity].
  - unfold set_source in H. fold (lookup common d k0) in H. destruct (lookup common d k0) as [m|] eqn:L; [|discriminate].
    destruct (IH _ _ G H k) as [A B]. clear IH. split.
    + intros [<-|I].
      * exists m. split; [exact L|]. destruct (in_dec string_dec k0 r) as [I|N].
        { destruct (A I) as (m' & E & ->). unfold lookup in E. rewrite set_same in E.
          assert (E' : m' = {| m_rest := m_rest m; m_units := m_units m; m_source := Some s; m_pid := g_pid g |}) by congruence.
          subst. reflexivity. }
        { rewrite (B N), set_same. unfold upd. rewrite G. reflexivity. }
      * destruct (A I) as (m' & E & ->). destruct (string_dec k k0) as [->|N].
        { unfold lookup in E. rewrite set_same in E.
          assert (E' : m' = {| m_rest := m_rest m; m_units := m_units m; m_source := Some s; m_pid := g_pid g |}) by congruence.
          subst. exists m. split; [exact L|reflexivity]. }
        { unfold lookup in E. rewrite set_other in E by exact N. exists m'. split; [exact E|reflexivity]. }
    + intros N. rewrite B by (intros I; apply N; right; exact I). apply set_other. intros ->. apply N. left. reflexivity.
Qed.

(** The last instrument of the table with a variable. *)
Fixpoint last_of (table : list (option origin * list string)) (k : string) : option origin :=
  match table with
  | [] => None
  | (og, keys) :: r =>
      match last_of r k with
      | Some g => Some g
      | None => if in_dec string_dec k keys then og else None
      end
  end.

Lemma over_ok : forall common table d d', over_instruments common table d = (d', None) ->
  forall k, match last_of table k with
            | Some g => exists m, lookup common d k = Some m /\ d' k = Some (upd g m)
            | None => d' k = d k
            end.
Proof.
  intros common table. induction table as [|[[g|] keys] r IH]; intros d d' H k; cbn in H.
  - cbn. congruence.
  - destruct (g_source g) as [s|] eqn:G; [|discriminate]. destruct (set_sources common s (g_pid g) keys d) as [d1 [e|]] eqn:S; [discriminate|].
    destruct (set_sources_ok _ _ _ _ _ _ G S k) as [A B]. specialize (IH _ _ H k). cbn [last_of].
    destruct (last_of r k) as [g'|].
    + destruct IH as (m & L & E). destruct (in_dec string_dec k keys) as [I|N].
      * destruct (A I) as (m0 & L0 & E0). unfold lookup in L. rewrite E0 in L. assert (m = upd g m0) by congruence. subst.
        exists m0. split; [exact L0|exact E].
      * unfold lookup in L. rewrite (B N) in L. exists m. split; [exact L|exact E].
    + destruct (in_dec string_dec k keys) as [I|N].
      * destruct (A I) as (m0 & L0 & E0). exists m0. split; [exact L0|]. congruence.
      * rewrite IH. apply B, N.
  - specialize (IH _ _ H k). cbn [last_of]. destruct (last_of r k); [exact IH|]. destruct (in_dec string_dec k keys); exact IH.
Qed.

Definition of_instruments (o : observations) : string -> origin -> Prop :=
  comes_from (o_radar o) (o_lidar o) (o_model o) (o_mwr o) (o_disdrometer o).

Ltac each I := repeat (destruct I as [<-|I]); try contradiction I.

Lemma last_comes : forall o k, (exists g, last_of (source_table o) k = Some g /\ of_instruments o k g) \/
  (last_of (source_table o) k = None /\ ~ exists g, of_instruments o k g).
Proof.
  intros [ra li mo mw di] k. destruct (in_dec string_dec k named) as [I|N].
  - unfold named, radar_variables, lidar_variables, model_variables in I. cbn [app] in I.
    destruct mw as [mw|], di as [di|];
    each I; try (left; eexists; split; [reflexivity|]; unfold of_instruments; cbn [o_radar o_lidar o_model o_mwr o_disdrometer];
      first [ apply From_disdrometer; reflexivity | apply From_mwr; reflexivity
            | apply From_radar_rain; reflexivity
            | apply From_radar; unfold radar_variables; cbn; tauto
            | apply From_lidar; unfold lidar_variables; cbn; tauto
            | apply From_model; unfold model_variables; cbn; tauto ]).
    all: right; split; [reflexivity|]; intros [g C]; unfold of_instruments in C; inversion C as [? J|? J|? J|? J| |]; subst;
      try discriminate; unfold radar_variables, lidar_variables, model_variables in J; cbn in J; intuition discriminate.
  - right. split.
    + assert (A : forall l, incl l named -> ~ In k l) by (intros l A I; apply N, A, I).
      unfold source_table. cbn [last_of o_radar o_lidar o_model o_mwr o_disdrometer].
      repeat match goal with |- context [in_dec string_dec k ?l] =>
        destruct (in_dec string_dec k l) as [I|_]; [exfalso; revert I; apply A; intros x J; unfold named, radar_variables, lidar_variables, model_variables; cbn [app In] in J |- *; intuition|] end.
      reflexivity.
    + intros [g C]. apply N. unfold named. destruct C as [k J|k J|k J|? ?|? ?|?]; rewrite !in_app_iff; cbn [In]; auto 9.
Qed.

Lemma last_iff : forall o k g, last_of (source_table o) k = Some g <-> of_instruments o k g.
Proof.
  intros o k g. split.
  - intros H. destruct (last_comes o k) as [(g' & E & C)|[E _]]; [|congruence]. assert (g' = g) by congruence. subst. exact C.
  - unfold of_instruments. intros C. destruct C as [k J|k J|k J|x E|x E|E];
      try (unfold radar_variables, lidar_variables, model_variables in J; cbn in J; each J; reflexivity);
      destruct o as [ra li mo mw di]; cbn in E; subst; reflexivity.
Qed.

(** ** Several calls in one process *)

(** What calls can change: units of the two times, sources of the named variables. *)
Definition kept (common d0 d : dict) : Prop := forall k,
  match d k with
  | None => d0 k = None
  | Some m => exists m0, lookup common d0 k = Some m0 /\ m_rest m = m_rest m0 /\
      (k <> "time" -> k <> "model_time" -> m_units m = m_units m0) /\
      (~ In k named -> m_source m = m_source m0 /\ m_pid m = m_pid m0)
  end.

Lemma kept_refl : forall common d, kept common d d.
Proof.
  intros c d k. destruct (d k) as [m|] eqn:E; [|reflexivity]. exists m. unfold lookup. rewrite E. auto.
Qed.

Lemma kept_lookup : forall common d0 d k m, kept common d0 d -> lookup common d k = Some m ->
  exists m0, lookup common d0 k = Some m0 /\ m_rest m = m_rest m0 /\
      (k <> "time" -> k <> "model_time" -> m_units m = m_units m0) /\
      (~ In k named -> m_source m = m_source m0 /\ m_pid m = m_pid m0).
Proof.
  intros c d0 d k m K L. specialize (K k). unfold lookup in L. destruct (d k) as [m'|].
  - assert (m' = m) by congruence. subst. exact K.
  - exists m. unfold lookup. rewrite K. auto.
Qed.

Lemma kept_set_sources : forall common d0 s p keys d, kept common d0 d -> incl keys named ->
  kept common d0 (fst (set_sources common s p keys d)).
Proof.
  intros c d0 s p keys. induction keys as [|k r IH]; intros d K I; cbn; [exact K|].
  unfold set_source. fold (lookup c d k). destruct (lookup c d k) as [m|] eqn:L; [|exact K].
  apply IH; [|intros x J; apply I; right; exact J]. intros x. destruct (string_dec x k) as [->|N].
  - rewrite set_same. destruct (kept_lookup _ _ _ _ _ K L) as (m0 & L0 & R & U & _). exists m0. cbn. repeat split; auto.
    all: exfalso; apply H, I; left; reflexivity.
  - rewrite set_other by exact N. apply K.
Qed.

Lemma kept_over : forall common d0 table d, kept common d0 d -> Forall (fun p => incl (snd p) named) table ->
  kept common d0 (fst (over_instruments common table d)).
Proof.
  intros c d0 table. induction table as [|[[g|] keys] r IH]; intros d K F; cbn; [exact K| |].
  - destruct (g_source g) as [s|]; [|exact K]. pose proof (kept_set_sources c d0 s (g_pid g) keys d K (Forall_inv F)) as K'.
    destruct (set_sources c s (g_pid g) keys d) as [d' [e|]]; [exact K'|]. apply IH; [exact K'|exact (Forall_inv_tail F)].
  - apply IH; [exact K|exact (Forall_inv_tail F)].
Qed.

Lemma table_named : forall o, Forall (fun p => incl (snd p) named) (source_table o).
Proof.
  intros o. unfold source_table. repeat apply Forall_cons; try apply Forall_nil; cbn [snd]; intros x J; cbn [In] in J; each J; unfold named, radar_variables, lidar_variables, model_variables; cbn [app In]; repeat (try (left; reflexivity); right).
Qed.

Lemma kept_time : forall common d0 date key d, kept common d0 d -> key = "time" \/ key = "model_time" ->
  kept common d0 (fst (add_time_attribute common date key d)).
Proof.
  intros c d0 date key d K T. unfold add_time_attribute. fold (lookup c d key). destruct (lookup c d key) as [m|] eqn:L; [|exact K].
  cbn [fst]. intros x. destruct (string_dec x key) as [->|N].
  - rewrite set_same. destruct (kept_lookup _ _ _ _ _ K L) as (m0 & L0 & R & U & S). exists m0. cbn. repeat split; auto.
    1: intros A B; destruct T; contradiction. all: apply S, H.
  - rewrite set_other by exact N. apply K.
Qed.

Lemma kept_run : forall common d0 run d, kept common d0 d -> kept common d0 (fst (one_run common run d)).
Proof.
  intros c d0 [date o] d K. unfold one_run. cbn [fst snd].
  pose proof (kept_time c d0 date "time" d K (or_introl eq_refl)) as K1. destruct (add_time_attribute c date "time" d) as [d1 [e|]]; [exact K1|]. cbn [fst] in K1.
  pose proof (kept_time c d0 date "model_time" d1 K1 (or_intror eq_refl)) as K2. destruct (add_time_attribute c date "model_time" d1) as [d2 [e|]]; [exact K2|]. cbn [fst] in K2.
  apply kept_over; [exact K2|apply table_named].
Qed.

Lemma kept_earlier : forall common d0 history d, kept common d0 d -> kept common d0 (earlier common history d).
Proof.
  intros c d0 h. induction h as [|r t IH]; intros d K; [exact K|]. cbn. apply IH, kept_run, K.
Qed.

(** A call that ends well. *)
Lemma run_ok : forall common date o d d', one_run common (date, o) d = (d', None) -> forall k,
  match last_of (source_table o) k with
  | Some g => exists m, lookup common d k = Some m /\ d' k = Some (upd g m)
  | None =>
      if in_dec string_dec k ["time"; "model_time"]
      then exists m, lookup common d k = Some m /\
           d' k = Some {| m_rest := m_rest m; m_units := Some ("hours since " ++ date ++ " 00:00:00 +00:00")%string; m_source := m_source m; m_pid := m_pid m |}
      else d' k = d k
  end.
Proof.
  intros c date o d d' H k. unfold one_run in H. cbn [fst snd] in H. unfold add_time_attribute in H at 1. fold (lookup c d "time") in H.
  destruct (lookup c d "time") as [m1|] eqn:L1; [|discriminate].
  match type of H with context [add_time_attribute _ _ _ ?x] => set (d1 := x) in H end.
  unfold add_time_attribute in H. fold (lookup c d1 "model_time") in H.
  destruct (lookup c d1 "model_time") as [m2|] eqn:L2; [|discriminate].
  unfold lookup in L2. unfold d1 in L2 at 1. rewrite set_other in L2 by discriminate. fold (lookup c d "model_time") in L2.
  pose proof (over_ok _ _ _ _ H k) as O.
  destruct (in_dec string_dec k ["time"; "model_time"]) as [I|N].
  - assert (E : last_of (source_table o) k = None).
    { destruct (last_comes o k) as [(g & _ & C)|[E _]]; [exfalso|exact E]. cbn in I. unfold of_instruments in C.
      destruct C as [k J|k J|k J| | |]; try (unfold radar_variables, lidar_variables, model_variables in J; cbn in J); intuition (subst; discriminate). }
    rewrite E in O |- *. cbn in I. destruct I as [<-|[<-|[]]].
    + exists m1. split; [exact L1|]. rewrite O. rewrite set_other by discriminate. unfold d1. apply set_same.
    + exists m2. split; [exact L2|]. rewrite O. apply set_same.
  - assert (D : set_key d1 "model_time" {| m_rest := m_rest m2; m_units := Some ("hours since " ++ date ++ " 00:00:00 +00:00")%string; m_source := m_source m2; m_pid := m_pid m2 |} k = d k).
    { rewrite set_other by (intros ->; apply N; cbn; auto). unfold d1. apply set_other. intros ->; apply N; cbn; auto. }
    unfold lookup in O. rewrite D in O. exact O.
Qed.

(** ** Errors *)

Definition known (common d : dict) (k : string) : Prop := lookup common d k <> None.

Lemma known_set : forall common d k m x, known common d x -> known common (set_key d k m) x.
Proof.
  intros c d k m x K. unfold known, lookup in *. unfold set_key. destruct (String.eqb x k); [discriminate|exact K].
Qed.
Lemma known_set_sources : forall common s p keys d, Forall (known common d) keys ->
  snd (set_sources common s p keys d) = None.
Proof.
  intros c s p keys. induction keys as [|k r IH]; intros d F; [reflexivity|]. cbn. unfold set_source. fold (lookup c d k).
  pose proof (Forall_inv F) as K. unfold known in K. destruct (lookup c d k) as [m|]; [|contradiction].
  apply IH. eapply Forall_impl; [|exact (Forall_inv_tail F)]. intros x. apply known_set.
Qed.
Lemma known_kept : forall common d0 d, kept common d0 d -> forall k, known common d0 k -> known common d k.
Proof.
  intros c d0 d K k N. specialize (K k). unfold known, lookup in *. destruct (d k); [discriminate|]. rewrite K in N. exact N.
Qed.
Lemma over_error : forall common table d, Forall (fun p => incl (snd p) named) table -> Forall (known common d) named ->
  snd (over_instruments common table d) =
  if existsb (fun p => match fst p with Some g => match g_source g with None => true | Some _ => false end | None => false end) table
  then Some AttributeError else None.
Proof.
  intros c table. induction table as [|[[g|] keys] r IH]; intros d F K; cbn; [reflexivity| |].
  - destruct (g_source g) as [s|]; [|reflexivity]. cbn [orb].
    assert (E : snd (set_sources c s (g_pid g) keys d) = None).
    { apply known_set_sources, Forall_forall. intros x I. rewrite Forall_forall in K. apply K, (Forall_inv F), I. }
    pose proof (kept_set_sources c d s (g_pid g) keys d (kept_refl c d) (Forall_inv F)) as K'.
    destruct (set_sources c s (g_pid g) keys d) as [d' e]. cbn in E. subst e. apply IH; [exact (Forall_inv_tail F)|].
    eapply Forall_impl; [|exact K]. intros x. apply known_kept, K'.
  - apply IH; [exact (Forall_inv_tail F)|exact K].
Qed.
Lemma run_error : forall common date o d, known common d "time" -> known common d "model_time" -> Forall (known common d) named ->
  snd (one_run common (date, o) d) =
  if existsb (fun p => match fst p with Some g => match g_source g with None => true | Some _ => false end | None => false end) (source_table o)
  then Some AttributeError else None.
Proof.
  intros c date o d T M N. unfold one_run. cbn [fst snd]. unfold add_time_attribute at 1. fold (lookup c d "time").
  unfold known in T. destruct (lookup c d "time") as [m1|] eqn:L1; [|contradiction].
  match goal with |- context [add_time_attribute _ _ _ ?x] => set (d1 := x) end.
  unfold add_time_attribute. fold (lookup c d1 "model_time"). assert (M1 : known c d1 "model_time") by apply known_set, M.
  unfold known in M1. destruct (lookup c d1 "model_time") as [m2|] eqn:L2; [|contradiction].
  apply over_error; [apply table_named|]. eapply Forall_impl; [|exact N]. intros x K. apply known_set, known_set, K.
Qed.

(** ** References *)

Lemma append_assoc_o : forall a b c : string, ((a ++ b) ++ c = a ++ b ++ c)%string.
Proof. intros a b c. induction a as [|x a IH]; [reflexivity|]. cbn. rewrite IH. reflexivity. Qed.
Lemma listed_iff : forall l t, listed l t <-> l <> [] /\ t = String.concat ", " l.
Proof.
  intros l t. split.
  - intros H. induction H as [x|x l t N H [_ ->]]; [split; [discriminate|reflexivity]|]. split; [discriminate|]. destruct l; [contradiction|reflexivity].
  - intros [N ->]. induction l as [|x [|y r] IH]; [contradiction|constructor|].
    change (String.concat ", " (x :: y :: r)) with (x ++ ", " ++ String.concat ", " (y :: r))%string. constructor; [discriminate|]. apply IH. discriminate.
Qed.
Lemma concat_snoc : forall l x, l <> [] -> String.concat ", " (l ++ [x]) = (String.concat ", " l ++ ", " ++ x)%string.
Proof.
  intros l x N. induction l as [|a [|b r] IH]; [contradiction|reflexivity|].
  change (String.concat ", " ((a :: b :: r) ++ [x])) with (a ++ ", " ++ String.concat ", " ((b :: r) ++ [x]))%string.
  rewrite IH by discriminate. change (String.concat ", " (a :: b :: r)) with (a ++ ", " ++ String.concat ", " (b :: r))%string.
  rewrite !append_assoc_o. reflexivity.
Qed.
Lemma fold_concat : forall extra l, l <> [] ->
  fold_left (fun t r => t ++ ", " ++ r)%string extra (String.concat ", " l) = String.concat ", " (l ++ extra).
Proof.
  induction extra as [|x r IH]; intros l N; [rewrite app_nil_r; reflexivity|]. cbn [fold_left]. rewrite <- concat_snoc by exact N.
  rewrite IH by (destruct l; discriminate). rewrite <- app_assoc. reflexivity.
Qed.
Lemma product_cited : forall i, exists l, cited i l /\ ("https://doi.org/10.21105/joss.02123" ++ of_product i)%string = String.concat ", " (software :: l).
Proof.
  intros i. destruct (in_dec string_dec i (map fst articles)) as [I|N].
  - cbn in I. each I; (eexists; split; [left; eexists; split; [unfold articles; cbn; repeat (try (left; reflexivity); right)|reflexivity]|reflexivity]).
  - exists []. split; [right; split; [exact N|reflexivity]|]. unfold of_product. cbn in N.
    repeat match goal with |- context [String.eqb i ?x] => destruct (String.eqb_spec i x); [exfalso; apply N; subst; cbn; tauto|] end. reflexivity.
Qed.
Lemma cited_unique : forall i l l', cited i l -> cited i l' -> l = l'.
Proof.
  intros i l l' [(a & A & ->)|[N ->]] [(b & B & ->)|[N' ->]]; try reflexivity.
  - f_equal. unfold articles in A, B. cbn in A, B. intuition congruence.
  - exfalso. apply N'. apply in_map_iff. exists (i, a). auto.
  - exfalso. apply N. apply in_map_iff. exists (i, b). auto.
Qed.

(** A text in another one. *)
Fixpoint occurs (p s : string) : bool :=
  String.prefix p s || match s with String _ r => occurs p r | EmptyString => false end.
Lemma prefix_app : forall p s, String.prefix p (p ++ s) = true.
Proof.
  induction p as [|c p IH]; intros s; [destruct s; reflexivity|]. cbn. destruct (Ascii.ascii_dec c c) as [_|N]; [apply IH|contradiction].
Qed.
Lemma occurs_app : forall p a b, occurs p (a ++ p ++ b) = true.
Proof.
  intros p a b. induction a as [|c a IH].
  - change ("" ++ p ++ b)%string with (p ++ b)%string. pose proof (prefix_app p b) as E. destruct (p ++ b)%string; cbn [occurs]; rewrite E; reflexivity.
  - change (String c a ++ p ++ b)%string with (String c (a ++ p ++ b)). cbn [occurs]. rewrite IH. apply orb_true_r.
Qed.
