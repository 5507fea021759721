(** Proofs about the line files of WVR-1100 radiometers. *)
From Verif Require Import Base ArrayModel FillModel LayerModel GridModel OutputModel SiteModel TelegramModel
  RadiometricsModel TimeSpec SiteSpec TelegramSpec RadiometricsSpec
  ArrayProofs FillProofs GridProofs SiteProofs TelegramProofs RadiometricsProofs MpProofs.
From Coq Require Import Qabs String Ascii Lqa.
Open Scope string_scope.
Open Scope nat_scope.
Open Scope list_scope.
Local Notation length := List.length (only parsing).

Lemma map2_maps {A B C D} (f : B -> C -> D) (g : A -> B) (h : A -> C) l :
  map2 f (map g l) (map h l) = map (fun x => f (g x) (h x)) l.
Proof. induction l as [|x l IH]; [reflexivity|]. cbn [map map2]. rewrite IH. reflexivity. Qed.
Lemma select_maps {A B} (g : A -> bool) (h : A -> B) l : select (map g l) (map h l) = map h (filter g l).
Proof.
  unfold select. induction l as [|x l IH]; [reflexivity|]. cbn [map combine filter fst]. destruct (g x); cbn [map snd]; rewrite IH; reflexivity.
Qed.
Lemma position_some h headers : forall k, position h headers = Some k -> nth_error headers k = Some h.
Proof.
  induction headers as [|h' r IH]; intros k; cbn [position]; [discriminate|]. destruct (String.eqb h h') eqn:E.
  - intros H. assert (k = 0) by congruence. subst k. apply String.eqb_eq in E. subst h'. reflexivity.
  - destruct (position h r) as [j|]; [|discriminate]. cbn [option_map]. intros H. assert (k = Datatypes.S j) by congruence. subst k.
    cbn [nth_error]. apply IH. reflexivity.
Qed.
Lemma position_none h headers : position h headers = None <-> ~ In h headers.
Proof.
  induction headers as [|h' r IH]; cbn [position In]; [tauto|]. destruct (String.eqb h h') eqn:E.
  - apply String.eqb_eq in E. subst h'. split; [discriminate|]. intros N. exfalso. apply N. left. reflexivity.
  - apply String.eqb_neq in E. destruct (position h r) as [j|]; cbn [option_map].
    + split; [discriminate|]. intros N. exfalso. assert (X : ~ In h r) by tauto. apply IH in X. discriminate.
    + split; [|reflexivity]. intros _ [->|I]; [congruence|]. apply (proj1 IH eq_refl). exact I.
Qed.

Section Proofs.
Variable to_int : string -> option Z.
Variable to_float : string -> option (masked Q).
Variable ordinal : Z -> Z -> Z -> option Z.
Local Notation mdy_text := (mdy_text to_int ordinal).
Local Notation hms_text := (hms_text to_int).
Local Notation los_number := (los_number to_float).
Local Notation parse_los := (parse_los to_int to_float ordinal).
Local Notation readable := (readable to_int to_float ordinal).
Local Notation los_line := (los_line to_int to_float ordinal).
Local Notation los_data := (los_data to_int to_float ordinal).
Local Notation los_rows := (los_rows to_int to_float ordinal).

Lemma los_number_iff v x : (if contains "*" v then Some (LNum None) else option_map LNum (to_float v)) = Some (LNum x) <-> los_number v x.
Proof.
  unfold RadiometricsSpec.los_number. destruct (contains "*" v) eqn:C.
  - apply contains_iff in C. split; [intros H; left; split; [exact C|congruence]|]. intros [[_ ->]|[N _]]; [reflexivity|contradiction].
  - assert (N : ~ occurs "*" v) by (intros O; apply contains_iff in O; congruence). split.
    + intros H. right. split; [exact N|]. destruct (to_float v) as [y|]; cbn [option_map] in H; [|discriminate]. injection H as ->. reflexivity.
    + intros [[O _]|[_ E]]; [contradiction|]. rewrite E. reflexivity.
Qed.
Lemma parse_los_date v x : parse_los "date" v = Some x <-> exists d, x = LDate d /\ mdy_text v d.
Proof.
  unfold RadiometricsModel.parse_los. change (String.eqb "date" "date") with true. cbv iota. split.
  - destruct (parse_date to_int ordinal v) as [d|] eqn:E; cbn [option_map]; [|discriminate]. intros H. apply mdy_iff in E. exists d. split; [congruence|exact E].
  - intros (d & -> & E). apply mdy_iff in E. rewrite E. reflexivity.
Qed.
Lemma parse_los_time v x : parse_los "time" v = Some x <-> exists d, x = LTime d /\ hms_text v d.
Proof.
  unfold RadiometricsModel.parse_los. change (String.eqb "time" "date") with false. change (String.eqb "time" "time") with true. cbv iota. split.
  - destruct (parse_time to_int v) as [d|] eqn:E; cbn [option_map]; [|discriminate]. intros H. apply hms_iff in E. exists d. split; [congruence|exact E].
  - intros (d & -> & E). apply hms_iff in E. rewrite E. reflexivity.
Qed.
Lemma parse_los_num h v x : h <> "date" -> h <> "time" -> parse_los h v = Some x <-> exists y, x = LNum y /\ los_number v y.
Proof.
  intros N1 N2. unfold RadiometricsModel.parse_los. apply String.eqb_neq in N1. apply String.eqb_neq in N2. rewrite N1, N2. split.
  - intros H. assert (exists y, x = LNum y) as [y ->].
    { destruct (contains "*" v); [exists None; congruence|]. destruct (to_float v) as [y|]; cbn [option_map] in H; [exists y; congruence|discriminate]. }
    exists y. split; [reflexivity|]. apply los_number_iff. exact H.
  - intros (y & -> & E). apply los_number_iff. exact E.
Qed.
Lemma parse_los_some h v : (exists x, parse_los h v = Some x) <->
  (if String.eqb h "date" then exists d, mdy_text v d
    else if String.eqb h "time" then exists t, hms_text v t
    else exists x, los_number v x).
Proof.
  destruct (String.eqb h "date") eqn:E1; [|destruct (String.eqb h "time") eqn:E2].
  - apply String.eqb_eq in E1. subst h. split.
    + intros [x H]. apply parse_los_date in H as (d & _ & H). eauto.
    + intros [d H]. exists (LDate d). apply parse_los_date. eauto.
  - apply String.eqb_eq in E2. subst h. split.
    + intros [x H]. apply parse_los_time in H as (d & _ & H). eauto.
    + intros [d H]. exists (LTime d). apply parse_los_time. eauto.
  - apply String.eqb_neq in E1. apply String.eqb_neq in E2. split.
    + intros [x H]. apply parse_los_num in H as (d & _ & H); [|assumption..]. eauto.
    + intros [d H]. exists (LNum d). apply parse_los_num; [assumption..|]. eauto.
Qed.

(** ** The header *)
Lemma headers_cases lines :
  (exists pre line rest headers, lines = pre ++ line :: rest /\ words_of line headers /\ header_fields headers /\
     (forall l f, In l pre -> words_of l f -> ~ header_fields f) /\ los_headers lines = Ok (headers, rest)) \/
  ((forall l f, In l lines -> words_of l f -> ~ header_fields f) /\ los_headers lines = Raise RuntimeError).
Proof.
  induction lines as [|line lines IH]; [right; split; [intros l f []|reflexivity]|].
  assert (D : (header_fields (words line) /\ los_headers (line :: lines) = Ok (words line, lines)) \/
              (~ header_fields (words line) /\ los_headers (line :: lines) = los_headers lines)).
  { cbn [los_headers]. destruct (words line) as [|a [|b r]].
    - right. split; [intros [r H]; discriminate|reflexivity].
    - right. split; [intros [r H]; discriminate|reflexivity].
    - destruct (String.eqb a "date" && String.eqb b "time") eqn:E.
      + apply andb_true_iff in E as [E1 E2]. apply String.eqb_eq in E1. apply String.eqb_eq in E2. subst. left. split; [eexists; reflexivity|reflexivity].
      + right. split; [|reflexivity]. intros [r' H]. assert (a = "date" /\ b = "time") as [-> ->] by (split; congruence). discriminate. }
  destruct D as [[D E]|[D E]].
  - left. exists [], line, lines, (words line). split; [reflexivity|]. split; [apply words_exist|]. split; [exact D|]. split; [intros l f []|exact E].
  - assert (D' : forall f, words_of line f -> ~ header_fields f) by (intros f F; apply words_iff in F; subst f; exact D).
    rewrite E. destruct IH as [(pre & l0 & rest & headers & -> & W & H & N & E')|[N E']].
    + left. exists (line :: pre), l0, rest, headers. split; [reflexivity|]. split; [exact W|]. split; [exact H|]. split; [|exact E'].
      intros l f [<-|I] F; [apply D'; exact F|apply (N l f I F)].
    + right. split; [|exact E']. intros l f [<-|I] F; [apply D'; exact F|apply (N l f I F)].
Qed.

(** ** One line *)
Lemma row_cell headers : forall fields row,
  sequence (map2 (fun h c => ok_or ValueError (parse_los h c)) headers fields) = Ok row -> length fields = length headers ->
  forall k h, nth_error headers k = Some h ->
  exists v, nth_error fields k = Some v /\ parse_los h v = Some (nth k row (LNum None)).
Proof.
  induction headers as [|h0 headers IH]; intros [|c fields] row H L; cbn [length] in L; try discriminate.
  - intros [|k] h X; discriminate.
  - cbn [map2 sequence] in H. apply bind_ok in H as (x & E & H). apply bind_ok in H as (xs & Es & H). apply ok_or_ok in E.
    assert (row = x :: xs) by congruence. subst row. intros [|k] h X; cbn [nth_error nth] in *.
    + exists c. split; [reflexivity|]. congruence.
    + apply (IH fields xs Es); [lia|exact X].
Qed.
Lemma row_readable headers : forall fields, length fields = length headers ->
  (exists row, sequence (map2 (fun h c => ok_or ValueError (parse_los h c)) headers fields) = Ok row) /\ readable headers fields \/
  sequence (map2 (fun h c => ok_or ValueError (parse_los h c)) headers fields) = Raise ValueError /\ ~ readable headers fields.
Proof.
  induction headers as [|h headers IH]; intros [|c fields] L; cbn [length] in L; try discriminate.
  - left. split; [exists []; reflexivity|]. intros [|k] h v X; discriminate.
  - cbn [map2 sequence]. destruct (parse_los h c) as [x|] eqn:E; cbn [ok_or bind].
    + assert (X : exists x, parse_los h c = Some x) by eauto. apply parse_los_some in X.
      destruct (IH fields) as [[[row Er] R]|[Er R]]; [lia| |].
      * rewrite Er. cbn [bind]. left. split; [eauto|]. intros [|k] h' v A B; cbn [nth_error] in A, B.
        -- assert (h' = h) by congruence. assert (v = c) by congruence. subst. exact X.
        -- apply (R k h' v A B).
      * rewrite Er. cbn [bind]. right. split; [reflexivity|]. intros R'. apply R. intros k h' v A B. apply (R' (Datatypes.S k) h' v A B).
    + right. split; [reflexivity|]. intros R. specialize (R 0 h c eq_refl eq_refl). apply parse_los_some in R as [x R]. congruence.
Qed.
Lemma zenith_bool e b23 b31 : is_zenith e && RadiometricsModel.positive b23 && RadiometricsModel.positive b31 = true <->
  exists e' x y, e = Some e' /\ b23 = Some x /\ b31 = Some y /\ (89 < e')%Q /\ (e' < 91)%Q /\ (0 < x)%Q /\ (0 < y)%Q.
Proof.
  rewrite !andb_true_iff. split.
  - intros [[Z A] B]. destruct e as [e|]; [|discriminate]. destruct b23 as [x|]; [|discriminate]. destruct b31 as [y|]; [|discriminate].
    cbn [is_zenith RadiometricsModel.positive] in Z, A, B. apply qlt_iff in Z. apply qgt_iff in A. apply qgt_iff in B. apply Qabs_Qlt_condition in Z as [Z1 Z2].
    exists e, x, y. repeat (split; [reflexivity|]). repeat split; lra.
  - intros (e' & x & y & -> & -> & -> & A & B & C & D). cbn [is_zenith RadiometricsModel.positive]. split; [split|].
    + apply qlt_iff. apply Qabs_Qlt_condition. split; lra.
    + apply qgt_iff. exact C.
    + apply qgt_iff. exact D.
Qed.

Section Columns.
Variables (headers : list string) (kd kt kl kv ke k23 k31 : nat).
Hypothesis Hd : nth_error headers kd = Some "date".
Hypothesis Ht : nth_error headers kt = Some "time".
Hypothesis Hl : nth_error headers kl = Some "LiqCM".
Hypothesis Hv : nth_error headers kv = Some "VapCM".
Hypothesis He : nth_error headers ke = Some "ELact".
Hypothesis H23 : nth_error headers k23 = Some "TbSky23".
Hypothesis H31 : nth_error headers k31 = Some "TbSky31".
Let at_ k row : los_value := nth k row (LNum None).
Definition good (row : list los_value) : bool :=
  is_zenith (los_num (at_ ke row)) && RadiometricsModel.positive (los_num (at_ k23 row)) && RadiometricsModel.positive (los_num (at_ k31 row)).
Lemma line_ok fields row : sequence (map2 (fun h c => ok_or ValueError (parse_los h c)) headers fields) = Ok row ->
  length fields = length headers ->
  los_line headers fields (good row = true) (los_time (at_ kd row) (at_ kt row))
    (scale 10 (los_num (at_ kl row))) (scale 10 (los_num (at_ kv row))).
Proof.
  intros H L. assert (C := row_cell headers fields row H L). unfold good, at_.
  destruct (C kd _ Hd) as (vd & Fd & Pd). destruct (C kt _ Ht) as (vt & Ft & Pt). destruct (C kl _ Hl) as (vl & Fl & Pl).
  destruct (C kv _ Hv) as (vv & Fv & Pv). destruct (C ke _ He) as (ve & Fe & Pe). destruct (C k23 _ H23) as (v23 & F23 & P23).
  destruct (C k31 _ H31) as (v31 & F31 & P31).
  apply parse_los_date in Pd as (d & Xd & Pd). apply parse_los_time in Pt as (s & Xt & Pt).
  apply parse_los_num in Pl as (l & Xl & Pl); [|discriminate..]. apply parse_los_num in Pv as (w & Xv & Pv); [|discriminate..].
  apply parse_los_num in Pe as (e & Xe & Pe); [|discriminate..]. apply parse_los_num in P23 as (b23 & X23 & P23); [|discriminate..].
  apply parse_los_num in P31 as (b31 & X31 & P31); [|discriminate..].
  rewrite Xd, Xt, Xl, Xv, Xe, X23, X31. cbn [los_time los_num].
  exists vd, vt, vl, vv, ve, v23, v31, d, s, l, w, e, b23, b31. unfold field.
  split; [eauto|]. split; [exact Pd|]. split; [eauto|]. split; [exact Pt|]. split; [lia|].
  split; [eauto|]. split; [exact Pl|]. split; [apply scale_scaled|]. split; [eauto|]. split; [exact Pv|]. split; [apply scale_scaled|].
  split; [eauto|]. split; [exact Pe|]. split; [eauto|]. split; [exact P23|]. split; [eauto|]. split; [exact P31|]. apply zenith_bool.
Qed.
Definition observation (row : list los_value) : Z * (masked Q * masked Q) :=
  (los_time (at_ kd row) (at_ kt row), (scale 10 (los_num (at_ kl row)), scale 10 (los_num (at_ kv row)))).
Lemma los_line_iff fields P P' t a b : (P <-> P') -> los_line headers fields P t a b -> los_line headers fields P' t a b.
Proof.
  intros H (vd & vt & vl & vv & ve & v23 & v31 & d & s & l & w & e & b23 & b31 & R).
  exists vd, vt, vl, vv, ve, v23, v31, d, s, l, w, e, b23, b31.
  do 17 (destruct R as [? R]; split; [assumption|]). rewrite <- H. exact R.
Qed.
Lemma data_ok lines : forall rows, los_rows headers lines = Ok rows -> los_data headers lines (map observation (filter good rows)).
Proof.
  unfold RadiometricsModel.los_rows. induction lines as [|line lines IH]; intros rows H; cbn [map filter] in H.
  - cbn [map sequence] in H. assert (rows = []) by congruence. subst rows. constructor.
  - assert (W := words_exist line). destruct (length (words line) =? length headers) eqn:L.
    + apply Nat.eqb_eq in L. cbn [map sequence] in H. apply bind_ok in H as (row & E & H). apply bind_ok in H as (more & Es & H).
      assert (rows = row :: more) by congruence. subst rows. assert (X := line_ok _ _ E L). cbn [filter]. destruct (good row) eqn:G.
      * cbn [map]. unfold observation at 1. eapply los_good; [exact W|exact L| |apply IH; exact Es]. apply (los_line_iff (words line) (true = true) True); [tauto|exact X].
      * eapply los_bad; [exact W|exact L| |apply IH; exact Es]. apply (los_line_iff (words line) (false = true) False); [split; [discriminate|tauto]|exact X].
    + apply Nat.eqb_neq in L. eapply los_other; [exact W|exact L|]. apply IH. exact H.
Qed.
End Columns.

Lemma rows_cases headers lines :
  (exists rows, los_rows headers lines = Ok rows) /\
    (forall l f, In l lines -> words_of l f -> length f = length headers -> readable headers f) \/
  los_rows headers lines = Raise ValueError /\
    exists l f, In l lines /\ words_of l f /\ length f = length headers /\ ~ readable headers f.
Proof.
  unfold RadiometricsModel.los_rows. induction lines as [|line lines IH]; cbn [map filter].
  - left. split; [exists []; reflexivity|]. intros l f [].
  - assert (W : forall f, words_of line f -> f = words line) by (intros f F; apply words_iff in F; congruence).
    destruct (length (words line) =? length headers) eqn:L.
    + apply Nat.eqb_eq in L. cbn [map sequence]. destruct (row_readable headers (words line) L) as [[[row E] R]|[E R]].
      * rewrite E. cbn [bind]. destruct IH as [[[rows Es] Rs]|[Es (l & f & I & F & Lf & N)]].
        -- rewrite Es. cbn [bind]. left. split; [eauto|]. intros l f [<-|I] F Lf; [rewrite (W f F); exact R|apply (Rs l f I F Lf)].
        -- rewrite Es. cbn [bind]. right. split; [reflexivity|]. exists l, f. split; [right; exact I|]. auto.
      * rewrite E. cbn [bind]. right. split; [reflexivity|]. exists line, (words line). split; [left; reflexivity|]. split; [apply words_exist|]. auto.
    + apply Nat.eqb_neq in L. destruct IH as [[E Rs]|[Es (l & f & I & F & Lf & N)]].
      * left. split; [exact E|]. intros l f [<-|I] F Lf; [rewrite (W f F) in Lf; contradiction|apply (Rs l f I F Lf)].
      * right. split; [exact Es|]. exists l, f. split; [right; exact I|]. auto.
Qed.

Lemma column_eq headers rows h : (exists k, nth_error headers k = Some h /\
    los_column headers rows h = Ok (map (fun row => nth k row (LNum None)) rows)) \/
  (~ In h headers /\ los_column headers rows h = Raise KeyError).
Proof.
  unfold los_column. destruct (position h headers) as [k|] eqn:E; cbn [ok_or bind].
  - left. exists k. split; [apply position_some; exact E|reflexivity].
  - right. apply position_none in E. auto.
Qed.
Lemma read_wvr_cases lines :
  (exists pre line rest headers, lines = pre ++ line :: rest /\ words_of line headers /\ header_fields headers /\
     (forall l f, In l pre -> words_of l f -> ~ header_fields f) /\
     ((exists out, incl needed headers /\
         (forall l f, In l rest -> words_of l f -> length f = length headers -> readable headers f) /\
         los_data headers rest out /\
         read_wvr to_int to_float ordinal lines =
           Ok (map fst out, map (fun o => fst (snd o)) out, map (fun o => snd (snd o)) out)) \/
      (read_wvr to_int to_float ordinal lines = Raise ValueError /\
         exists l f, In l rest /\ words_of l f /\ length f = length headers /\ ~ readable headers f) \/
      (read_wvr to_int to_float ordinal lines = Raise KeyError /\ ~ incl needed headers /\
         (forall l f, In l rest -> words_of l f -> length f = length headers -> readable headers f)))) \/
  ((forall l f, In l lines -> words_of l f -> ~ header_fields f) /\ read_wvr to_int to_float ordinal lines = Raise RuntimeError).
Proof.
  unfold RadiometricsModel.read_wvr.
  destruct (headers_cases lines) as [(pre & line & rest & headers & -> & W & H & N & E)|[N E]]; [|right; rewrite E; auto].
  left. exists pre, line, rest, headers. split; [reflexivity|]. split; [exact W|]. split; [exact H|]. split; [exact N|].
  rewrite E. cbn [bind]. destruct (rows_cases headers rest) as [[[rows Er] R]|[Er R]]; [|right; left; rewrite Er; auto].
  rewrite Er. cbn [bind].
  assert (Miss : forall h, In h needed -> ~ In h headers -> ~ incl needed headers) by (intros h I M X; apply M, X, I).
  destruct (column_eq headers rows "date") as [(kd & Hd & Ed)|[M Ed]]; rewrite Ed; cbn [bind];
    [|right; right; split; [reflexivity|]; split; [apply (Miss "date"); [cbn; auto 12|exact M]|exact R]].
  destruct (column_eq headers rows "time") as [(kt & Ht & Et)|[M Et]]; rewrite Et; cbn [bind];
    [|right; right; split; [reflexivity|]; split; [apply (Miss "time"); [cbn; auto 12|exact M]|exact R]].
  destruct (column_eq headers rows "LiqCM") as [(kl & Hl & El)|[M El]]; rewrite El; cbn [bind];
    [|right; right; split; [reflexivity|]; split; [apply (Miss "LiqCM"); [cbn; auto 12|exact M]|exact R]].
  destruct (column_eq headers rows "VapCM") as [(kv & Hv & Ev)|[M Ev]]; rewrite Ev; cbn [bind];
    [|right; right; split; [reflexivity|]; split; [apply (Miss "VapCM"); [cbn; auto 12|exact M]|exact R]].
  destruct (column_eq headers rows "ELact") as [(ke & He & Ee)|[M Ee]]; rewrite Ee; cbn [bind];
    [|right; right; split; [reflexivity|]; split; [apply (Miss "ELact"); [cbn; auto 12|exact M]|exact R]].
  destruct (column_eq headers rows "TbSky23") as [(k23 & H23 & E23)|[M E23]]; rewrite E23; cbn [bind];
    [|right; right; split; [reflexivity|]; split; [apply (Miss "TbSky23"); [cbn; auto 12|exact M]|exact R]].
  destruct (column_eq headers rows "TbSky31") as [(k31 & H31 & E31)|[M E31]]; rewrite E31; cbn [bind];
    [|right; right; split; [reflexivity|]; split; [apply (Miss "TbSky31"); [cbn; auto 12|exact M]|exact R]].
  left. exists (map (observation kd kt kl kv) (filter (good ke k23 k31) rows)). split.
  { intros h I. cbn [needed In] in I.
    repeat (destruct I as [<-|I]; [eapply nth_error_In; eassumption|]). destruct I. }
  split; [exact R|]. split; [apply (data_ok headers); assumption|].
  rewrite !map_map. rewrite !map2_maps. cbv zeta. rewrite !select_maps. reflexivity.
Qed.
End Proofs.
