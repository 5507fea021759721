(** Properties C186 and C187: sources of the variables of a categorize file, references. *)
From Verif Require Import Base OriginModel OriginSpec OriginProofs.
From Coq Require Import String.
Open Scope string_scope.
Open Scope list_scope.

(** ** C186: sources *)

(** After any earlier calls in the same process, failed or not, the source written to a
    variable is that of the instrument of this call that the variable comes from, and
    there is none for other variables.  ("lwp" is in a file only if there is a radiometer.) *)
Theorem C186_source : forall common d0 history date o d',
  (forall k m, common k = Some m -> m_source m = None) -> (forall k m, d0 k = Some m -> m_source m = None) ->
  one_run common (date, o) (earlier common history d0) = (d', None) ->
  forall k s, (k = "lwp" -> o_mwr o <> None) ->
  (written m_source common d' k None = Some s <->
   s <> "" /\ exists g, comes_from (o_radar o) (o_lidar o) (o_model o) (o_mwr o) (o_disdrometer o) k g /\ g_source g = Some s).
Proof.
  intros c d0 h date o d' Nc Nd H k s W.
  pose proof (kept_earlier c d0 h d0 (kept_refl c d0)) as K. set (d := earlier c h d0) in *.
  assert (A : match c k with Some m => overwrite None (m_source m) | None => None end = None).
  { destruct (c k) as [m|] eqn:E; [|reflexivity]. rewrite (Nc _ _ E). reflexivity. }
  cbv zeta in A. unfold written. rewrite A. clear A.
  assert (L0 : forall m0, lookup c d0 k = Some m0 -> m_source m0 = None).
  { intros m0 L. unfold lookup in L. destruct (d0 k) as [m|] eqn:E; [|exact (Nc _ _ L)]. assert (m = m0) by congruence. subst. exact (Nd _ _ E). }
  assert (N0 : ~ In k named -> forall m, lookup c d k = Some m -> m_source m = None).
  { intros N m L. destruct (kept_lookup _ _ _ _ _ K L) as (m0 & L1 & _ & _ & S). destruct (S N) as [-> _]. exact (L0 _ L1). }
  pose proof (run_ok _ _ _ _ _ H k) as R. pose proof (last_iff o k) as I. unfold of_instruments in I.
  destruct (last_of (source_table o) k) as [g|] eqn:E.
  - destruct R as (m & L & ->). cbn [upd m_source]. split.
    + intros O. unfold overwrite in O. destruct (g_source g) as [t|] eqn:G; [|discriminate]. destruct (String.eqb_spec t ""); [discriminate|].
      assert (t = s) by congruence. subst. split; [assumption|]. exists g. split; [apply I; reflexivity|exact G].
    + intros [Ns (g' & C & G)]. apply I in C. assert (g' = g) by congruence. subst g'. rewrite G. cbn [overwrite].
      destruct (String.eqb_spec s ""); [contradiction|reflexivity].
  - assert (Nk : ~ In k named).
    { intros J. destruct (last_comes o k) as [(g & E' & _)|[_ X]]; [congruence|]. apply X. unfold of_instruments.
      unfold named in J. rewrite !in_app_iff in J. destruct J as [J|[J|[J|J]]].
      - eexists. apply From_radar, J.
      - eexists. apply From_lidar, J.
      - eexists. apply From_model, J.
      - cbn in J. destruct J as [<-|[<-|[]]].
        + specialize (W eq_refl). destruct (o_mwr o) as [x|]; [|contradiction]. exists x. apply From_mwr. reflexivity.
        + destruct (o_disdrometer o) as [x|]; eexists; [apply From_disdrometer; reflexivity|apply From_radar_rain; reflexivity]. }
    assert (T : match d' k with Some m => overwrite None (m_source m) | None => None end = None).
    { destruct (in_dec string_dec k ["time"; "model_time"]).
      - destruct R as (m & L & ->). cbn [m_source]. rewrite (N0 Nk _ L). reflexivity.
      - rewrite R. destruct (d k) as [m|] eqn:D; [|reflexivity]. assert (L : lookup c d k = Some m) by (unfold lookup; rewrite D; reflexivity).
        rewrite (N0 Nk _ L). reflexivity. }
    rewrite T. split; [discriminate|]. intros [_ (g & C & _)]. apply I in C. discriminate.
Qed.
Print Assumptions C186_source.

(** The same for the persistent identifier of the instrument: none is left over from
    earlier calls if the instrument of this call has none. *)
Theorem C186_pid : forall common d0 history date o d',
  (forall k m, common k = Some m -> m_pid m = None) -> (forall k m, d0 k = Some m -> m_pid m = None) ->
  one_run common (date, o) (earlier common history d0) = (d', None) ->
  forall k s, (k = "lwp" -> o_mwr o <> None) ->
  (written m_pid common d' k None = Some s <->
   s <> "" /\ exists g, comes_from (o_radar o) (o_lidar o) (o_model o) (o_mwr o) (o_disdrometer o) k g /\ g_pid g = Some s).
Proof.
  intros c d0 h date o d' Nc Nd H k s W.
  pose proof (kept_earlier c d0 h d0 (kept_refl c d0)) as K. set (d := earlier c h d0) in *.
  assert (A : match c k with Some m => overwrite None (m_pid m) | None => None end = None).
  { destruct (c k) as [m|] eqn:E; [|reflexivity]. rewrite (Nc _ _ E). reflexivity. }
  cbv zeta in A. unfold written. rewrite A. clear A.
  assert (L0 : forall m0, lookup c d0 k = Some m0 -> m_pid m0 = None).
  { intros m0 L. unfold lookup in L. destruct (d0 k) as [m|] eqn:E; [|exact (Nc _ _ L)]. assert (m = m0) by congruence. subst. exact (Nd _ _ E). }
  assert (N0 : ~ In k named -> forall m, lookup c d k = Some m -> m_pid m = None).
  { intros N m L. destruct (kept_lookup _ _ _ _ _ K L) as (m0 & L1 & _ & _ & S). destruct (S N) as [_ ->]. exact (L0 _ L1). }
  pose proof (run_ok _ _ _ _ _ H k) as R. pose proof (last_iff o k) as I. unfold of_instruments in I.
  destruct (last_of (source_table o) k) as [g|] eqn:E.
  - destruct R as (m & L & ->). cbn [upd m_pid]. split.
    + intros O. unfold overwrite in O. destruct (g_pid g) as [t|] eqn:G; [|discriminate]. destruct (String.eqb_spec t ""); [discriminate|].
      assert (t = s) by congruence. subst. split; [assumption|]. exists g. split; [apply I; reflexivity|exact G].
    + intros [Ns (g' & C & G)]. apply I in C. assert (g' = g) by congruence. subst g'. rewrite G. cbn [overwrite].
      destruct (String.eqb_spec s ""); [contradiction|reflexivity].
  - assert (Nk : ~ In k named).
    { intros J. destruct (last_comes o k) as [(g & E' & _)|[_ X]]; [congruence|]. apply X. unfold of_instruments.
      unfold named in J. rewrite !in_app_iff in J. destruct J as [J|[J|[J|J]]].
      - eexists. apply From_radar, J.
      - eexists. apply From_lidar, J.
      - eexists. apply From_model, J.
      - cbn in J. destruct J as [<-|[<-|[]]].
        + specialize (W eq_refl). destruct (o_mwr o) as [x|]; [|contradiction]. exists x. apply From_mwr. reflexivity.
        + destruct (o_disdrometer o) as [x|]; eexists; [apply From_disdrometer; reflexivity|apply From_radar_rain; reflexivity]. }
    assert (T : match d' k with Some m => overwrite None (m_pid m) | None => None end = None).
    { destruct (in_dec string_dec k ["time"; "model_time"]).
      - destruct R as (m & L & ->). cbn [m_pid]. rewrite (N0 Nk _ L). reflexivity.
      - rewrite R. destruct (d k) as [m|] eqn:D; [|reflexivity]. assert (L : lookup c d k = Some m) by (unfold lookup; rewrite D; reflexivity).
        rewrite (N0 Nk _ L). reflexivity. }
    rewrite T. split; [discriminate|]. intros [_ (g & C & _)]. apply I in C. discriminate.
Qed.
Print Assumptions C186_pid.

(** The units of both times name the date of this call. *)
Theorem C186_time : forall common d date o d', one_run common (date, o) d = (d', None) ->
  forall k own, k = "time" \/ k = "model_time" ->
  written m_units common d' k own = Some ("hours since " ++ date ++ " 00:00:00 +00:00")%string.
Proof.
  intros c d date o d' H k own T. pose proof (run_ok _ _ _ _ _ H k) as R.
  assert (E : last_of (source_table o) k = None).
  { destruct (last_of (source_table o) k) as [g|] eqn:E; [|reflexivity]. apply last_iff in E. exfalso. unfold of_instruments in E.
    destruct E as [k J|k J|k J| | |]; try (unfold radar_variables, lidar_variables, model_variables in J; cbn in J); intuition (subst; discriminate). }
  rewrite E in R. destruct (in_dec string_dec k ["time"; "model_time"]) as [_|N]; [|exfalso; apply N; destruct T as [-> | ->]; cbn; auto].
  destruct R as (m & _ & D). unfold written. rewrite D. reflexivity.
Qed.
Print Assumptions C186_time.

(** Nothing else depends on the instruments, the date or earlier calls: names, comments and
    the like, and the units of everything else. *)
Theorem C186_rest : forall common d0 history date o d', one_run common (date, o) (earlier common history d0) = (d', None) ->
  forall k m, d' k = Some m -> exists m0, (d0 k = Some m0 \/ (d0 k = None /\ common k = Some m0)) /\
  m_rest m = m_rest m0 /\ (k <> "time" -> k <> "model_time" -> m_units m = m_units m0).
Proof.
  intros c d0 h date o d' H k m D. pose proof (kept_run c d0 (date, o) _ (kept_earlier c d0 h d0 (kept_refl c d0))) as K.
  rewrite H in K. cbn [fst] in K. specialize (K k). rewrite D in K. destruct K as (m0 & L & R & U & _). exists m0. split; [|split; assumption].
  unfold lookup in L. destruct (d0 k); [left; congruence|right; auto].
Qed.
Print Assumptions C186_rest.

(** If all names have metadata the call fails exactly if an input file has no source. *)
Theorem C186_error : forall common d0 history date o e,
  (forall k, In k ("time" :: "model_time" :: named) -> d0 k <> None \/ common k <> None) ->
  (snd (one_run common (date, o) (earlier common history d0)) = Some e <->
   e = AttributeError /\ exists g, g_source g = None /\
     (g = o_radar o \/ g = o_lidar o \/ g = o_model o \/ o_mwr o = Some g \/ o_disdrometer o = Some g)).
Proof.
  intros c d0 h date o e N.
  assert (N' : forall k, In k ("time" :: "model_time" :: named) -> known c (earlier c h d0) k).
  { intros k I. apply (known_kept c d0); [apply kept_earlier, kept_refl|]. unfold known, lookup. destruct (N k I) as [A|A]; destruct (d0 k); try congruence. }
  rewrite run_error by (try apply N'; try (apply Forall_forall; intros k I; apply N'); cbn; auto).
  destruct o as [ra li mo mw di]. cbn [source_table o_radar o_lidar o_model o_mwr o_disdrometer existsb fst].
  split.
  - match goal with |- (if ?b then _ else _) = _ -> _ => destruct b eqn:B; [|discriminate] end. intros E. split; [congruence|].
    rewrite !orb_true_iff in B.
    destruct B as [B|[B|[B|[B|[B|B]]]]]; [exists ra|exists li|destruct mw as [g|]; [exists g|discriminate]|exists mo|destruct di as [g|]; [exists g|discriminate]|discriminate];
      (split; [destruct (g_source _); [discriminate|reflexivity]|auto 7]).
  - intros [-> (g & G & D)].
    match goal with |- (if ?b then _ else _) = _ => assert (B : b = true); [|rewrite B; reflexivity] end.
    rewrite !orb_true_iff. destruct D as [ -> | [ -> | [ -> | [ -> | -> ]]]]; rewrite G; auto 9.
Qed.
Print Assumptions C186_error.

Definition plain : meta := {| m_rest := 0; m_units := None; m_source := None; m_pid := None |}.
Definition of_names (l : list string) : dict := fun k => if in_dec string_dec k l then Some plain else None.
Definition from (s p : option string) : origin := {| g_source := s; g_pid := p |}.

(** A second call, after one with a radiometer and a failed one. *)
Example C186_nonvacuous :
  let common := of_names ["time"; "v"; "width"; "rainfall_rate"; "radar_frequency"] in
  let d0 := of_names ("model_time" :: named) in
  let a := {| o_radar := from (Some "mira") (Some "pid1"); o_lidar := from (Some "chm15k") None; o_model := from (Some "ecmwf") None;
              o_mwr := Some (from (Some "hatpro") (Some "pid2")); o_disdrometer := Some (from (Some "parsivel") (Some "pid3")) |} in
  let b := {| o_radar := from (Some "rpg") None; o_lidar := from None None; o_model := from (Some "ecmwf") None; o_mwr := None; o_disdrometer := None |} in
  let o := {| o_radar := from (Some "basta") None; o_lidar := from (Some "cl61") None; o_model := from (Some "icon") None; o_mwr := None; o_disdrometer := None |} in
  let h := [("2020-01-01", a); ("2020-01-02", b)] in
  snd (one_run common ("2020-01-02", b) (earlier common [("2020-01-01", a)] d0)) = Some AttributeError /\
  exists d', one_run common ("2020-01-03", o) (earlier common h d0) = (d', None) /\
  map (fun k => written m_source common d' k None) ["v"; "beta"; "rainfall_rate"; "category_bits"] = [Some "basta"; Some "cl61"; Some "basta"; None] /\
  written m_pid common d' "rainfall_rate" None = None /\
  written m_units common d' "model_time" None = Some "hours since 2020-01-03 00:00:00 +00:00".
Proof. cbv zeta. split; [reflexivity|]. eexists. split; [reflexivity|]. repeat split. Qed.

(** Without the condition on "lwp": the dictionary still names the radiometer of an earlier
    call.  (The variable is not written then.) *)
Theorem C186_forgotten_refuted : exists common d0 history date o d' s,
  (forall k m, common k = Some m -> m_source m = None) /\ (forall k m, d0 k = Some m -> m_source m = None) /\
  o_mwr o = None /\
  one_run common (date, o) (earlier common history d0) = (d', None) /\
  written m_source common d' "lwp" None = Some s.
Proof.
  exists (of_names []), (of_names ("time" :: "model_time" :: named)),
    [("2020-01-01", {| o_radar := from (Some "mira") None; o_lidar := from (Some "chm15k") None; o_model := from (Some "ecmwf") None;
        o_mwr := Some (from (Some "hatpro") None); o_disdrometer := None |})], "2020-01-02",
    {| o_radar := from (Some "mira") None; o_lidar := from (Some "chm15k") None; o_model := from (Some "ecmwf") None; o_mwr := None; o_disdrometer := None |}.
  eexists. exists "hatpro". split; [|split]; [unfold of_names; intros k m E; destruct (in_dec _ _ _) in E; [assert (m = plain) by congruence; subst; reflexivity|discriminate]..|].
  split; [reflexivity|]. split; [reflexivity|]. reflexivity.
Qed.
Print Assumptions C186_forgotten_refuted.

(** The disdrometer gives two variables of the file, but only the rain rate names it: the
    present weather has no source. *)
Theorem C186_present_weather_refuted : exists common d0 date o d',
  (forall k m, common k = Some m -> m_source m = None) /\ (forall k m, d0 k = Some m -> m_source m = None) /\
  one_run common (date, o) d0 = (d', None) /\
  written m_source common d' "rainfall_rate" None = Some "parsivel" /\
  written m_source common d' "synop_WaWa" None = None.
Proof.
  exists (of_names ["synop_WaWa"]), (of_names ("time" :: "model_time" :: named)), "2020-01-02",
    {| o_radar := from (Some "mira") None; o_lidar := from (Some "chm15k") None; o_model := from (Some "ecmwf") None; o_mwr := None;
       o_disdrometer := Some (from (Some "parsivel") None) |}.
  eexists. split; [|split]; [unfold of_names; intros k m E; destruct (in_dec _ _ _) in E; [assert (m = plain) by congruence; subst; reflexivity|discriminate]..|].
  split; [reflexivity|]. split; reflexivity.
Qed.
Print Assumptions C186_present_weather_refuted.

(** ** C187: references *)

Definition given (extra : option (list string)) : list string := match extra with Some l => l | None => [] end.

Theorem C187_references : forall product extra t,
  get_references (Some product) extra = t <->
  exists l, cited product l /\ listed (software :: l ++ given extra) t.
Proof.
  intros i extra t. destruct (product_cited i) as (l & C & E). unfold get_references. rewrite E.
  assert (F : match extra with None => String.concat ", " (software :: l) | Some x => fold_left (fun t r => t ++ ", " ++ r)%string x (String.concat ", " (software :: l)) end = String.concat ", " (software :: l ++ given extra)).
  { destruct extra as [x|]; cbn [given]; [rewrite fold_concat by discriminate; reflexivity|rewrite app_nil_r; reflexivity]. }
  rewrite F. split.
  - intros <-. exists l. split; [exact C|]. apply listed_iff. split; [discriminate|reflexivity].
  - intros (l' & C' & L). rewrite (cited_unique _ _ _ C' C) in L. apply listed_iff in L as [_ ->]. reflexivity.
Qed.
Print Assumptions C187_references.

Theorem C187_no_product : forall extra t, get_references None extra = t <-> listed (software :: given extra) t.
Proof.
  intros extra t. rewrite listed_iff. unfold get_references. change ("https://doi.org/10.21105/joss.02123" ++ "")%string with (String.concat ", " [software]).
  assert (F : match extra with None => String.concat ", " [software] | Some x => fold_left (fun t r => t ++ ", " ++ r)%string x (String.concat ", " [software]) end = String.concat ", " (software :: given extra)).
  { destruct extra as [x|]; cbn [given]; [rewrite fold_concat by discriminate; reflexivity|reflexivity]. }
  rewrite F. split; [intros <-; split; [discriminate|reflexivity]|intros [_ ->]; reflexivity].
Qed.
Print Assumptions C187_no_product.

(** A categorize file without liquid probabilities of Voodoo. *)
Theorem C187_categorize : forall names t, ~ In "liquid_prob" names ->
  (categorize_references names = t <-> listed [software; doi "10.1175/BAMS-88-6-883"] t).
Proof.
  intros names t N. unfold categorize_references, categorize_type.
  assert (E : is_voodoo names = false).
  { unfold is_voodoo. destruct (existsb _ names) eqn:E; [|reflexivity]. apply existsb_exists in E as (x & I & X). apply String.eqb_eq in X. subst. contradiction. }
  rewrite E, C187_references. cbn [given]. split.
  - intros (l & C & L). assert (C1 : cited "categorize" [doi "10.1175/BAMS-88-6-883"]) by (left; eexists; split; [left; reflexivity|reflexivity]).
    rewrite (cited_unique _ _ _ C C1) in L. exact L.
  - intros L. exists [doi "10.1175/BAMS-88-6-883"]. split; [left; eexists; split; [left; reflexivity|reflexivity]|exact L].
Qed.
Print Assumptions C187_categorize.

(** With them the article on Voodoo is cited, but that on the categorization no more. *)
Theorem C187_voodoo : forall names t, In "liquid_prob" names ->
  (categorize_references names = t <-> listed [software; doi "10.5194/amt-15-5343-2022"] t).
Proof.
  intros names t N. unfold categorize_references, categorize_type.
  assert (E : is_voodoo names = true) by (apply existsb_exists; exists "liquid_prob"; split; [exact N|reflexivity]).
  rewrite E, C187_references. cbn [given].
  assert (C1 : cited "categorize-voodoo" []) by (right; split; [cbn; intuition discriminate|reflexivity]). split.
  - intros (l & C & L). rewrite (cited_unique _ _ _ C C1) in L. exact L.
  - intros L. exists []. split; [exact C1|exact L].
Qed.
Print Assumptions C187_voodoo.
Theorem C187_voodoo_refuted : exists names, In "liquid_prob" names /\
  forall before after, categorize_references names <> (before ++ doi "10.1175/BAMS-88-6-883" ++ after)%string.
Proof.
  exists ["Z"; "liquid_prob"]. split; [right; left; reflexivity|]. intros before after H.
  pose proof (occurs_app (doi "10.1175/BAMS-88-6-883") before after) as O. rewrite <- H in O. discriminate O.
Qed.
Print Assumptions C187_voodoo_refuted.

Example C187_nonvacuous :
  get_references (Some "ier") (Some ["A"; "B"]) =
    "https://doi.org/10.21105/joss.02123, https://doi.org/10.1175/JAM2340.1, https://doi.org/10.1175/JAM2543.1, https://doi.org/10.5194/amt-13-5335-2020, A, B" /\
  get_references (Some "classification") None = "https://doi.org/10.21105/joss.02123".
Proof. split; reflexivity. Qed.
