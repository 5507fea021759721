(** Lemmas about what a figure shows. *)
From Verif Require Import Base GridModel GridProofs DropletModel DropletSpec DropletProofs SiteModel SiteSpec SiteProofs TelegramProofs OutputProofs FigModel FigSpec.
From Coq Require Import String Ascii Lqa Qabs.
Open Scope string_scope.
Open Scope nat_scope.
Open Scope list_scope.
Local Notation length := List.length (only parsing).

(** ** Variables *)

Lemma mem_name_iff : forall x l, mem_name x l = true <-> In x l.
Proof.
  intros x. induction l as [|y l IH]; cbn [mem_name In]; [split; [discriminate|intros []]|]. rewrite orb_true_iff, IH, String.eqb_eq. split; intros [H|H]; auto.
Qed.
Lemma prefix_app : forall p s, String.prefix p s = true -> exists r, s = (p ++ r)%string.
Proof.
  induction p as [|c p IH]; intros s H; [exists s; reflexivity|]. destruct s as [|d s]; [discriminate|]. cbn in H. destruct (ascii_dec c d) as [<-|]; [|discriminate]. destruct (IH s H) as (r & ->). exists r. reflexivity.
Qed.
Lemma prefix_split : forall p name, p = "tb" \/ p = "irt" ->
  (String.prefix (p ++ "_") name = true <-> exists field rest, split_on "_" name = p :: field :: rest).
Proof.
  intros p name P. split.
  - intros H. assert (E : exists r, name = (p ++ String "_" r)%string).
    { apply prefix_app in H as (r & ->). exists r. destruct P; subst p; reflexivity. }
    destruct E as (r & ->). destruct (split_on "_" r) as [|f rest] eqn:Er; [exfalso; exact (split_on_nonempty _ _ Er)|].
    exists f, rest. destruct P; subst p; cbn; rewrite Er; reflexivity.
  - intros (f & rest & E). apply split_on_iff in E as (_ & _ & ->). destruct P; subst p; cbn; repeat (destruct (ascii_dec _ _); [|congruence]); destruct rest, f; reflexivity.
Qed.
Lemma with_field_prefix : forall name, (String.prefix "tb_" name || String.prefix "irt_" name = true) <-> exists x field, with_field name x field.
Proof.
  intros name. rewrite orb_true_iff. rewrite (prefix_split "tb" name) by auto. rewrite (prefix_split "irt" name) by auto. split.
  - intros [(f & r & E)|(f & r & E)]; apply split_on_iff in E; eexists; exists f; (split; [|exists r; exact E]); auto.
  - intros (x & f & [X|X] & r & E); subst x; apply split_on_iff in E; [left|right]; exists f, r; exact E.
Qed.
Lemma with_field_nth : forall name x field, with_field name x field -> nth 0 (split_on "_" name) "" = x /\ nth 1 (split_on "_" name) "" = field.
Proof. intros name x f (_ & r & E). apply split_on_iff in E. rewrite E. auto. Qed.
Lemma extract_asks : forall name x i, extract name = Some (x, i) <-> asks name x i.
Proof.
  intros name x i. unfold extract. pose proof (with_field_prefix name) as W. destruct (String.prefix "tb_" name || String.prefix "irt_" name).
  - destruct (proj1 W eq_refl) as (x0 & f0 & F). destruct (with_field_nth _ _ _ F) as [-> ->]. split.
    + destruct (parse_int f0) as [z|] eqn:Z; [|discriminate]. intros H. assert (x = x0) by congruence. assert (i = Some z) by congruence. subst. apply (AsksChannel name x0 f0); [exact F|apply parse_int_iff, Z].
    + intros H. destruct H as [x f z F' Z|N]; [|exfalso; apply N; exists x0, f0; exact F]. destruct (with_field_nth _ _ _ F) as [E1 E2]. destruct (with_field_nth _ _ _ F') as [E3 E4].
      assert (x = x0) by congruence. assert (f = f0) by congruence. subst. apply parse_int_iff in Z. rewrite Z. reflexivity.
  - assert (N : ~ exists x field, with_field name x field) by (intros H; apply W in H; discriminate). split.
    + intros H. assert (x = name) by congruence. assert (i = None) by congruence. subst. apply AsksName. exact N.
    + intros H. destruct H as [x f z F' Z|_]; [|reflexivity]. exfalso. apply N. exists x, f. exact F'.
Qed.
Lemma extract_none : forall name, extract name = None <-> bad_field name.
Proof.
  intros name. unfold extract. pose proof (with_field_prefix name) as W. destruct (String.prefix "tb_" name || String.prefix "irt_" name).
  - destruct (proj1 W eq_refl) as (x0 & f0 & F). destruct (with_field_nth _ _ _ F) as [E1 E2]. rewrite E1, E2. split.
    + destruct (parse_int f0) as [z|] eqn:Z; [discriminate|]. intros _. exists x0, f0. split; [exact F|]. intros i I. apply parse_int_iff in I. congruence.
    + intros (x & f & F' & N). destruct (with_field_nth _ _ _ F') as [_ E4]. assert (f = f0) by congruence. subst f. destruct (parse_int f0) as [z|] eqn:Z; [|reflexivity]. exfalso. apply (N z), parse_int_iff. congruence.
  - split; [discriminate|]. intros (x & f & F & _). exfalso. assert (false = true) by (apply W; exists x, f; exact F). discriminate.
Qed.
Lemma collect_iff : forall vs req l, collect vs req = Some l <-> panels vs req l.
Proof.
  intros vs. induction req as [|name r IH]; intros l; cbn [collect].
  - split; [intros H; assert (l = []) by congruence; subst; constructor|intros H; inversion H; reflexivity].
  - split.
    + destruct (extract name) as [[x i]|] eqn:E; [|discriminate]. destruct (collect vs r) as [l0|] eqn:C; [|discriminate]. apply extract_asks in E. intros H.
      pose proof (mem_name_iff x vs) as M. destruct (mem_name x vs); assert (Hl : l = _) by (symmetry; apply (f_equal (fun o => match o with Some y => y | None => [] end) H)); cbn in Hl; subst l.
      * apply (PanelsTake vs name x i); [exact E|apply M; reflexivity|apply IH; reflexivity].
      * apply (PanelsSkip vs name x i); [exact E|intros X; apply M in X; discriminate|apply IH; reflexivity].
    + intros H. inversion H as [|? x i ? l0 A I P|? x i ? l0 A I P]; subst; apply extract_asks in A; rewrite A; apply IH in P; rewrite P.
      * apply mem_name_iff in I. rewrite I. reflexivity.
      * destruct (mem_name x vs) eqn:M; [apply mem_name_iff in M; contradiction|reflexivity].
Qed.
Lemma collect_none : forall vs req, collect vs req = None <-> exists name, In name req /\ bad_field name.
Proof.
  intros vs. induction req as [|name r IH]; cbn [collect]; [split; [discriminate|intros (n & [] & _)]|]. split.
  - destruct (extract name) as [[x i]|] eqn:E.
    + destruct (collect vs r) as [l0|]; [discriminate|]. intros _. destruct (proj1 IH eq_refl) as (n & I & B). exists n. split; [right; exact I|exact B].
    + intros _. exists name. split; [left; reflexivity|apply extract_none, E].
  - intros (n & [<-|I] & B).
    + apply extract_none in B. rewrite B. reflexivity.
    + destruct (extract name) as [[x i]|]; [|reflexivity]. rewrite (proj2 IH) by (exists n; auto). reflexivity.
Qed.

(** ** Brightness temperatures *)

Lemma all_masked_iff : forall l, all_masked l = false <-> exists k v, nth_error l k = Some (Some v).
Proof.
  unfold all_masked. induction l as [|[x|] l IH]; cbn [forallb]; [split; [discriminate|intros ([|k] & v & H); discriminate]| |].
  - split; [intros _; exists 0, x; reflexivity|reflexivity].
  - cbn. rewrite IH. split; [intros (k & v & H); exists (S k), v; exact H|]. intros ([|k] & v & H); [discriminate|]. exists k, v. exact H.
Qed.
Lemma mask_where_nth : forall l bad k, length bad = length l -> nth_error (mask_where bad l) k =
  match nth_error bad k with Some true => Some None | _ => nth_error l k end.
Proof.
  induction l as [|x l IH]; intros [|b bad] k L; cbn [length] in L; try lia; [destruct k; reflexivity|]. destruct k as [|k]; cbn [mask_where nth_error]; [destruct b; reflexivity|]. apply IH. lia.
Qed.
Lemma mask_where_length : forall l bad, length (mask_where bad l) = length l.
Proof. induction l as [|x l IH]; intros [|b bad]; cbn [mask_where length]; auto. Qed.
Fixpoint places (i : nat) (flags : list bool) : list nat :=
  match flags with [] => [] | b :: r => (if b then [i] else []) ++ places (S i) r end.
Lemma places_in : forall flags i k, In k (places i flags) <-> i <= k /\ nth_error flags (k - i) = Some true.
Proof.
  induction flags as [|b r IH]; intros i k; cbn [places].
  - split; [intros []|]. intros [_ H]. destruct (k - i); discriminate.
  - rewrite in_app_iff, IH. destruct (Nat.eq_dec k i) as [->|Ne].
    + rewrite Nat.sub_diag. cbn [nth_error]. split.
      * intros [H|[H _]]; [|lia]. destruct b; [auto|destruct H].
      * intros [_ H]. left. assert (b = true) by congruence. subst b. left. reflexivity.
    + split.
      * intros [H|[A B]]; [destruct b; [destruct H as [H|[]]; congruence|destruct H]|]. split; [lia|]. replace (k - i) with (S (k - S i)) by lia. exact B.
      * intros [A B]. right. split; [lia|]. replace (k - i) with (S (k - S i)) in B by lia. exact B.
Qed.
Lemma places_sorted : forall flags i, StronglySorted lt (places i flags).
Proof.
  induction flags as [|b r IH]; intros i; cbn [places]; [constructor|]. destruct b; cbn [app]; [|apply IH]. constructor; [apply IH|]. apply Forall_forall. intros k K. apply places_in in K as [K _]. lia.
Qed.
Lemma points_places : forall flags time l i (T : nat -> option Q) (L : nat -> option (masked Q)), length time = length flags -> length l = length flags ->
  (forall k, T (i + k) = nth_error time k) -> (forall k, L (i + k) = nth_error l k) ->
  Forall2 (fun k p => T k = Some (fst p) /\ L k = Some (snd p)) (places i flags) (points time l flags).
Proof.
  unfold points. induction flags as [|b r IH]; intros [|t time] [|x l] i T L Lt Ll HT HL; cbn [length] in *; try lia; [constructor|].
  cbn [combine filter fst places]. assert (R : Forall2 (fun k p => T k = Some (fst p) /\ L k = Some (snd p)) (places (S i) r) (map snd (filter fst (combine r (combine time l))))).
  { apply IH; [lia|lia| |]; intros k; replace (S i + k) with (i + S k) by lia; [rewrite HT|rewrite HL]; reflexivity. }
  destruct b; cbn [app map snd]; [|exact R]. constructor; [|exact R]. specialize (HT 0). specialize (HL 0). rewrite Nat.add_0_r in HT, HL. split; [exact HT|exact HL].
Qed.
Lemma and_not_nth : forall flags bad k, length bad = length flags ->
  (nth_error (and_not flags bad) k = Some true <-> nth_error flags k = Some true /\ nth_error bad k = Some false).
Proof.
  induction flags as [|f r IH]; intros [|b s] k L; cbn [length] in L; try lia; [destruct k; split; [discriminate|intros [H _]; discriminate| discriminate|intros [H _]; discriminate]|].
  destruct k as [|k]; cbn [and_not nth_error]; [|apply IH; lia]. destruct f, b; cbn; split; intros H; try discriminate; try (destruct H; discriminate); auto.
Qed.
Lemma and_not_length : forall flags bad, length bad = length flags -> length (and_not flags bad) = length flags.
Proof. induction flags as [|f r IH]; intros [|b s] L; cbn [length and_not] in *; try lia. rewrite IH; lia. Qed.
Lemma bad_iff : forall n pointing zenith bad, bad_zenith n pointing zenith = Ok bad ->
  (forall fl, pointing = Some fl -> length fl = n) -> (forall an, zenith = Some an -> length an = n) ->
  length bad = n /\ forall k, k < n -> (nth_error bad k = Some true <-> off_zenith pointing zenith k).
Proof.
  intros n pointing zenith bad H Lp Lz. unfold bad_zenith in H. destruct pointing as [fl|].
  - destruct zenith as [an|]; [|discriminate]. specialize (Lp fl eq_refl). specialize (Lz an eq_refl).
    assert (bad = map (fun p => qlt 5 (Qabs (snd p)) || negb (Z.eqb (fst p) 0)) (combine fl an)) by congruence. subst bad. clear H.
    split; [rewrite map_length, combine_length; lia|]. intros k K. rewrite nth_error_map'.
    assert (E : forall p a, nth_error fl k = Some p -> nth_error an k = Some a -> nth_error (combine fl an) k = Some (p, a)).
    { clear. revert an k. induction fl as [|x fl IH]; intros [|y an] [|k] p a A B; try discriminate; cbn in *; [congruence|]. apply IH; assumption. }
    destruct (nth_error fl k) as [p|] eqn:Ep; [|apply nth_error_None in Ep; lia]. destruct (nth_error an k) as [a|] eqn:Ea; [|apply nth_error_None in Ea; lia].
    rewrite (E p a eq_refl eq_refl). cbn [option_map fst snd]. split.
    + intros H. exists fl, an, p, a. repeat (split; [reflexivity || assumption|]). assert (B : qlt 5 (Qabs a) || negb (Z.eqb p 0) = true) by congruence.
      apply orb_true_iff in B as [B|B]; [|left; apply negb_true_iff, Z.eqb_neq in B; exact B]. right. apply qlt_iff in B. destruct (Qlt_le_dec a 0) as [Na|Na].
      * right. rewrite Qabs_neg in B by (apply Qlt_le_weak; exact Na). lra.
      * left. rewrite Qabs_pos in B by exact Na. exact B.
    + intros (fl' & an' & p' & a' & E1 & E2 & E3 & E4 & B). assert (fl' = fl) by congruence. assert (an' = an) by congruence. subst. assert (p' = p) by congruence. assert (a' = a) by congruence. subst.
      f_equal. apply orb_true_iff. destruct B as [B|B]; [right; apply negb_true_iff, Z.eqb_neq, B|]. left. apply qlt_iff. destruct B as [B|B].
      * rewrite Qabs_pos; lra.
      * rewrite Qabs_neg; lra.
  - assert (bad = repeat false n) by congruence. subst bad. split; [apply repeat_length|]. intros k K. split.
    + intros X. apply nth_error_In, repeat_spec in X. discriminate.
    + intros (fl & an & p & a & X & _). discriminate.
Qed.
Lemma flags_iff : forall vars f, read_flags vars = Some f <-> flags_of vars f.
Proof.
  intros vars f. unfold read_flags. split.
  - destruct (vars "tb_quality_flag") as [a|] eqn:A; [intros H; apply FlagsOwn; congruence|]. destruct (vars "temperature_quality_flag") as [b|] eqn:B; [intros H; apply FlagsTemperature; congruence|]. intros H. apply FlagsGeneral; assumption.
  - intros [f' A|f' A B|f' A B C]; rewrite A; [reflexivity|rewrite B; reflexivity|rewrite B; exact C].
Qed.
Lemma column_nth : forall (m : image (masked Q)) j k v, nth_error (column m j) k = Some (Some v) <-> pixel m k j = Some (Some v).
Proof.
  intros m j k v. unfold column, pixel. rewrite nth_error_map'. destruct (nth_error m k) as [row|]; cbn; [|split; discriminate]. destruct (nth_error row j) as [[x|]|]; split; intros H; try discriminate; congruence.
Qed.
Lemma flag_nth : forall (f : image Z) j k, nth_error (flag_column f j) k = Some true <-> exists v, pixel f k j = Some v /\ (0 < v)%Z.
Proof.
  intros f j k. unfold flag_column, pixel. rewrite nth_error_map'. destruct (nth_error f k) as [row|]; cbn; [|split; [discriminate|intros (v & H & _); discriminate]].
  destruct (nth_error row j) as [v|]; [|split; [discriminate|intros (v & H & _); discriminate]]. split; [intros H; exists v; split; [reflexivity|apply Z.ltb_lt; congruence]|]. intros (w & E & P). assert (w = v) by congruence. subst w. apply Z.ltb_lt in P. congruence.
Qed.

(** ** Units *)

Lemma conversion_iff : forall name x y, displayed name x y <->
  (y == (let (m, c) := conversion_of name conversions in if m then x * c else x + c))%Q.
Proof.
  intros name x y. unfold conversions, k_to_c. split.
  - intros H. destruct H as [I E|I E|I E|I E|I E|I E|I E];
      repeat (match type of I with In _ _ => destruct I as [I|I]; [try (subst name; cbn [conversion_of String.eqb Ascii.eqb Bool.eqb]; lra)|] end);
      try (subst name; cbn; lra); try (destruct I; fail).
    all: try (assert (X : forall k, In k ["rainfall_rate"; "snowfall_rate"; "precipitation_rate"; "air_pressure"; "relative_humidity"; "rh";
                         "rainfall_amount"; "snowfall_amount"; "precipitation_amount"; "r_accum_RT"; "r_accum_NRT";
                         "air_temperature"; "temperature"; "Tw"; "T_sensor"; "T_ambient"; "T_interior"; "T_laser_driver";
                         "transmitter_temperature"; "receiver_temperature"; "pc_temperature"; "cloud_top_height_agl"] -> String.eqb name k = false)
             by (intros k K; apply String.eqb_neq; intros ->; exact (I K));
           cbn [conversion_of]; rewrite !X by (cbn [In]; tauto); cbn; lra).
  - cbn [conversion_of]. intros H.
    repeat match type of H with context [String.eqb name ?k] => destruct (String.eqb name k) eqn:?; [match goal with E : String.eqb name _ = true |- _ => apply String.eqb_eq in E; subst name end|] end; cbn in H.
    all: try (apply ShownRate; [cbn [In]; tauto|lra]).
    all: try (apply ShownPressure; [reflexivity|lra]).
    all: try (apply ShownHumidity; [cbn [In]; tauto|lra]).
    all: try (apply ShownAmount; [cbn [In]; tauto|lra]).
    all: try (apply ShownCelsius; [cbn [In]; tauto|lra]).
    all: try (apply ShownTop; [reflexivity|lra]).
    apply ShownAsIs; [|lra]. intros I. cbn [In] in I. repeat (destruct I as [I|I]; [subst name; rewrite String.eqb_refl in *; discriminate|]). exact I.
Qed.

Lemma letter_iff : forall c, is_letter c = true <-> letter c.
Proof. intros c. unfold is_letter, letter. rewrite orb_true_iff, !andb_true_iff, !Nat.leb_le. tauto. Qed.
Lemma digit_iff : forall c, is_digit c = true <-> figure_0_9 c.
Proof. intros c. unfold is_digit, figure_0_9. rewrite andb_true_iff, !Nat.leb_le. tauto. Qed.
Lemma span_digits_ok : forall s d t, span_digits s = (d, t) -> s = (d ++ t)%string /\ all_figures d /\ (forall c r, t = String c r -> ~ figure_0_9 c).
Proof.
  induction s as [|c s IH]; intros d t H; cbn [span_digits] in H.
  - assert (d = "") by congruence. assert (t = "") by congruence. subst. split; [reflexivity|]. split; [intros [|x a] y r E; discriminate|intros c r E; discriminate].
  - destruct (is_digit c) eqn:D.
    + destruct (span_digits s) as [d' t'] eqn:S. assert (d = String c d') by congruence. assert (t = t') by congruence. subst. destruct (IH _ _ eq_refl) as (-> & A & B). split; [reflexivity|]. split; [|exact B].
      intros [|x a] y r E; cbn in E; [assert (y = c) by congruence; subst y; apply digit_iff, D|]. apply (A a y r). congruence.
    + assert (d = "") by congruence. assert (t = String c s) by congruence. subst. split; [reflexivity|]. split; [intros [|x a] y r E; discriminate|]. intros c' r E F. assert (c' = c) by congruence. subst c'. apply digit_iff in F. congruence.
Qed.
Lemma exponent_some : forall s e t, exponent s = Some (e, t) -> s = (e ++ t)%string /\ e <> "" /\ (forall a c r, e = (a ++ String c r)%string -> figure_0_9 c \/ c = "-"%char).
Proof.
  intros s e t H. unfold exponent in H. destruct s as [|c s].
  - cbn in H. discriminate.
  - destruct (Ascii.eqb c "-") eqn:M.
    + apply Ascii.eqb_eq in M. subst c. destruct (span_digits s) as [d t0] eqn:S. destruct d as [|x d]; [discriminate|]. assert (e = ("-" ++ String x d)%string) by congruence. assert (t = t0) by congruence. subst.
      destruct (span_digits_ok _ _ _ S) as (-> & A & _). split; [reflexivity|]. split; [discriminate|]. intros [|y a] z r E; cbn in E; [right; congruence|]. left. apply (A a z r). congruence.
    + destruct (span_digits (String c s)) as [d t0] eqn:S. destruct d as [|x d]; [discriminate|]. assert (e = String x d) by (cbn in H; congruence). assert (t = t0) by congruence. subst.
      destruct (span_digits_ok _ _ _ S) as (-> & A & _). split; [reflexivity|]. split; [discriminate|]. intros a z r E. left. exact (A a z r E).
Qed.
Lemma exponent_none : forall s, exponent s = None <-> ~ begins_exponent s.
Proof.
  assert (D : forall s, (exists c r, s = String c r /\ figure_0_9 c) <-> forall t, span_digits s <> ("", t)).
  { intros [|c s]; cbn [span_digits]; [split; [intros (c & r & E & _); discriminate|intros H; exfalso; exact (H "" eq_refl)]|]. destruct (is_digit c) eqn:Dc.
    - destruct (span_digits s). split; [intros _ t; discriminate|]. intros _. exists c, s. split; [reflexivity|apply digit_iff, Dc].
    - split; [|intros H; exfalso; exact (H _ eq_refl)]. intros (c' & r & E & F). exfalso. assert (c' = c) by congruence. subst. apply digit_iff in F. congruence. }
  intros s. unfold exponent. destruct s as [|c s].
  - cbn. split; [|reflexivity]. intros _ [(c & r & E & _)|(c & r & E & _)]; discriminate.
  - destruct (Ascii.eqb c "-") eqn:M.
    + apply Ascii.eqb_eq in M. subst c. pose proof (D s) as Ds. destruct (span_digits s) as [[|x d] t].
      * split; [|reflexivity]. intros _ [(c & r & E & F)|(c & r & E & F)].
        -- assert (c = "-"%char) by congruence. subst c. unfold figure_0_9 in F. cbn in F. lia.
        -- assert (s = String c r) by congruence. apply (proj1 Ds) with (t := t); [exists c, r; auto|reflexivity].
      * split; [discriminate|]. intros N. exfalso. apply N. right. destruct (proj2 Ds) as (c & r & -> & F); [intros t' X; discriminate|]. exists c, r. auto.
    + pose proof (D (String c s)) as Ds. destruct (span_digits (String c s)) as [[|x d] t].
      * split; [|reflexivity]. intros _ [H|(c' & r & E & F)]; [exact (proj1 Ds H t eq_refl)|]. apply Ascii.eqb_neq in M. congruence.
      * split; [discriminate|]. intros N. exfalso. apply N. left. apply Ds. intros t' X. discriminate.
Qed.
Lemma slen_app : forall a b, String.length (a ++ b) = String.length a + String.length b.
Proof. induction a as [|c a IH]; intros b; cbn; [reflexivity|]. rewrite IH. reflexivity. Qed.
Lemma superscript_head : forall n s, match s with "" => superscript n s = "" | String c _ => exists r, superscript n s = String c r end.
Proof. intros [|n] [|c s]; cbn [superscript]; try reflexivity; [exists s; reflexivity|]. destruct (is_letter c); [destruct (exponent s) as [[e t]|]|]; eexists; reflexivity. Qed.
Lemma no_exponent_cons : forall c r, no_exponent (String c r) <-> (letter c -> ~ begins_exponent r) /\ no_exponent r.
Proof.
  intros c r. split.
  - intros H. split; [exact (H "" c r eq_refl)|]. intros a c' r' E. apply (H (String c a) c' r'). cbn. rewrite E. reflexivity.
  - intros [A B] [|x a] c' r' E; cbn in E; [assert (c' = c) by congruence; assert (r' = r) by congruence; subst; exact A|]. apply (B a c' r'). congruence.
Qed.
Lemma no_exponent_nil : no_exponent "".
Proof. intros [|x a] c r E; discriminate. Qed.
Lemma superscript_begins : forall n s, ~ begins_exponent s -> ~ begins_exponent (superscript n s).
Proof.
  intros n s N B. apply N. pose proof (superscript_head n s) as H. destruct s as [|c s].
  - rewrite H in B. exact B.
  - destruct H as (r & H). rewrite H in B. destruct B as [(c' & r' & E & F)|(c' & r' & E & F)].
    + assert (c' = c) by congruence. subst c'. left. exists c, s. auto.
    + assert (c = "-"%char) by congruence. subst c. destruct n as [|n]; [cbn in H; right; exists c', r'; split; [congruence|exact F]|]. cbn [superscript] in H.
      assert (L : is_letter "-" = false) by reflexivity. rewrite L in H. assert (Es : superscript n s = String c' r') by congruence. pose proof (superscript_head n s) as Hs. destruct s as [|x s]; [congruence|].
      destruct Hs as (r2 & Hs). right. exists x, s. split; [reflexivity|]. assert (x = c') by congruence. subst x. exact F.
Qed.
Lemma no_exponent_digits : forall e r, (forall a c t, e = (a ++ String c t)%string -> figure_0_9 c \/ c = "-"%char) -> no_exponent r -> no_exponent (e ++ r).
Proof.
  induction e as [|c e IH]; intros r H N; [exact N|]. cbn. apply no_exponent_cons. split.
  - intros L. exfalso. destruct (H "" c e eq_refl) as [F| ->]; [unfold letter, figure_0_9 in *; lia|]. unfold letter in L. cbn in L. lia.
  - apply IH; [|exact N]. intros a c' t E. apply (H (String c a) c' t). cbn. rewrite E. reflexivity.
Qed.
Lemma superscript_plain : forall n s, String.length s <= n -> no_exponent (superscript n s).
Proof.
  induction n as [|n IH]; intros s L.
  - destruct s; [apply no_exponent_nil|cbn in L; lia].
  - destruct s as [|c s]; [apply no_exponent_nil|]. cbn [superscript]. cbn in L.
    assert (P : no_exponent (superscript n s)) by (apply IH; lia).
    destruct (is_letter c) eqn:Lc.
    + destruct (exponent s) as [[e t]|] eqn:E.
      * destruct (exponent_some _ _ _ E) as (-> & _ & De). rewrite slen_app in L. assert (Pt : no_exponent (superscript n t)) by (apply IH; lia).
        apply no_exponent_cons. split; [intros _ [(c' & r & X & F)|(c' & r & X & F)]; [assert (c' = "$"%char) by (cbn in X; congruence); subst c'; unfold figure_0_9 in F; cbn in F; lia|discriminate]|].
        assert (NL : forall x r, ~ letter x -> no_exponent r -> no_exponent (String x r)) by (intros x r A B; apply no_exponent_cons; split; [intros Z; contradiction|exact B]).
        cbn. repeat (apply NL; [unfold letter; cbn; lia|]). apply no_exponent_digits; [exact De|]. repeat (apply NL; [unfold letter; cbn; lia|]). exact Pt.
      * apply no_exponent_cons. split; [|exact P]. intros _. apply superscript_begins, exponent_none, E.
    + apply no_exponent_cons. split; [|exact P]. intros Lt. apply letter_iff in Lt. congruence.
Qed.
Lemma superscript_same : forall n s, no_exponent s -> superscript n s = s.
Proof.
  induction n as [|n IH]; intros s N; [reflexivity|]. destruct s as [|c s]; [reflexivity|]. cbn [superscript]. apply no_exponent_cons in N as [A B]. rewrite (IH s B).
  destruct (is_letter c) eqn:L; [|reflexivity]. apply letter_iff in L. rewrite (proj2 (exponent_none s) (A L)). reflexivity.
Qed.
Lemma without_cons : forall x c s, without x (String c s) <-> c <> x /\ without x s.
Proof.
  intros x c s. unfold without. split.
  - intros H. split; [intros ->; apply H; exists "", s; reflexivity|]. intros (a & b & ->). apply H. exists (String c a), b. reflexivity.
  - intros [A B] ([|y a] & b & E); cbn in E; [congruence|]. apply B. exists a, b. congruence.
Qed.
Lemma unmarked_digits : forall e t s, (forall a c r, e = (a ++ String c r)%string -> figure_0_9 c \/ c = "-"%char) -> unmarked t s -> unmarked (e ++ t) (e ++ s).
Proof.
  induction e as [|c e IH]; intros t s H U; [exact U|]. cbn. assert (C : c <> "$"%char /\ c <> "}"%char) by (destruct (H "" c e eq_refl) as [F| ->]; [|split; discriminate]; split; intros ->; unfold figure_0_9 in F; cbn in F; lia).
  apply UnmarkedChar; [apply C|intros X; destruct C; contradiction|]. apply IH; [|exact U]. intros a c' r E. apply (H (String c a) c' r). cbn. rewrite E. reflexivity.
Qed.
Lemma superscript_unmarked : forall n s, String.length s <= n -> without "$" s -> unmarked (superscript n s) s.
Proof.
  induction n as [|n IH]; intros s L W.
  - destruct s; [constructor|cbn in L; lia].
  - destruct s as [|c s]; [constructor|]. cbn [superscript]. cbn in L. apply without_cons in W as [Wc W].
    assert (P : unmarked (String c (superscript n s)) (String c s)).
    { apply UnmarkedChar; [exact Wc| |apply IH; [lia|exact W]]. intros _ r E. pose proof (superscript_head n s) as H. destruct s as [|x s]; [congruence|]. destruct H as (r' & H). apply without_cons in W as [Wx _]. congruence. }
    destruct (is_letter c) eqn:Lc; [|exact P]. destruct (exponent s) as [[e t]|] eqn:E; [|exact P]. destruct (exponent_some _ _ _ E) as (-> & _ & De). rewrite slen_app in L.
    apply UnmarkedChar; [exact Wc|intros ->; discriminate|]. cbn. apply UnmarkedOpen. apply unmarked_digits; [exact De|]. apply UnmarkedClose. apply IH; [lia|].
    intros (a & b & ->). apply W. exists (e ++ a)%string, b. clear. induction e as [|y e IHe]; [reflexivity|]. cbn. rewrite IHe. reflexivity.
Qed.

Lemma span_digits_app : forall d s, all_figures d -> (forall x r, s = String x r -> ~ figure_0_9 x) -> span_digits (d ++ s) = (d, s).
Proof.
  induction d as [|c d IH]; intros s A B.
  - cbn. destruct s as [|x r]; [reflexivity|]. cbn. destruct (is_digit x) eqn:D; [|reflexivity]. apply digit_iff in D. exfalso. exact (B x r eq_refl D).
  - cbn. rewrite (proj2 (digit_iff c)) by (exact (A "" c d eq_refl)). rewrite IH; [reflexivity| |exact B]. intros a x r E. apply (A (String c a) x r). cbn. rewrite E. reflexivity.
Qed.
Lemma exponent_app : forall sign d s, sign = "" \/ sign = "-" -> d <> "" -> all_figures d -> (forall x r, s = String x r -> ~ figure_0_9 x) ->
  exponent (sign ++ d ++ s) = Some ((sign ++ d)%string, s).
Proof.
  intros sign d s G N A B. pose proof (span_digits_app d s A B) as Sp. destruct d as [|x d]; [congruence|]. unfold exponent. destruct G as [-> | ->].
  - cbn [append] in *. destruct (Ascii.eqb x "-") eqn:M.
    + apply Ascii.eqb_eq in M. subst x. exfalso. specialize (A "" "-"%char d eq_refl). unfold figure_0_9 in A. cbn in A. lia.
    + rewrite Sp. reflexivity.
  - cbn [append Ascii.eqb Bool.eqb] in *. rewrite Sp. reflexivity.
Qed.
Lemma exponent_parts : forall s e t, exponent s = Some (e, t) -> exists sign d, (sign = "" \/ sign = "-") /\ d <> "" /\ all_figures d /\
  (forall x r, t = String x r -> ~ figure_0_9 x) /\ e = (sign ++ d)%string.
Proof.
  intros s e t H. unfold exponent in H. destruct s as [|c s]; [discriminate|]. destruct (Ascii.eqb c "-").
  - destruct (span_digits s) as [[|x d] t0] eqn:S; [discriminate|]. destruct (span_digits_ok _ _ _ S) as (_ & A & B). exists "-", (String x d). assert (t = t0) by congruence. subst t0.
    split; [auto|]. split; [discriminate|]. split; [exact A|]. split; [exact B|]. congruence.
  - destruct (span_digits (String c s)) as [[|x d] t0] eqn:S; [discriminate|]. destruct (span_digits_ok _ _ _ S) as (_ & A & B). exists "", (String x d). assert (t = t0) by congruence. subst t0.
    split; [auto|]. split; [discriminate|]. split; [exact A|]. split; [exact B|]. congruence.
Qed.
Lemma sapp_assoc : forall a b c : string, ((a ++ b) ++ c = a ++ (b ++ c))%string.
Proof. induction a as [|x a IH]; intros b c; [reflexivity|]. cbn. rewrite IH. reflexivity. Qed.
Lemma superscript_marked : forall n s t, String.length s <= n -> (superscript n s = t <-> marked s t).
Proof.
  intros n s t L. split.
  - intros <-. revert s L. induction n as [|n IH]; intros s L; [destruct s; [constructor|cbn in L; lia]|]. destruct s as [|c s]; [constructor|]. cbn [superscript]. cbn in L.
    assert (P : marked s (superscript n s)) by (apply IH; lia). destruct (is_letter c) eqn:Lc.
    + destruct (exponent s) as [[e t]|] eqn:E.
      * destruct (exponent_some _ _ _ E) as (Es & _ & _). destruct (exponent_parts _ _ _ E) as (sign & d & G & N & A & B & Ee). subst e. rewrite Es, slen_app in L. rewrite Es, !sapp_assoc.
        apply MarkedExponent; try assumption; [apply letter_iff, Lc|]. apply IH. lia.
      * apply MarkedChar; [|exact P]. intros _. apply exponent_none, E.
    + apply MarkedChar; [|exact P]. intros X. apply letter_iff in X. congruence.
  - intros M. revert n L. induction M as [|c sign d s t Lc G N A B M IH|c s t H M IH]; intros n L; [destruct n; reflexivity| |]; cbn in L; (destruct n as [|n]; [lia|]); cbn [superscript].
    + rewrite (proj2 (letter_iff c) Lc), (exponent_app sign d s G N A B). rewrite (IH n) by (rewrite !slen_app in L; lia). rewrite sapp_assoc. reflexivity.
    + rewrite (IH n) by lia. destruct (is_letter c) eqn:Lc; [|reflexivity]. apply letter_iff in Lc. rewrite (proj2 (exponent_none s) (H Lc)). reflexivity.
Qed.
