(** Proofs about the text attributes and copying functions of output.py. *)
From Verif Require Import Base OutputModel OutputSpec.
Local Open Scope string_scope.

(** ** Strings *)
Lemma append_assoc : forall a b c : string, (a ++ b) ++ c = a ++ (b ++ c).
Proof. induction a as [|x a IH]; intros; simpl; [reflexivity|]. f_equal. apply IH. Qed.
Lemma append_nil_r : forall a : string, a ++ "" = a.
Proof. induction a as [|x a IH]; simpl; [reflexivity|]. f_equal. exact IH. Qed.
Lemma append_inj : forall a b c : string, a ++ b = a ++ c -> b = c.
Proof. induction a as [|x a IH]; intros b c H; simpl in H; [exact H|]. apply IH. congruence. Qed.

Lemma one_line_cons : forall c s, one_line (String c s) <-> c <> newline /\ one_line s.
Proof.
  intros c s. unfold one_line. split.
  - intros H. split.
    + intros ->. apply H. exists "", s. reflexivity.
    + intros [a [b ->]]. apply H. exists (String c a), b. reflexivity.
  - intros [Hc H] [a [b E]]. destruct a as [|x a]; simpl in E.
    + apply Hc. inversion E. reflexivity.
    + apply H. exists a, b. injection E as _ E. exact E.
Qed.
Lemma one_line_nil : one_line "".
Proof. intros [a [b E]]. destruct a; discriminate. Qed.
Lemma one_line_app : forall a b, one_line (a ++ b) <-> one_line a /\ one_line b.
Proof.
  induction a as [|c a IH]; intros b; simpl.
  - split; [intros H; split; [apply one_line_nil|exact H]|intros [_ H]; exact H].
  - rewrite !one_line_cons, IH. tauto.
Qed.

Lemma split_nl_nonempty : forall s, split_nl s <> [].
Proof.
  destruct s as [|c s]; simpl; [discriminate|].
  destruct (Ascii.eqb c newline); [discriminate|]. destruct (split_nl s); discriminate.
Qed.
Lemma unlines_cons : forall x l, l <> [] -> unlines (x :: l) = x ++ nl ++ unlines l.
Proof. intros x [|y l] H; [congruence|reflexivity]. Qed.
Lemma unlines_char : forall c x l, unlines (String c x :: l) = String c (unlines (x :: l)).
Proof. intros c x [|y l]; reflexivity. Qed.
Lemma split_nl_lines : forall s, lines_of s (split_nl s).
Proof.
  intros s. split; [apply split_nl_nonempty|]. induction s as [|c s [IH1 IH2]].
  - split; [constructor; [apply one_line_nil|constructor]|reflexivity].
  - simpl. pose proof (split_nl_nonempty s) as Hn. destruct (Ascii.eqb c newline) eqn:E.
    + apply Ascii.eqb_eq in E. subst c. split.
      * constructor; [apply one_line_nil|exact IH1].
      * rewrite unlines_cons by exact Hn. rewrite <- IH2. reflexivity.
    + apply Ascii.eqb_neq in E. destruct (split_nl s) as [|h t]; [congruence|].
      apply Forall_cons_iff in IH1. destruct IH1 as [IHa IHb]. split.
      * constructor; [apply one_line_cons; auto|assumption].
      * rewrite unlines_char, <- IH2. reflexivity.
Qed.
Lemma split_nl_one : forall x, one_line x -> split_nl x = [x].
Proof.
  induction x as [|c x IH]; intros H; [reflexivity|].
  apply one_line_cons in H. destruct H as [Hc Hx]. simpl.
  apply Ascii.eqb_neq in Hc. rewrite Hc, (IH Hx). reflexivity.
Qed.
Lemma split_nl_app : forall x y, one_line x -> split_nl (x ++ nl ++ y) = x :: split_nl y.
Proof.
  induction x as [|c x IH]; intros y H.
  - reflexivity.
  - apply one_line_cons in H. destruct H as [Hc Hx]. apply Ascii.eqb_neq in Hc.
    change (split_nl (String c x ++ nl ++ y))
      with (if Ascii.eqb c newline then "" :: split_nl (x ++ nl ++ y)
            else match split_nl (x ++ nl ++ y) with h :: t => String c h :: t | [] => [String c ""] end).
    rewrite Hc, (IH y Hx). reflexivity.
Qed.
(** The lines of a text are unique. *)
Lemma lines_of_split : forall l h, lines_of h l -> split_nl h = l.
Proof.
  intros l h [H1 [H2 ->]]. induction l as [|x l IH]; [congruence|].
  inversion H2; subst. destruct l as [|y l].
  - apply split_nl_one. assumption.
  - rewrite unlines_cons by discriminate. rewrite split_nl_app by assumption.
    f_equal. apply IH; [discriminate|assumption].
Qed.
Lemma extract_source_lines : forall s l, source_lines s l <-> extract_history s = l.
Proof.
  intros s l. unfold source_lines, extract_history. destruct (hs_history s) as [h|].
  - destruct (hs_model s).
    + split.
      * intros (e & line & -> & H). rewrite (lines_of_split _ _ H). rewrite last_last. reflexivity.
      * intros <-. pose proof (split_nl_lines h) as H.
        destruct (exists_last (split_nl_nonempty h)) as [e [line E]].
        exists e, line. rewrite E, last_last. split; [reflexivity|]. rewrite <- E. exact H.
    + split; [apply lines_of_split|intros <-; apply split_nl_lines].
  - split; congruence.
Qed.
Lemma extract_one_line : forall s, Forall one_line (extract_history s).
Proof.
  intros s. unfold extract_history. destruct (hs_history s) as [h|]; [|constructor].
  destruct (split_nl_lines h) as [Hn [H _]].
  destruct (hs_model s); [|exact H].
  constructor; [|constructor]. destruct (exists_last Hn) as [e [line E]].
  rewrite E in *. rewrite last_last. rewrite Forall_app in H. destruct H as [_ H].
  inversion H; assumption.
Qed.

(** ** First occurrences *)
Lemma mem_string_iff : forall s l, mem_string s l = true <-> In s l.
Proof.
  intros s l. unfold mem_string. rewrite existsb_exists. split.
  - intros [x [H E]]. apply String.eqb_eq in E. subst. exact H.
  - intros H. exists s. split; [exact H|apply String.eqb_refl].
Qed.
Lemma from_keys_in : forall l seen x,
  In x (from_keys seen l) <-> In x l /\ ~ In x seen.
Proof.
  induction l as [|y l IH]; intros seen x; simpl; [tauto|].
  destruct (mem_string y seen) eqn:E.
  - apply mem_string_iff in E. rewrite IH. split.
    + intros [H N]. auto.
    + intros [[->|H] N]; [contradiction|auto].
  - assert (N : ~ In y seen) by (rewrite <- mem_string_iff, E; discriminate).
    simpl. rewrite IH. simpl. split.
    + intros [->|[H H']]; [auto|]. split; [auto|]. intros H1. apply H'. auto.
    + intros [H N']. destruct (String.eqb_spec y x) as [->|D]; [auto|].
      right. split; [destruct H as [H|H]; [contradiction|exact H]|]. intros [H1|H1]; auto.
Qed.
Lemma from_keys_nodup : forall l seen, NoDup (from_keys seen l).
Proof.
  induction l as [|y l IH]; intros seen; simpl; [constructor|].
  destruct (mem_string y seen); [apply IH|]. constructor; [|apply IH].
  rewrite from_keys_in. intros [_ H]. apply H. left. reflexivity.
Qed.
Lemma before_cons : forall A (l : list A) x a b, before l a b -> before (x :: l) a b.
Proof. intros A l x a b (l1 & l2 & l3 & ->). exists (x :: l1), l2, l3. reflexivity. Qed.
Lemma before_head : forall A (l : list A) a b, In b l -> before (a :: l) a b.
Proof.
  intros A l a b H. apply in_split in H. destruct H as [l1 [l2 ->]]. exists [], l1, l2. reflexivity.
Qed.
Lemma before_inv : forall A (l : list A) x a b,
  before (x :: l) a b -> (x = a /\ In b l) \/ before l a b.
Proof.
  intros A l x a b (l1 & l2 & l3 & E). destruct l1 as [|y l1]; simpl in E; injection E as -> ->.
  - left. split; [reflexivity|]. apply in_or_app. right. left. reflexivity.
  - right. exists l1, l2, l3. reflexivity.
Qed.
Lemma from_keys_first : forall l seen a b,
  a <> b -> In b l -> ~ In a seen -> ~ In b seen -> first_before l a b ->
  before (from_keys seen l) a b.
Proof.
  induction l as [|y l IH]; intros seen a b D Hb Na Nb (l1 & l2 & E & H1); [destruct Hb|].
  simpl. destruct l1 as [|z l1]; simpl in E; injection E as -> ->.
  - destruct (mem_string a seen) eqn:M; [apply mem_string_iff in M; contradiction|].
    apply before_head. apply from_keys_in. destruct Hb as [Hb|Hb]; [congruence|].
    split; [exact Hb|]. simpl. intros [Hc|Hc]; [congruence|contradiction].
  - assert (z <> b) by (intros ->; apply H1; left; reflexivity).
    destruct Hb as [Hb|Hb]; [congruence|].
    assert (F : first_before (l1 ++ a :: l2)%list a b).
    { exists l1, l2. split; [reflexivity|]. intros Hc. apply H1. right. exact Hc. }
    destruct (mem_string z seen) eqn:M; [apply IH; assumption|].
    destruct (String.eqb_spec z a) as [->|Dz].
    + apply before_head. apply from_keys_in. split; [exact Hb|].
      simpl. intros [Hc|Hc]; [congruence|contradiction].
    + apply before_cons. apply IH; try assumption; simpl; intros [Hc|Hc]; congruence || contradiction.
Qed.

(** ** Time stamps *)
Lemma prefix_iff : forall p s, String.prefix p s = true <-> exists r, s = p ++ r.
Proof.
  induction p as [|x p IH]; intros s.
  - split; [exists s; reflexivity|destruct s; reflexivity].
  - destruct s as [|y s]; cbn [String.prefix].
    + split; [discriminate|intros [r E]; discriminate].
    + destruct (ascii_dec x y) as [->|D].
      * rewrite IH. split; intros [r E]; exists r; [subst; reflexivity|].
        cbn [append] in E. congruence.
      * split; [discriminate|]. intros [r E]. cbn [append] in E. congruence.
Qed.
Lemma prefix_dash : forall s, String.prefix " - " s = true <-> exists r, s = " - " ++ r.
Proof. intros s. apply prefix_iff. Qed.
Lemma before_dash_head : forall line, head_of line (before_dash line).
Proof.
  induction line as [|c s IH].
  - right. split; [reflexivity|]. intros [a [b E]]. destruct a; discriminate.
  - cbn [before_dash]. destruct (String.prefix " - " (String c s)) eqn:P.
    + apply prefix_dash in P. destruct P as [r E]. left. exists r. split; [exact E|].
      intros [a [b F]]. simpl in F. destruct a as [|x [|y a]]; try discriminate.
      destruct a; discriminate.
    + assert (N : ~ exists r, String c s = " - " ++ r) by (rewrite <- prefix_dash, P; discriminate).
      destruct IH as [[rest [E H]]|[E H]].
      * left. exists rest. split; [simpl; f_equal; exact E|].
        intros [a [b F]]. destruct a as [|x a]; simpl in F.
        -- apply N. rewrite E. injection F as -> F.
           destruct (before_dash s) as [|u [|v w]]; simpl in *.
           ++ discriminate F.
           ++ injection F as -> F. exists ("- " ++ rest). reflexivity.
           ++ injection F as -> -> F. exists (w ++ " - " ++ rest). reflexivity.
        -- apply H. exists a, b. injection F as _ F. exact F.
      * right. split; [f_equal; exact E|]. intros [a [b F]]. destruct a as [|x a]; simpl in F.
        -- apply N. exists b. exact F.
        -- apply H. exists a, b. injection F as _ F. exact F.
Qed.
Lemma head_of_unique : forall line p, head_of line p -> before_dash line = p.
Proof.
  induction line as [|c s IH]; intros p [[rest [E H]]|[E H]].
  - destruct p; discriminate.
  - subst. reflexivity.
  - cbn [before_dash]. destruct p as [|x p].
    + assert (P : String.prefix " - " (String c s) = true) by (apply prefix_dash; eauto).
      rewrite P. reflexivity.
    + simpl in E. injection E as -> E.
      destruct (String.prefix " - " (String x s)) eqn:P.
      * exfalso. apply prefix_dash in P. destruct P as [r F].
        apply H. exists "". rewrite E in F. destruct p as [|y [|z p]]; simpl in F.
        -- injection F as -> F. discriminate.
        -- injection F as -> -> F. exists "-". reflexivity.
        -- injection F as -> -> -> F. exists (p ++ " -"). reflexivity.
      * f_equal. apply IH. left. exists rest. split; [exact E|].
        intros [a [b F]]. apply H. exists (String x a), b. simpl. rewrite F. reflexivity.
  - subst p. cbn [before_dash]. destruct (String.prefix " - " (String c s)) eqn:P.
    + exfalso. apply prefix_dash in P. destruct P as [r F]. apply H. exists "", r. exact F.
    + f_equal. apply IH. right. split; [reflexivity|]. intros [a [b F]]. apply H.
      exists (String c a), b. simpl. rewrite F. reflexivity.
Qed.

(** White space. *)
Lemma blank_nil : blank "".
Proof. intros a c b E. destruct a; discriminate. Qed.
Lemma blank_cons : forall c s, blank (String c s) <-> is_space c = true /\ blank s.
Proof.
  intros c s. split.
  - intros H. split; [apply (H "" c s); reflexivity|].
    intros a d b ->. apply (H (String c a) d b). reflexivity.
  - intros [Hc H] a d b E. destruct a as [|x a]; cbn [append] in E.
    + injection E as -> _. exact Hc.
    + injection E as _ E. apply (H _ _ _ E).
Qed.
Lemma lstrip_app : forall l s, blank l -> lstrip (l ++ s) = lstrip s.
Proof.
  induction l as [|c l IH]; intros s H; [reflexivity|]. apply blank_cons in H.
  cbn [append lstrip]. rewrite (proj1 H). apply IH. apply H.
Qed.
Lemma lstrip_keep : forall c s, is_space c = false -> lstrip (String c s) = String c s.
Proof. intros c s H. cbn [lstrip]. rewrite H. reflexivity. Qed.
Lemma lstrip_split : forall s, exists l, s = l ++ lstrip s /\ blank l /\
  forall c t, lstrip s = String c t -> is_space c = false.
Proof.
  induction s as [|c s [l [E [Hb H]]]].
  - exists "". split; [reflexivity|]. split; [apply blank_nil|]. discriminate.
  - cbn [lstrip]. destruct (is_space c) eqn:S.
    + exists (String c l). split; [cbn [append]; f_equal; exact E|].
      split; [apply blank_cons; auto|exact H].
    + exists "". split; [reflexivity|]. split; [apply blank_nil|].
      intros d t F. injection F as <- _. exact S.
Qed.
Lemma rstrip_blank : forall r, blank r -> rstrip r = "".
Proof.
  induction r as [|c r IH]; intros H; [reflexivity|]. apply blank_cons in H.
  cbn [rstrip]. rewrite IH by apply H. rewrite (proj1 H). reflexivity.
Qed.
Lemma rstrip_app : forall s r, blank r -> rstrip (s ++ r) = rstrip s.
Proof.
  induction s as [|c s IH]; intros r H; [apply rstrip_blank, H|].
  cbn [append rstrip]. rewrite IH by exact H. reflexivity.
Qed.
Lemma rstrip_keep : forall s c, is_space c = false -> rstrip (s ++ String c "") = s ++ String c "".
Proof.
  induction s as [|x s IH]; intros c H.
  - cbn. rewrite H. reflexivity.
  - cbn [append rstrip]. rewrite IH by exact H. destruct s; reflexivity.
Qed.
Lemma string_last : forall s, s = "" \/ exists t c, s = t ++ String c "".
Proof.
  induction s as [|x s IH]; [left; reflexivity|]. right. destruct IH as [->|[t [c ->]]].
  - exists "", x. reflexivity.
  - exists (String x t), c. reflexivity.
Qed.
Lemma append_last_inj : forall a b x y, a ++ String x "" = b ++ String y "" -> a = b /\ x = y.
Proof.
  induction a as [|c a IH]; intros b x y E; destruct b as [|d b]; cbn [append] in E.
  - injection E as ->. auto.
  - destruct b; discriminate.
  - destruct a; discriminate.
  - injection E as -> E. destruct (IH _ _ _ E) as [-> ->]. auto.
Qed.
Lemma rstrip_split : forall s, exists r, s = rstrip s ++ r /\ blank r /\
  forall c t, rstrip s = t ++ String c "" -> is_space c = false.
Proof.
  induction s as [|x s [r [E [Hb H]]]].
  - exists "". split; [reflexivity|]. split; [apply blank_nil|]. intros c [|? ?]; discriminate.
  - cbn [rstrip]. destruct (rstrip s) as [|y q] eqn:R.
    + destruct (is_space x) eqn:S.
      * exists (String x r). split; [cbn [append] in *; f_equal; exact E|].
        split; [apply blank_cons; auto|]. intros c [|? ?]; discriminate.
      * exists r. split; [cbn [append] in *; f_equal; exact E|]. split; [exact Hb|].
        intros c t F. change (String x "") with ("" ++ String x "") in F.
        apply append_last_inj in F. destruct F as [_ <-]. exact S.
    + exists r. split; [cbn [append] in *; f_equal; exact E|]. split; [exact Hb|].
      intros c t F. destruct t as [|z t]; [discriminate|]. cbn [append] in F.
      injection F as _ F. apply (H c t). exact F.
Qed.
Lemma strip_stripped : forall p, stripped p (strip p).
Proof.
  intros p. unfold strip. destruct (lstrip_split p) as [l [E1 [B1 H1]]].
  destruct (rstrip_split (lstrip p)) as [r [E2 [B2 H2]]].
  exists l, r. split; [rewrite <- E2; exact E1|]. split; [exact B1|]. split; [exact B2|].
  split; [|exact H2]. intros c s F. rewrite F in E2. cbn [append] in E2. apply (H1 _ _ E2).
Qed.
Lemma stripped_unique : forall p ts, stripped p ts -> strip p = ts.
Proof.
  intros p ts (l & r & -> & B1 & B2 & H1 & H2). unfold strip.
  rewrite lstrip_app by exact B1. destruct (string_last ts) as [->|[t [c ->]]].
  - cbn [append]. rewrite <- (append_nil_r r). rewrite lstrip_app by exact B2. reflexivity.
  - assert (E : lstrip ((t ++ String c "") ++ r) = (t ++ String c "") ++ r).
    { destruct t as [|x t]; cbn [append].
      - apply lstrip_keep. apply (H1 c ""). reflexivity.
      - apply lstrip_keep. apply (H1 x (t ++ String c "")). reflexivity. }
    rewrite E, rstrip_app by exact B2. apply rstrip_keep. apply (H2 c t). reflexivity.
Qed.

Section HistoryProofs.
Variable strptime : string -> option Z.
Variable tmin : Z.
Notation parse := (parse_time strptime tmin).

Lemma parse_stamped : forall line t, stamped strptime line t -> parse line = t.
Proof.
  intros line t (p & ts & H1 & H2 & H3). unfold parse_time.
  rewrite (head_of_unique _ _ H1), (stripped_unique _ _ H2), H3. reflexivity.
Qed.
Lemma stamped_dec : forall line,
  (exists t, stamped strptime line t) \/
  ((~ exists t, stamped strptime line t) /\ parse line = tmin).
Proof.
  intros line. destruct (strptime (strip (before_dash line))) as [t|] eqn:E.
  - left. exists t, (before_dash line), (strip (before_dash line)).
    split; [apply before_dash_head|]. split; [apply strip_stripped|exact E].
  - right. split.
    + intros [t (p & ts & H1 & H2 & H3)].
      rewrite (head_of_unique _ _ H1), (stripped_unique _ _ H2) in E. congruence.
    + unfold parse_time. rewrite E. reflexivity.
Qed.

Lemma insert_desc_perm : forall x l, Permutation (insert_desc strptime tmin x l) (x :: l).
Proof.
  intros x l. induction l as [|y l IH]; simpl; [reflexivity|].
  destruct (parse y <=? parse x)%Z; [reflexivity|].
  rewrite IH. apply perm_swap.
Qed.
Lemma sort_desc_perm : forall l, Permutation (sort_desc strptime tmin l) l.
Proof.
  induction l as [|x l IH]; [reflexivity|]. unfold sort_desc in *. simpl.
  rewrite insert_desc_perm. constructor. exact IH.
Qed.
Definition desc (l : list string) : Prop := forall a b, before l a b -> (parse b <= parse a)%Z.
Lemma desc_cons : forall x l, desc (x :: l) <->
  desc l /\ forall b, In b l -> (parse b <= parse x)%Z.
Proof.
  intros x l. split.
  - intros H. split; [intros a b B; apply H, before_cons, B|].
    intros b I. apply H, before_head, I.
  - intros [H1 H2] a b B. apply before_inv in B. destruct B as [[<- I]|B]; auto.
Qed.
Lemma insert_desc_desc : forall x l, desc l -> desc (insert_desc strptime tmin x l).
Proof.
  intros x l. induction l as [|y l IH]; simpl; intros H.
  - apply desc_cons. split; [exact H|]. intros b [].
  - apply desc_cons in H. destruct H as [H1 H2].
    destruct (parse y <=? parse x)%Z eqn:E.
    + apply Z.leb_le in E. apply desc_cons. split; [apply desc_cons; auto|].
      intros b [<-|I]; [exact E|]. specialize (H2 b I). lia.
    + apply Z.leb_gt in E. apply desc_cons. split; [apply IH, H1|].
      intros b I. apply (Permutation_in _ (insert_desc_perm x l)) in I.
      destruct I as [<-|I]; [lia|auto].
Qed.
Lemma sort_desc_desc : forall l, desc (sort_desc strptime tmin l).
Proof.
  induction l as [|x l IH].
  - intros a b (l1 & l2 & l3 & E). destruct l1; discriminate.
  - unfold sort_desc in *. simpl. apply insert_desc_desc, IH.
Qed.
Lemma insert_desc_before : forall x l a b,
  before l a b -> before (insert_desc strptime tmin x l) a b.
Proof.
  intros x l. induction l as [|y l IH]; intros a b B; simpl.
  - destruct B as (l1 & l2 & l3 & E). destruct l1; discriminate.
  - destruct (parse y <=? parse x)%Z; [apply before_cons, B|].
    apply before_inv in B. destruct B as [[<- I]|B].
    + apply before_head. apply (Permutation_in _ (Permutation_sym (insert_desc_perm x l))).
      right. exact I.
    + apply before_cons, IH, B.
Qed.
Lemma insert_desc_first : forall x l b,
  desc l -> In b l -> parse x = parse b -> before (insert_desc strptime tmin x l) x b.
Proof.
  intros x l b. induction l as [|y l IH]; intros H I E; [destruct I|].
  apply desc_cons in H. destruct H as [H1 H2]. simpl.
  destruct (parse y <=? parse x)%Z eqn:L; [apply before_head, I|].
  apply Z.leb_gt in L. destruct I as [<-|I]; [lia|].
  apply before_cons, IH; assumption.
Qed.
Lemma sort_desc_stable : forall l a b,
  before l a b -> parse a = parse b -> before (sort_desc strptime tmin l) a b.
Proof.
  induction l as [|x l IH]; intros a b B E; [destruct B as (l1 & l2 & l3 & F); destruct l1; discriminate|].
  unfold sort_desc in *. simpl. apply before_inv in B. destruct B as [[<- I]|B].
  - apply insert_desc_first; [apply sort_desc_desc| |exact E].
    apply (Permutation_in _ (Permutation_sym (sort_desc_perm l))), I.
  - apply insert_desc_before, IH; assumption.
Qed.

Lemma concat_nl : forall x l,
  x ++ String.concat "" (map (fun h => nl ++ h) l) = unlines (x :: l).
Proof.
  intros x l. revert x. induction l as [|y l IH]; intros x.
  - apply append_nil_r.
  - rewrite unlines_cons by discriminate. f_equal.
    change (map (fun h => nl ++ h) (y :: l)) with ((nl ++ y) :: map (fun h => nl ++ h) l).
    assert (C : forall z m, String.concat "" (z :: m) = z ++ String.concat "" m).
    { intros z [|w m]; [symmetry; apply append_nil_r|reflexivity]. }
    rewrite C, append_assoc, IH. reflexivity.
Qed.

Lemma source_lines_concat : forall sources ls,
  Forall2 source_lines sources ls -> flat_map extract_history sources = List.concat ls.
Proof.
  intros sources ls H. induction H as [|s l sources ls H1 H2 IH]; [reflexivity|].
  simpl. rewrite IH. f_equal. apply extract_source_lines, H1.
Qed.
Lemma source_lines_exist : forall sources, exists ls, Forall2 source_lines sources ls.
Proof.
  intros sources. exists (map extract_history sources).
  induction sources; constructor; [apply extract_source_lines; reflexivity|assumption].
Qed.

Lemma merge_history_spec : forall now file_type sources ls,
  Forall2 source_lines sources ls -> one_line now -> one_line file_type ->
  exists l,
    lines_of (merge_history strptime tmin now file_type sources)
      ((now ++ " - " ++ file_type ++ " file created") :: l) /\
    NoDup l /\ (forall line, In line l <-> In line (List.concat ls)) /\
    (forall a b ta tb, before l a b -> stamped strptime a ta -> stamped strptime b tb ->
       (tb <= ta)%Z) /\
    (forall a b t, a <> b -> In b l -> stamped strptime a t -> stamped strptime b t ->
       first_before (List.concat ls) a b -> before l a b) /\
    ((forall s t, strptime s = Some t -> (tmin < t)%Z) ->
     forall a b, In a l -> In b l ->
       (exists t, stamped strptime a t) -> ~ (exists t, stamped strptime b t) -> before l a b) /\
    (forall a b, a <> b -> In b l ->
       ~ (exists t, stamped strptime a t) -> ~ (exists t, stamped strptime b t) ->
       first_before (List.concat ls) a b -> before l a b).
Proof.
  intros now ft sources ls Hs Hn Hf. unfold merge_history.
  rewrite (source_lines_concat _ _ Hs), concat_nl.
  assert (Hall : Forall one_line (List.concat ls)).
  { rewrite <- (source_lines_concat _ _ Hs). clear. induction sources as [|s l IH]; [constructor|].
    simpl. apply Forall_app. split; [apply extract_one_line|exact IH]. }
  set (all := List.concat ls) in *. set (keys := from_keys [] all).
  exists (sort_desc strptime tmin keys).
  pose proof (sort_desc_perm keys) as P.
  assert (Hin : forall line, In line (sort_desc strptime tmin keys) <-> In line all).
  { intros line. split; intros H.
    - apply (Permutation_in _ P) in H. apply from_keys_in in H. apply H.
    - apply (Permutation_in _ (Permutation_sym P)). apply from_keys_in. split; [exact H|intros []]. }
  assert (Hst : forall a b, a <> b -> In b (sort_desc strptime tmin keys) ->
    parse a = parse b -> first_before all a b -> before (sort_desc strptime tmin keys) a b).
  { intros a b D Ib E F. apply sort_desc_stable; [|exact E].
    apply from_keys_first; auto. apply Hin, Ib. }
  split; [|split; [|split; [|split; [|split; [|split]]]]].
  - split; [discriminate|]. split; [|reflexivity].
    constructor.
    + assert (one_line " - " /\ one_line " file created") as [O1 O2].
      { split; repeat (apply one_line_cons; split; [discriminate|]);
          apply one_line_nil. }
      apply one_line_app; split; [exact Hn|]. apply one_line_app; split; [exact O1|].
      apply one_line_app; auto.
    + rewrite Forall_forall in *. intros x I. apply Hall, Hin, I.
  - apply (Permutation_NoDup (Permutation_sym P)). apply from_keys_nodup.
  - exact Hin.
  - intros a b ta tb B Ha Hb. pose proof (sort_desc_desc keys a b B) as L.
    rewrite (parse_stamped _ _ Ha), (parse_stamped _ _ Hb) in L. exact L.
  - intros a b t D Ib Ha Hb F. apply Hst; auto.
    rewrite (parse_stamped _ _ Ha), (parse_stamped _ _ Hb). reflexivity.
  - intros Hmin a b Ia Ib [t Ha] Nb.
    destruct (stamped_dec b) as [Hb|[_ Eb]]; [contradiction|].
    assert (Lt : (parse b < parse a)%Z).
    { rewrite Eb, (parse_stamped _ _ Ha). destruct Ha as (p & ts & _ & _ & E). apply (Hmin _ _ E). }
    pose proof (sort_desc_desc keys) as Hd.
    apply in_split in Ia. destruct Ia as [l1 [l2 El]]. rewrite El in *.
    apply in_app_or in Ib. destruct Ib as [Ib|[Ib|Ib]].
    + exfalso. apply in_split in Ib. destruct Ib as [m1 [m2 ->]].
      assert (B : before ((m1 ++ b :: m2) ++ a :: l2)%list b a).
      { exists m1, m2, l2. rewrite <- app_assoc. reflexivity. }
      specialize (Hd _ _ B). lia.
    + subst b. lia.
    + apply in_split in Ib. destruct Ib as [m1 [m2 ->]]. exists l1, m1, m2. reflexivity.
  - intros a b D Ib Na Nb F. apply Hst; auto.
    destruct (stamped_dec a) as [Ha|[_ Ea]]; [contradiction|].
    destruct (stamped_dec b) as [Hb|[_ Eb]]; [contradiction|]. congruence.
Qed.
End HistoryProofs.

(** ** Sorted sets of strings *)
Lemma str_lt_cons : forall a s b t, str_lt (String a s) (String b t) <->
  (nat_of_ascii a < nat_of_ascii b)%nat \/ (a = b /\ str_lt s t).
Proof.
  intros a s b t. split.
  - intros (p & s' & t' & E1 & E2 & H). destruct p as [|c p]; cbn [append] in *.
    + subst. destruct H as [[H _]|(x & y & s'' & t'' & F1 & F2 & L)]; [discriminate|].
      left. congruence.
    + injection E1 as <- ->. injection E2 as <- ->. right. split; [reflexivity|].
      exists p, s', t'. auto.
  - intros [L|[-> (p & s' & t' & -> & -> & H)]].
    + exists "", (String a s), (String b t). repeat split. right. exists a, b, s, t. auto.
    + exists (String b p), s', t'. repeat split. exact H.
Qed.
Lemma str_lt_nil : forall t, str_lt "" t <-> t <> "".
Proof.
  intros t. split.
  - intros (p & s' & t' & E1 & E2 & H). destruct p; [|discriminate]. cbn [append] in *. subst.
    destruct H as [[_ H]|(x & y & s'' & t'' & F & _)]; [exact H|discriminate].
  - intros H. exists "", "", t. auto.
Qed.
Lemma str_lt_nil_r : forall s, ~ str_lt s "".
Proof.
  intros s (p & s' & t' & E1 & E2 & H). destruct p; [|discriminate]. cbn [append] in E2. subst t'.
  destruct H as [[_ H]|(x & y & s'' & t'' & _ & F & _)]; [congruence|discriminate].
Qed.
Lemma nat_of_ascii_inj : forall a b, nat_of_ascii a = nat_of_ascii b -> a = b.
Proof. intros a b H. rewrite <- (ascii_nat_embedding a), <- (ascii_nat_embedding b), H. reflexivity. Qed.
Lemma str_leb_iff : forall s t, str_leb s t = true <-> s = t \/ str_lt s t.
Proof.
  induction s as [|a s IH]; intros t.
  - cbn [str_leb]. split; [intros _|reflexivity]. destruct t; [auto|]. right.
    apply str_lt_nil. discriminate.
  - destruct t as [|b t]; cbn [str_leb].
    + split; [discriminate|]. intros [H|H]; [discriminate|]. destruct (str_lt_nil_r _ H).
    + rewrite str_lt_cons.
      destruct (Nat.ltb_spec (nat_of_ascii a) (nat_of_ascii b)) as [L|L]; [tauto|].
      destruct (Nat.ltb_spec (nat_of_ascii b) (nat_of_ascii a)) as [L'|L'].
      * split; [discriminate|]. intros [E|[E|[-> _]]]; [|lia|lia].
        injection E as -> _. lia.
      * assert (a = b) by (apply nat_of_ascii_inj; lia). subst. rewrite IH. split.
        -- intros [->|H]; auto.
        -- intros [E|[E|[_ H]]]; [injection E as ->; auto|lia|auto].
Qed.
Lemma str_lt_trans : forall s t u, str_lt s t -> str_lt t u -> str_lt s u.
Proof.
  induction s as [|a s IH]; intros t u H1 H2.
  - apply str_lt_nil. intros ->. destruct (str_lt_nil_r _ H2).
  - destruct t as [|b t]; [destruct (str_lt_nil_r _ H1)|].
    destruct u as [|c u]; [destruct (str_lt_nil_r _ H2)|].
    apply str_lt_cons in H1. apply str_lt_cons in H2. apply str_lt_cons.
    destruct H1 as [L1|[-> H1]]; destruct H2 as [L2|[-> H2]]; [left; lia|auto|auto|].
    right. split; [reflexivity|]. apply (IH t u); assumption.
Qed.
Lemma str_lt_irrefl : forall s, ~ str_lt s s.
Proof.
  induction s as [|a s IH]; intros H; [apply str_lt_nil in H; congruence|].
  apply str_lt_cons in H. destruct H as [H|[_ H]]; [lia|auto].
Qed.
Lemma str_lt_total : forall s t, s = t \/ str_lt s t \/ str_lt t s.
Proof.
  induction s as [|a s IH]; intros t.
  - destruct t; [auto|]. right. left. apply str_lt_nil. discriminate.
  - destruct t as [|b t]; [right; right; apply str_lt_nil; discriminate|].
    rewrite !str_lt_cons.
    destruct (lt_eq_lt_dec (nat_of_ascii a) (nat_of_ascii b)) as [[L|E]|L]; [auto| |auto].
    apply nat_of_ascii_inj in E. subst. destruct (IH t) as [->|[H|H]]; auto.
Qed.
Lemma insert_str_in : forall x l y, In y (insert_str x l) <-> y = x \/ In y l.
Proof.
  intros x l y. induction l as [|z l IH]; cbn [insert_str].
  - split; [intros [->|[]]; auto|intros [->|[]]; left; reflexivity].
  - destruct (str_leb x z); simpl; [split; [intros [->|H]; auto|intros [->|H]; auto]|].
    rewrite IH. tauto.
Qed.
Lemma insert_str_sorted : forall x l, ~ In x l ->
  StronglySorted str_lt l -> StronglySorted str_lt (insert_str x l).
Proof.
  intros x l N H. induction H as [|z l H IH F]; cbn [insert_str].
  - constructor; constructor.
  - destruct (str_leb x z) eqn:L.
    + apply str_leb_iff in L. destruct L as [->|L]; [destruct N; left; reflexivity|].
      constructor; [constructor; assumption|]. constructor; [exact L|].
      rewrite Forall_forall in *. intros y I. apply (str_lt_trans _ z); [exact L|apply F, I].
    + assert (Lt : str_lt z x).
      { destruct (str_lt_total z x) as [->|[G|G]]; [|exact G|].
        - destruct N. left. reflexivity.
        - exfalso. assert (str_leb x z = true) by (apply str_leb_iff; auto). congruence. }
      constructor.
      * apply IH. intros I. apply N. right. exact I.
      * rewrite Forall_forall in *. intros y I. apply insert_str_in in I.
        destruct I as [->|I]; [exact Lt|apply F, I].
Qed.
Lemma fold_insert_in : forall l y, In y (fold_right insert_str [] l) <-> In y l.
Proof.
  induction l as [|x l IH]; intros y; simpl; [tauto|]. rewrite insert_str_in, IH.
  split; intros [H|H]; auto.
Qed.
Lemma sorted_set_in : forall l y, In y (sorted_set l) <-> In y l.
Proof.
  intros l y. unfold sorted_set. rewrite fold_insert_in, from_keys_in. simpl. tauto.
Qed.
Lemma sorted_set_sorted : forall l, StronglySorted str_lt (sorted_set l).
Proof.
  intros l. unfold sorted_set. pose proof (from_keys_nodup l []) as N.
  induction N as [|x l' H N IH]; simpl; [constructor|].
  apply insert_str_sorted; [|exact IH]. rewrite fold_insert_in. exact H.
Qed.
Lemma sorted_canonical : forall l m,
  StronglySorted str_lt l -> StronglySorted str_lt m ->
  (forall x, In x l <-> In x m) -> l = m.
Proof.
  intros l m Hl. revert m. induction Hl as [|x l Hl IH Fl]; intros m Hm E.
  - destruct m as [|y m]; [reflexivity|]. exfalso. apply (proj2 (E y)). left. reflexivity.
  - destruct Hm as [|y m Hm Fm]; [exfalso; apply (proj1 (E x)); left; reflexivity|].
    rewrite Forall_forall in Fl, Fm.
    assert (x = y).
    { destruct (proj1 (E x) (or_introl eq_refl)) as [H|H]; [congruence|].
      destruct (proj2 (E y) (or_introl eq_refl)) as [G|G]; [congruence|].
      exfalso. apply (str_lt_irrefl x), (str_lt_trans _ y); auto. }
    subst y. f_equal. apply IH; [exact Hm|]. intros z. split; intros I.
    + destruct (proj1 (E z) (or_intror I)) as [<-|H]; [|exact H].
      exfalso. apply (str_lt_irrefl x), Fl, I.
    + destruct (proj2 (E z) (or_intror I)) as [<-|H]; [|exact H].
      exfalso. apply (str_lt_irrefl x), Fm, I.
Qed.
Lemma present_in : forall A (l : list (option A)) x, In x (present l) <-> In (Some x) l.
Proof.
  intros A l x. unfold present. rewrite in_flat_map. split.
  - intros [[y|] [H I]]; [|destruct I]. destruct I as [->|[]]. exact H.
  - intros H. exists (Some x). split; [exact H|left; reflexivity].
Qed.
Lemma uuids_spec : forall us, exists l,
  get_source_uuids us = String.concat ", " l /\
  StronglySorted str_lt l /\ forall u, In u l <-> In (Some u) us.
Proof.
  intros us. exists (sorted_set (present us)). split; [reflexivity|].
  split; [apply sorted_set_sorted|]. intros u. rewrite sorted_set_in. apply present_in.
Qed.
Lemma sorted_set_ext : forall l m, (forall x, In x l <-> In x m) -> sorted_set l = sorted_set m.
Proof.
  intros l m E. apply sorted_canonical; try apply sorted_set_sorted.
  intros x. rewrite !sorted_set_in. apply E.
Qed.
Lemma uuids_canonical : forall us vs,
  (forall u, In (Some u) us <-> In (Some u) vs) -> get_source_uuids us = get_source_uuids vs.
Proof.
  intros us vs H. unfold get_source_uuids. f_equal. apply sorted_set_ext.
  intros x. rewrite !present_in. apply H.
Qed.

(** ** Source names *)
Lemma unlines_concat : forall l, String.concat nl l = unlines l.
Proof.
  induction l as [|x [|y l] IH]; [reflexivity|reflexivity|].
  rewrite unlines_cons by discriminate. rewrite <- IH. reflexivity.
Qed.
Lemma split_in_lines : forall h ls line, lines_of h ls -> In line (split_nl h) <-> In line ls.
Proof. intros h ls line H. rewrite (lines_of_split _ _ H). reflexivity. Qed.
Lemma split_one_line : forall h line, In line (split_nl h) -> one_line line.
Proof.
  intros h line I. destruct (split_nl_lines h) as [_ [F _]]. rewrite Forall_forall in F. auto.
Qed.
Lemma source_names_spec : forall sources text,
  source_names sources = Some text ->
  exists l, lines_of text l /\ StronglySorted str_lt l /\
    forall line, In line l <-> exists h ls, In (Some h) sources /\ lines_of h ls /\ In line ls.
Proof.
  intros sources text. unfold source_names.
  set (l := sorted_set (flat_map split_nl (present sources))).
  assert (Hin : forall line, In line l <->
            exists h ls, In (Some h) sources /\ lines_of h ls /\ In line ls).
  { intros line. unfold l. rewrite sorted_set_in, in_flat_map. split.
    - intros [h [H I]]. exists h, (split_nl h). split; [apply present_in, H|].
      split; [apply split_nl_lines|exact I].
    - intros (h & ls & H & L & I). exists h. split; [apply present_in, H|].
      rewrite (lines_of_split _ _ L). exact I. }
  intros H. exists l. assert (D : l <> []) by (intros D; rewrite D in H; discriminate).
  assert (T : text = unlines l).
  { rewrite <- unlines_concat. destruct l; [congruence|injection H as <-; reflexivity]. }
  split; [|split; [apply sorted_set_sorted|exact Hin]].
  split; [exact D|]. split; [|exact T]. apply Forall_forall. intros x I.
  unfold l in I. rewrite sorted_set_in, in_flat_map in I. destruct I as [h [_ I]].
  apply (split_one_line h), I.
Qed.
Lemma source_names_none : forall sources,
  source_names sources = None <-> forall s, ~ In (Some s) sources.
Proof.
  intros sources. unfold source_names.
  set (l := sorted_set (flat_map split_nl (present sources))). split.
  - intros H s I. assert (E : l = []) by (destruct l; [reflexivity|discriminate]).
    assert (J : In (List.hd "" (split_nl s)) l).
    { unfold l. rewrite sorted_set_in, in_flat_map. exists s. split; [apply present_in, I|].
      pose proof (split_nl_nonempty s). destruct (split_nl s); [congruence|left; reflexivity]. }
    rewrite E in J. destruct J.
  - intros H. assert (E : l = []).
    { destruct l as [|x m] eqn:E; [reflexivity|]. exfalso.
      assert (J : In x l) by (rewrite E; left; reflexivity).
      unfold l in J. rewrite sorted_set_in, in_flat_map in J. destruct J as [h [J _]].
      apply present_in in J. apply (H h J). }
    rewrite E. reflexivity.
Qed.
Lemma source_names_canonical : forall us vs,
  (forall u, In (Some u) us <-> In (Some u) vs) -> source_names us = source_names vs.
Proof.
  intros us vs H. unfold source_names.
  rewrite (sorted_set_ext (flat_map split_nl (present us)) (flat_map split_nl (present vs))).
  - reflexivity.
  - intros x. rewrite !in_flat_map. split; intros [h [I J]]; exists h; (split; [|exact J]);
      apply present_in; apply present_in in I; apply H, I.
Qed.
Lemma source_pids_spec : forall pids,
  match source_pids pids with
  | None => forall p, In (Some p) pids -> p = ""
  | Some text => exists l, l <> [] /\ text = unlines l /\ StronglySorted str_lt l /\
      forall p, In p l <-> In (Some p) pids /\ p <> ""
  end.
Proof.
  intros pids. unfold source_pids.
  set (l := sorted_set (filter (fun s => negb (String.eqb s "")) (present pids))).
  assert (Hin : forall p, In p l <-> In (Some p) pids /\ p <> "").
  { intros p. unfold l. rewrite sorted_set_in, filter_In, present_in, negb_true_iff, String.eqb_neq.
    reflexivity. }
  assert (Hs : StronglySorted str_lt l) by apply sorted_set_sorted.
  destruct l as [|x m].
  - intros p I. destruct (String.eqb_spec p "") as [E|E]; [exact E|].
    exfalso. apply (proj2 (Hin p)). auto.
  - exists (x :: m). split; [discriminate|]. split; [apply unlines_concat|]. auto.
Qed.

(** Extra inputs whose [source] is one line. *)
Lemma append_extra_spec : forall existing extras text,
  Forall one_line extras -> append_extra_sources existing extras = Some text -> extras <> [] ->
  forall old, match existing with None => old = [] | Some s => lines_of s old end ->
  exists l, lines_of text l /\ NoDup l /\
    (forall x, In x l <-> In x old \/ (In x extras /\ x <> "")) /\
    (forall a b, a <> b -> In b l -> first_before (old ++ filter (fun s => negb (String.eqb s "")) extras)%list a b ->
       before l a b).
Proof.
  intros existing extras text F H N old Ho. unfold append_extra_sources in H.
  destruct extras as [|e es]; [congruence|]. set (extras := e :: es) in *.
  assert (Eo : match existing with Some s => split_nl s | None => [] end = old).
  { destruct existing as [s|]; [apply lines_of_split, Ho|symmetry; exact Ho]. }
  rewrite Eo in H.
  set (all := (old ++ filter (fun s => negb (String.eqb s "")) extras)%list) in *.
  assert (Hin : forall x, In x (from_keys [] all) <-> In x old \/ (In x extras /\ x <> "")).
  { intros x. rewrite from_keys_in. unfold all.
    rewrite in_app_iff, filter_In, negb_true_iff, String.eqb_neq. simpl. tauto. }
  assert (Hol : Forall one_line old).
  { destruct existing as [s|]; [apply Ho|rewrite Ho; constructor]. }
  assert (Hl : Forall one_line (from_keys [] all)).
  { rewrite Forall_forall in *. intros x I. apply Hin in I. destruct I as [I|[I _]]; auto. }
  destruct (from_keys [] all) as [|x m] eqn:K.
  - destruct existing as [s|]; [|discriminate]. exfalso.
    destruct Ho as [D _]. destruct old as [|o old]; [congruence|].
    apply (proj2 (Hin o)). left. left. reflexivity.
  - exists (x :: m). rewrite unlines_concat in H.
    assert (text = unlines (x :: m)) by congruence. subst text.
    split; [split; [discriminate|split; [exact Hl|reflexivity]]|].
    split; [rewrite <- K; apply from_keys_nodup|]. split; [exact Hin|].
    intros a b D Ib Fb. rewrite <- K in *. apply from_keys_first; auto.
    apply from_keys_in in Ib. apply Ib.
Qed.

(** ** Copying *)
Section CopyProofs.
Context {V D : Type}.

Lemma lookup_app : forall A k (d e : dict A),
  lookup k (d ++ e)%list = match lookup k d with Some v => Some v | None => lookup k e end.
Proof.
  intros A k d e. induction d as [|[k' v] d IH]; simpl; [reflexivity|].
  destruct (String.eqb k k'); [reflexivity|exact IH].
Qed.
Lemma lookup_in : forall A k (d : dict A), lookup k d <> None <-> In k (map fst d).
Proof.
  intros A k d. induction d as [|[k' v] d IH]; simpl; [tauto|].
  destruct (String.eqb_spec k k') as [->|N]; [split; [auto|discriminate]|].
  rewrite IH. split; [auto|]. intros [->|H]; [congruence|exact H].
Qed.
Lemma copied_attrs_lookup : forall (a : dict V) k, lookup k (copied_attrs a) = lookup k a.
Proof.
  intros a k. unfold copied_attrs. rewrite lookup_app.
  assert (F : forall e : dict V, k <> "_FillValue" ->
    lookup k (filter (fun kv => negb (String.eqb (fst kv) "_FillValue")) e) = lookup k e).
  { intros e N. induction e as [|[k' v] e IH]; [reflexivity|]. cbn [filter fst].
    destruct (String.eqb_spec k' "_FillValue") as [->|N'].
    - cbn [negb lookup]. rewrite IH. apply String.eqb_neq in N. rewrite N. reflexivity.
    - cbn [negb lookup]. rewrite IH. reflexivity. }
  assert (G : forall e : dict V,
    lookup "_FillValue" (filter (fun kv => negb (String.eqb (fst kv) "_FillValue")) e) = None).
  { intros e. induction e as [|[k' v] e IH]; [reflexivity|]. cbn [filter fst].
    destruct (String.eqb k' "_FillValue") eqn:E; cbn [negb lookup]; [exact IH|].
    rewrite String.eqb_sym, E. exact IH. }
  destruct (String.eqb_spec k "_FillValue") as [->|N].
  - rewrite G. destruct (lookup "_FillValue" a) as [v|]; reflexivity.
  - rewrite F by exact N. destruct (lookup "_FillValue" a) as [v|]; [|reflexivity].
    cbn [lookup]. apply String.eqb_neq in N. rewrite N. reflexivity.
Qed.

Lemma copy_variables_ok : forall (source : ncfile V D) keys target t,
  copy_variables source keys target = Ok t ->
  nf_dims t = nf_dims target /\ nf_attrs t = nf_attrs target /\
  exists added, nf_vars t = (nf_vars target ++ added)%list /\ NoDup (map fst added) /\
    (forall k, In k (map fst added) <->
       In k keys /\ lookup k (nf_vars source) <> None /\ lookup k (nf_vars target) = None) /\
    forall k v, In (k, v) added ->
      exists w, lookup k (nf_vars source) = Some w /\ same_variable v w.
Proof.
  intros source keys. induction keys as [|k keys IH]; intros target t H.
  - cbn [copy_variables] in H. assert (t = target) by congruence. subst t.
    split; [reflexivity|]. split; [reflexivity|]. exists []. rewrite app_nil_r.
    split; [reflexivity|]. split; [constructor|]. split; [simpl; tauto|intros ? ? []].
  - cbn [copy_variables] in H.
    destruct (lookup k (nf_vars source)) as [v|] eqn:Es.
    + destruct (lookup k (nf_vars target)) as [w|] eqn:Et.
      * destruct (IH _ _ H) as [H1 [H2 (added & H3 & H4 & H5 & H6)]].
        split; [exact H1|]. split; [exact H2|]. exists added.
        split; [exact H3|]. split; [exact H4|]. split; [|exact H6].
        intros x. rewrite H5. simpl. split; [tauto|].
        intros [[<-|I] [S T]]; [congruence|auto].
      * unfold copy_variable in H.
        destruct (forallb (fun d => mem_string d (nf_dims target)) (nv_dims v)); [|discriminate].
        cbn [bind] in H. destruct (IH _ _ H) as [H1 [H2 (added & H3 & H4 & H5 & H6)]].
        cbn [nf_dims nf_vars nf_attrs] in *.
        split; [exact H1|]. split; [exact H2|].
        eexists (_ :: added). rewrite H3, <- app_assoc. split; [reflexivity|].
        assert (N : ~ In k (map fst added)).
        { rewrite H5. intros (_ & _ & T). rewrite lookup_app, Et in T. cbn [lookup] in T.
          rewrite String.eqb_refl in T. discriminate. }
        split; [simpl; constructor; assumption|]. split.
        -- intros x. cbn [map fst In]. rewrite H5, lookup_app. split.
           ++ intros [<-|(I & S & T)]; [rewrite Es, Et; split; [auto|split; [discriminate|reflexivity]]|].
              destruct (lookup x (nf_vars target)); [discriminate|]. auto.
           ++ intros (I & S & T). destruct (String.eqb_spec k x) as [->|N']; [auto|].
              right. rewrite T. destruct I as [I|I]; [contradiction|].
              split; [exact I|]. split; [exact S|]. cbn [lookup].
              destruct (String.eqb_spec x k); [congruence|reflexivity].
        -- intros x u [E|I]; [|apply H6, I]. injection E as <- <-. exists v.
           split; [exact Es|]. split; [reflexivity|]. split; [reflexivity|].
           apply copied_attrs_lookup.
    + destruct (IH _ _ H) as [H1 [H2 (added & H3 & H4 & H5 & H6)]].
      split; [exact H1|]. split; [exact H2|]. exists added.
      split; [exact H3|]. split; [exact H4|]. split; [|exact H6].
      intros x. rewrite H5. simpl. split; [tauto|].
      intros [[<-|I] [S T]]; [congruence|auto].
Qed.

Lemma copy_variables_total : forall (source : ncfile V D) keys target,
  (forall k v, In k keys -> lookup k (nf_vars source) = Some v ->
     lookup k (nf_vars target) = None -> incl (nv_dims v) (nf_dims target)) ->
  exists t, copy_variables source keys target = Ok t.
Proof.
  intros source keys. induction keys as [|k keys IH]; intros target H; [eexists; reflexivity|].
  cbn [copy_variables]. destruct (lookup k (nf_vars source)) as [v|] eqn:Es.
  - destruct (lookup k (nf_vars target)) as [w|] eqn:Et.
    + apply IH. intros x u I. apply H. right. exact I.
    + unfold copy_variable.
      assert (F : forallb (fun d => mem_string d (nf_dims target)) (nv_dims v) = true).
      { apply forallb_forall. intros d I. apply mem_string_iff.
        apply (H k v (or_introl eq_refl) Es Et d I). }
      rewrite F. cbn [bind]. apply IH. cbn [nf_vars nf_dims].
      intros x u I S T. rewrite lookup_app in T.
      apply (H x u (or_intror I) S). destruct (lookup x (nf_vars target)); [discriminate|reflexivity].
  - apply IH. intros x u I. apply H. right. exact I.
Qed.
Lemma copy_variables_raise : forall (source : ncfile V D) keys target e,
  copy_variables source keys target = Raise e <->
  e = KeyError /\ exists k v, In k keys /\ lookup k (nf_vars source) = Some v /\
    lookup k (nf_vars target) = None /\ ~ incl (nv_dims v) (nf_dims target).
Proof.
  intros source keys target e. split.
  - revert target. induction keys as [|k keys IH]; intros target H; [discriminate|].
    cbn [copy_variables] in H.
    destruct (lookup k (nf_vars source)) as [v|] eqn:Es.
    + destruct (lookup k (nf_vars target)) as [w|] eqn:Et.
      * destruct (IH _ H) as [E (x & u & I & R)]. split; [exact E|]. exists x, u. simpl. auto.
      * unfold copy_variable in H.
        destruct (forallb (fun d => mem_string d (nf_dims target)) (nv_dims v)) eqn:F.
        -- cbn [bind] in H. destruct (IH _ H) as [E (x & u & I & S & T & N)].
           cbn [nf_vars nf_dims] in *. split; [exact E|]. exists x, u.
           rewrite lookup_app in T. destruct (lookup x (nf_vars target)); [discriminate|].
           simpl. auto.
        -- cbn [bind] in H. split; [congruence|]. exists k, v.
           split; [left; reflexivity|]. split; [exact Es|]. split; [exact Et|].
           intros J. assert (G : forallb (fun d => mem_string d (nf_dims target)) (nv_dims v) = true).
           { apply forallb_forall. intros d I. apply mem_string_iff, J, I. }
           congruence.
    + destruct (IH _ H) as [E (x & u & I & R)]. split; [exact E|]. exists x, u. simpl. auto.
  - intros [-> (k & v & I & S & T & N)]. revert target T N.
    induction keys as [|y keys IH]; intros target T N; [destruct I|].
    cbn [copy_variables].
    assert (Skip : In k keys -> forall t', lookup k (nf_vars t') = None ->
              nf_dims t' = nf_dims target -> copy_variables source keys t' = Raise KeyError).
    { intros J t' T' Ed. apply IH; [exact J|exact T'|rewrite Ed; exact N]. }
    destruct (String.eqb_spec y k) as [->|Dk].
    + rewrite S, T. unfold copy_variable.
      destruct (forallb (fun d => mem_string d (nf_dims target)) (nv_dims v)) eqn:F; [|reflexivity].
      exfalso. apply N. intros d J. rewrite forallb_forall in F.
      apply mem_string_iff, F, J.
    + destruct I as [I|I]; [contradiction|].
      destruct (lookup y (nf_vars source)) as [u|] eqn:Es; [|auto].
      destruct (lookup y (nf_vars target)) as [w|] eqn:Et; [auto|].
      unfold copy_variable.
      destruct (forallb (fun d => mem_string d (nf_dims target)) (nv_dims u)) eqn:F; [|reflexivity].
      cbn [bind]. apply Skip; [exact I| |reflexivity]. cbn [nf_vars]. rewrite lookup_app, T.
      cbn [lookup]. destruct (String.eqb_spec k y); [congruence|reflexivity].
Qed.

Lemma set_key_lookup : forall A k (v : A) d x,
  lookup x (set_key k v d) = if String.eqb x k then Some v else lookup x d.
Proof.
  intros A k v d x. induction d as [|[k' v'] d IH]; cbn [set_key lookup]; [reflexivity|].
  destruct (String.eqb_spec k k') as [->|N]; cbn [lookup].
  - destruct (String.eqb x k'); reflexivity.
  - rewrite IH. destruct (String.eqb_spec x k') as [->|N']; [|reflexivity].
    destruct (String.eqb_spec k' k); [congruence|reflexivity].
Qed.
Lemma copy_global_spec : forall (source : ncfile V D) attrs target,
  let t := copy_global source attrs target in
  nf_dims t = nf_dims target /\ nf_vars t = nf_vars target /\
  forall a, (forall v, In a attrs -> lookup a (nf_attrs source) = Some v -> lookup a (nf_attrs t) = Some v) /\
            (~ In a attrs \/ lookup a (nf_attrs source) = None ->
             lookup a (nf_attrs t) = lookup a (nf_attrs target)).
Proof.
  intros source attrs target. cbv zeta.
  assert (L : forall a, lookup a (nf_attrs (copy_global source attrs target)) =
    if mem_string a attrs then
      match lookup a (nf_attrs source) with Some v => Some v | None => lookup a (nf_attrs target) end
    else lookup a (nf_attrs target)).
  { revert target. induction attrs as [|b attrs IH]; intros target a; [reflexivity|].
    cbn [copy_global]. unfold mem_string. cbn [existsb]. fold (mem_string a attrs).
    destruct (String.eqb_spec a b) as [->|N]; cbn [orb].
    - destruct (lookup b (nf_attrs source)) as [v|] eqn:E; rewrite IH, E.
      + cbn [nf_attrs]. rewrite set_key_lookup, String.eqb_refl. destruct (mem_string b attrs); reflexivity.
      + destruct (mem_string b attrs); reflexivity.
    - destruct (lookup b (nf_attrs source)) as [v|] eqn:E; rewrite IH; [|reflexivity].
      cbn [nf_attrs]. rewrite set_key_lookup. apply String.eqb_neq in N. rewrite N. reflexivity. }
  split; [|split].
  - clear L. revert target. induction attrs as [|b attrs IH]; intros target; [reflexivity|].
    cbn [copy_global]. destruct (lookup b (nf_attrs source)); rewrite IH; reflexivity.
  - clear L. revert target. induction attrs as [|b attrs IH]; intros target; [reflexivity|].
    cbn [copy_global]. destruct (lookup b (nf_attrs source)); rewrite IH; reflexivity.
  - intros a. rewrite L. split.
    + intros v I E. apply mem_string_iff in I. rewrite I, E. reflexivity.
    + intros [N|E]; [|rewrite E; destruct (mem_string a attrs); reflexivity].
      destruct (mem_string a attrs) eqn:M; [apply mem_string_iff in M; contradiction|reflexivity].
Qed.
End CopyProofs.
