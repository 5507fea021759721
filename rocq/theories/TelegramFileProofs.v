(** Proofs about the Parsivel reader of level 1b files: loggers, records, several files. *)
From Coq Require Import DecimalString DecimalNat.
From Verif Require Import Base GridModel ArrayProofs OutputModel OutputSpec OutputProofs SiteModel SiteSpec SiteProofs
  GridProofs ReaderModel ReaderSpec ReaderProofs StationModel StationProofs TelegramModel TelegramSpec TelegramProofs.
Local Open Scope string_scope.
Local Open Scope nat_scope.
Local Notation length := List.length (only parsing).

Section Files.
Context {D T : Type} (to_int : string -> option Z) (to_float : string -> option Q)
  (mk_date : Z -> Z -> Z -> option D) (mk_time : Z -> Z -> Z -> option T)
  (to_stamp : string -> option (D * T)).
Notation cell := (@cell D T).
Notation table := (@table D T).
Notation scol := (@col string (option cell) String.eqb).
Notation sval := (scalar_value to_int to_float to_stamp).
Notation raws := (raw_values to_int to_float to_stamp).
Notation lread := (logger_readable to_int to_float to_stamp).
Notation lvalue := (logger_value to_int to_float to_stamp).

Lemma named_iff : forall hs h, named hs h = true <-> In (Some h) hs.
Proof.
  intros hs h. unfold named. rewrite existsb_exists. split.
  - intros ([n|] & I & E); [|discriminate]. apply String.eqb_eq in E. subst. exact I.
  - intros I. exists (Some h). split; [exact I|apply String.eqb_refl].
Qed.
Lemma named_false : forall hs h, named hs h = false <-> ~ In (Some h) hs.
Proof. intros hs h. rewrite <- named_iff. destruct (named hs h); split; congruence. Qed.
Definition count_f (hs : list (option string)) (h : string) : nat :=
  length (flat_map (fun o => opt_list (match o with Some n => if String.eqb n h then Some tt else None | None => None end)) hs).
Lemma count_iff : forall hs h n, header_count hs h n <-> count_f hs h = n.
Proof.
  intros hs h. assert (F : collects (fun o (_ : unit) => o = Some h) hs
    (flat_map (fun o => opt_list (match o with Some n => if String.eqb n h then Some tt else None | None => None end)) hs)).
  { apply collects_flat_map. intros [n|] [] _; [|split; discriminate].
    destruct (String.eqb_spec n h) as [->|N]; split; congruence. }
  intros n. unfold header_count. split.
  - intros (l & C & <-). unfold count_f. eapply collects_same_length; [|exact F|exact C].
    intros a _. reflexivity.
  - intros <-. eexists. split; [exact F|reflexivity].
Qed.
Lemma under_length : forall hs h row, length row = length hs -> length (under_f hs h row) = count_f hs h.
Proof.
  unfold under_f, count_f. induction hs as [|o hs IH]; intros h [|v row] L; try discriminate; [reflexivity|].
  cbn [combine flat_map fst snd]. rewrite !app_length, IH by (cbn in L; lia). f_equal.
  destruct o as [n|]; [destruct (String.eqb n h)|]; reflexivity.
Qed.
Lemma under_empty : forall hs h row, length row = length hs -> under_f hs h row = [] <-> ~ In (Some h) hs.
Proof.
  unfold under_f. induction hs as [|o hs IH]; intros h [|v row] L; try discriminate.
  - cbn. split; [auto|reflexivity].
  - cbn [combine flat_map fst snd In]. destruct o as [n|].
    + destruct (String.eqb_spec n h) as [->|N]; cbn [opt_list app].
      * split; [discriminate|]. intros H. exfalso. apply H. left. reflexivity.
      * rewrite IH by (cbn in L; lia). split; [intros H [X|X]; [congruence|auto]|auto].
    + cbn [opt_list app]. rewrite IH by (cbn in L; lia). split; [intros H [X|X]; [discriminate|auto]|auto].
Qed.
Lemma push_spec : forall h v (d : table), NoDup (map fst d) -> In h (map fst d) ->
  NoDup (map fst (push String.eqb h v d)) /\
  (forall k, In k (map fst (push String.eqb h v d)) <-> In k (map fst d)) /\
  scol (push String.eqb h v d) h = (scol d h ++ [v])%list /\
  forall k, k <> h -> scol (push String.eqb h v d) k = scol d k.
Proof.
  intros h v d N I. split; [apply push_nodup; [apply string_spec|exact N]|].
  split; [intros k; rewrite (push_keys _ string_spec); split; [intros [->|X]; assumption|auto]|].
  split; [rewrite (col_push _ string_spec), String.eqb_refl; reflexivity|].
  intros k NE. rewrite (col_push _ string_spec). destruct (String.eqb_spec h k); [congruence|reflexivity].
Qed.
Lemma if_push_spec : forall (b : bool) h v (d : table), NoDup (map fst d) -> (b = true -> In h (map fst d)) ->
  let d' := if b then push String.eqb h v d else d in
  NoDup (map fst d') /\ (forall k, In k (map fst d') <-> In k (map fst d)) /\
  (b = true -> scol d' h = (scol d h ++ [v])%list) /\ forall k, k <> h -> scol d' k = scol d k.
Proof.
  intros [|] h v d N I; cbn zeta.
  - destruct (push_spec h v d N (I eq_refl)) as (A & B & C & E). auto.
  - split; [exact N|]. split; [reflexivity|]. split; [discriminate|reflexivity].
Qed.
Lemma store_raw_spec : forall hs row r (d : table), raws hs row no_values = Ok r ->
  NoDup (map fst d) -> (forall k, In k (map fst d) <-> In (Some k) hs) ->
  (store_raw hs r d = Raise ValueError /\ count_f hs "spectrum" <> 0 /\ count_f hs "spectrum" <> 1024) \/
  (exists d', store_raw hs r d = Ok d' /\ NoDup (map fst d') /\ (forall k, In k (map fst d') <-> In (Some k) hs) /\
     forall h, In (Some h) hs -> exists v, lvalue hs h row v /\ scol d' h = (scol d h ++ [Some v])%list).
Proof.
  intros hs row r d H N K.
  destruct (raws_ok to_int to_float to_stamp _ _ _ _ H) as ((L & RD) & (l1 & C1 & F1) & (l2 & C2 & F2) & (l3 & C3 & F3) & ND & G & KS).
  cbn [no_values rr_conc rr_vel rr_spec rr_scalars app map] in *. specialize (ND (NoDup_nil _)).
  destruct (append_all_spec (rr_scalars r) d ND N) as (A0 & B0 & E0).
  assert (B1 : forall k, In k (map fst (append_all (rr_scalars r) d)) <-> In (Some k) hs).
  { intros k. rewrite B0, KS, K. split; [intros [[[]|[_ X]]|X]; exact X|auto]. }
  unfold store_raw. set (d0 := append_all (rr_scalars r) d) in *. clearbody d0.
  assert (REST : forall d1, NoDup (map fst d1) -> (forall k, In k (map fst d1) <-> In (Some k) hs) ->
    (forall k, k <> "spectrum" -> scol d1 k = scol d0 k) ->
    (In (Some "spectrum") hs -> exists v, lvalue hs "spectrum" row v /\ scol d1 "spectrum" = (scol d0 "spectrum" ++ [Some v])%list) ->
    let d2 := if named hs "number_concentration" then push String.eqb "number_concentration" (Some (CVec (rr_conc r))) d1 else d1 in
    let d3 := if named hs "fall_velocity" then push String.eqb "fall_velocity" (Some (CVec (rr_vel r))) d2 else d2 in
    NoDup (map fst d3) /\ (forall k, In k (map fst d3) <-> In (Some k) hs) /\
    forall h, In (Some h) hs -> exists v, lvalue hs h row v /\ scol d3 h = (scol d h ++ [Some v])%list).
  { intros d1 N1 K1 S1 SP d2 d3.
    destruct (if_push_spec (named hs "number_concentration") "number_concentration" (Some (CVec (rr_conc r))) d1 N1) as (N2 & K2 & P2 & O2).
    { intros X. apply K1. apply named_iff. exact X. }
    fold d2 in N2, K2, P2, O2.
    destruct (if_push_spec (named hs "fall_velocity") "fall_velocity" (Some (CVec (rr_vel r))) d2 N2) as (N3 & K3 & P3 & O3).
    { intros X. apply K2, K1. apply named_iff. exact X. }
    fold d3 in N3, K3, P3, O3. clearbody d2 d3.
    split; [exact N3|]. split; [intros k; rewrite K3, K2; apply K1|]. intros h I.
    assert (VEC : forall x, vector_name x -> In (Some x) hs -> get String.eqb x (rr_scalars r) = None).
    { intros x V _. apply (get_none _ _ _ string_spec). intros X. apply KS in X. destruct X as [[]|[X _]]. exact (proj1 X V). }
    destruct (String.eqb_spec h "fall_velocity") as [->|NV].
    { exists (CVec l2). split.
      - apply (lv_vec _ _ _ _ _ _ (under_f hs "fall_velocity" row)); [left; reflexivity|apply under_iff; reflexivity|exact F2].
      - rewrite (P3 (proj2 (named_iff _ _) I)), (O2 "fall_velocity"), S1, E0, C2, (VEC "fall_velocity") by (try discriminate; try exact I; left; reflexivity).
        cbn [option_map opt_list]. rewrite app_nil_r. reflexivity. }
    rewrite (O3 h NV).
    destruct (String.eqb_spec h "number_concentration") as [->|NC].
    { exists (CVec l1). split.
      - apply (lv_vec _ _ _ _ _ _ (under_f hs "number_concentration" row)); [right; reflexivity|apply under_iff; reflexivity|exact F1].
      - rewrite (P2 (proj2 (named_iff _ _) I)), S1, E0, C1, (VEC "number_concentration") by (try discriminate; try exact I; right; reflexivity).
        cbn [option_map opt_list]. rewrite app_nil_r. reflexivity. }
    rewrite (O2 h NC).
    destruct (String.eqb_spec h "spectrum") as [->|NS].
    { destruct (SP I) as (v & V & E). exists v. split; [exact V|]. rewrite E, E0.
      assert (X : get String.eqb "spectrum" (rr_scalars r) = None).
      { apply (get_none _ _ _ string_spec). intros X. apply KS in X. destruct X as [[]|[X _]]. apply (proj2 X). reflexivity. }
      rewrite X. cbn [option_map opt_list]. rewrite app_nil_r. reflexivity. }
    assert (SC : is_scalar h) by (split; [intros [X|X]; congruence|exact NS]).
    destruct (G h SC) as [[U _]|(us & w & c & U & S & X)].
    { exfalso. revert U. rewrite (under_empty hs h row L). auto. }
    exists c. split.
    - apply (lv_scalar _ _ _ _ _ _ us w); [apply under_iff; exact U|exact S].
    - rewrite (S1 h NS), E0, X. reflexivity. }
  destruct (named hs "spectrum") eqn:NM.
  - assert (CN : count_f hs "spectrum" = length l3) by (rewrite <- (under_length hs "spectrum" row L); exact (forall2_len _ _ _ _ _ F3)).
    apply named_iff in NM.
    destruct (reshape 32 32 (rr_spec r)) as [m|] eqn:RS.
    + right. cbn [or_error bind]. apply reshape_iff in RS. destruct RS as (LM & FM & CM).
      destruct (push_spec "spectrum" (Some (CSpec m)) d0 A0 (proj2 (B1 _) NM)) as (A1 & K1 & P1 & O1).
      eexists. split; [reflexivity|]. apply REST; [exact A1|intros k; rewrite K1; apply B1|exact O1|].
      intros _. exists (CSpec m). split; [|exact P1].
      apply (lv_spec _ _ _ _ _ _ (under_f hs "spectrum" row)); [reflexivity|apply under_iff; reflexivity|split; assumption|].
      rewrite CM, C3. exact F3.
    + left. cbn [or_error bind]. split; [reflexivity|]. rewrite CN. split.
      * rewrite <- CN. intros X. assert (Y : under_f hs "spectrum" row = []).
        { rewrite <- (under_length hs "spectrum" row L) in X. destruct (under_f hs "spectrum" row); [reflexivity|discriminate]. }
        apply (under_empty hs "spectrum" row L) in Y. auto.
      * intros X. unfold reshape in RS. rewrite C3, X in RS. discriminate.
  - right. cbn [bind]. eexists. split; [reflexivity|]. apply named_false in NM.
    apply REST; [exact A0|exact B1|reflexivity|]. intros X. destruct (NM X).
Qed.
Notation rloop := (raw_loop to_int to_float to_stamp).
Lemma raw_loop_spec : forall hs rows (d : table) n, NoDup (map fst d) -> (forall k, In k (map fst d) <-> In (Some k) hs) ->
  (rloop hs rows d n = Raise ValueError /\ (exists row, In row rows /\ lread hs row) /\
     count_f hs "spectrum" <> 0 /\ count_f hs "spectrum" <> 1024) \/
  (exists d' bad, rloop hs rows d n = Ok (d', n + bad) /\ bad <= length rows /\
     (bad = length rows -> forall row, In row rows -> ~ lread hs row) /\
     (bad <> length rows -> exists row, In row rows /\ lread hs row) /\
     NoDup (map fst d') /\ (forall k, In k (map fst d') <-> In (Some k) hs) /\
     forall h, In (Some h) hs -> exists c, scol d' h = (scol d h ++ c)%list /\
       collects (fun row o => exists v, lread hs row /\ lvalue hs h row v /\ o = Some v) rows c).
Proof.
  intros hs rows. induction rows as [|row rows IH]; intros d n N K; cbn [raw_loop].
  - right. exists d, 0. rewrite Nat.add_0_r. split; [reflexivity|]. split; [lia|]. split; [intros _ row []|].
    split; [intros X; destruct X; reflexivity|]. split; [exact N|]. split; [exact K|].
    intros h _. exists []. rewrite app_nil_r. split; [reflexivity|constructor].
  - destruct (raws hs row no_values) as [r|e] eqn:R.
    + assert (RD : lread hs row) by (destruct (raws_ok to_int to_float to_stamp _ _ _ _ R) as (X & _); exact X).
      destruct (store_raw_spec hs row r d R N K) as [(E & C1 & C2)|(d1 & E & N1 & K1 & V1)].
      * left. rewrite E. cbn [bind]. split; [reflexivity|]. split; [exists row; split; [left; reflexivity|exact RD]|]. auto.
      * rewrite E. cbn [bind]. destruct (IH d1 n N1 K1) as [(E' & (row' & I & RD') & C)|(d' & bad & E' & B & ALL & SOME & N' & K' & V')].
        -- left. split; [exact E'|]. split; [exists row'; split; [right; exact I|exact RD']|exact C].
        -- right. exists d', bad. split; [exact E'|]. cbn [length]. split; [lia|]. split; [lia|].
           split; [intros _; exists row; split; [left; reflexivity|exact RD]|].
           split; [exact N'|]. split; [exact K'|]. intros h I.
           destruct (V1 h I) as (v & LV & S1). destruct (V' h I) as (c & S' & C').
           exists (Some v :: c). split; [rewrite S', S1, <- app_assoc; reflexivity|].
           apply collects_take; [exists v; auto|exact C'].
    + assert (NR : ~ lread hs row).
      { intros X. destruct (raws_total to_int to_float to_stamp hs row no_values X) as [r' R']. congruence. }
      rewrite (raws_raise to_int to_float to_stamp _ _ _ _ R).
      destruct (IH d (S n) N K) as [(E' & (row' & I & RD') & C)|(d' & bad & E' & B & ALL & SOME & N' & K' & V')].
      * left. split; [exact E'|]. split; [exists row'; split; [right; exact I|exact RD']|exact C].
      * right. exists d', (S bad). split; [rewrite E'; f_equal; f_equal; lia|]. cbn [length]. split; [lia|].
        split; [intros X row' [<-|I]; [exact NR|apply ALL; [lia|exact I]]|].
        split; [intros X; destruct SOME as (row' & I & RD'); [lia|exists row'; split; [right; exact I|exact RD']]|].
        split; [exact N'|]. split; [exact K'|]. intros h I. destruct (V' h I) as (c & S' & C').
        exists c. split; [exact S'|]. apply collects_skip; [|exact C']. intros o (v & X & _). exact (NR X).
Qed.
Lemma read_raw_rows_spec : forall hs rows,
  logger_outcome to_int to_float to_stamp hs rows (read_raw_rows to_int to_float to_stamp hs rows).
Proof.
  intros hs rows. unfold logger_outcome, read_raw_rows.
  destruct (@empty_cols_spec D T (known_names hs)) as (N & E & K).
  assert (K' : forall k, In k (map fst (@empty_cols D T (known_names hs))) <-> In (Some k) hs).
  { intros k. rewrite K. unfold known_names. rewrite in_flat_map. split.
    - intros ([x|] & I & X); [|destruct X]. destruct X as [<-|[]]. exact I.
    - intros I. exists (Some k). split; [exact I|left; reflexivity]. }
  destruct (raw_loop_spec hs rows _ 0 N K') as [(R & RD & C1 & C2)|(d & bad & R & B & ALL & SOME & N' & K2 & V)].
  - rewrite R. cbn [bind]. right. split; [exact RD|]. left. split; [reflexivity|].
    exists (count_f hs "spectrum"). split; [apply count_iff; reflexivity|auto].
  - rewrite R. cbn [bind fst snd plus]. destruct (bad =? length rows) eqn:Q.
    + apply Nat.eqb_eq in Q. left. split; [reflexivity|]. exact (ALL Q).
    + apply Nat.eqb_neq in Q. right. split; [exact (SOME Q)|]. right. exists d. split; [reflexivity|].
      split; [exact N'|]. split; [exact K2|]. intros h c I HC. apply (has_column_iff _ string_spec _ _ _ N') in HC.
      destruct (V h I) as (c' & S & C). rewrite E in S. cbn [app] in S. subst c. rewrite S. exact C.
Qed.

(** ** Records *)
Notation value := (parse_value to_int to_float mk_date mk_time).
Notation fsays := (says to_int to_float mk_date mk_time).
Notation fcut := (cut_off to_int to_float).
Lemma get_in : forall K A (eqb : K -> K -> bool), (forall a b, eqb a b = true <-> a = b) ->
  forall (d : list (K * A)) k v, NoDup (map fst d) -> get eqb k d = Some v <-> In (k, v) d.
Proof.
  intros K A eqb S d k v. induction d as [|[k2 w] d IH]; cbn; intros N.
  - split; [discriminate|intros []].
  - inversion N as [|? ? NI N']; subst. destruct (eqb k k2) eqn:E.
    + apply S in E. subst k2. split.
      * intros H. left. congruence.
      * intros [H|H]; [congruence|]. exfalso. apply NI. apply (in_map fst) in H. exact H.
    + rewrite (IH N'). split; [auto|]. intros [H|H]; [|exact H].
      assert (X : eqb k k2 = true) by (apply S; congruence). congruence.
Qed.
Lemma telegram_nodup : NoDup (map fst telegram_names).
Proof.
  assert (E : nodup Z.eq_dec (map fst telegram_names) = map fst telegram_names) by reflexivity.
  rewrite <- E. apply NoDup_nodup.
Qed.
Lemma number_name_iff : forall n name, get Z.eqb n telegram_names = Some name <-> number_name n name.
Proof.
  intros n name. rewrite (get_in _ _ _ Z.eqb_eq) by apply telegram_nodup. split.
  - assert (F : Forall (fun p => existsb (fun q => String.eqb (fst q) (snd p) && existsb (Z.eqb (fst p)) (snd q)) quantities = true)
                  telegram_names) by (repeat constructor).
    rewrite Forall_forall in F. intros I. specialize (F _ I). cbn [fst snd] in F. apply existsb_exists in F.
    destruct F as ([x ns] & I' & F). cbn [fst snd] in F. apply andb_true_iff in F. destruct F as [E F].
    apply String.eqb_eq in E. subst x. apply existsb_exists in F. destruct F as (m & I2 & E). apply Z.eqb_eq in E. subst m.
    exists ns. auto.
  - assert (F : Forall (fun q => Forall (fun m => get Z.eqb m telegram_names = Some (fst q)) (snd q)) quantities)
      by (repeat constructor).
    rewrite Forall_forall in F. intros (ns & I & I'). specialize (F _ I). rewrite Forall_forall in F. specialize (F _ I').
    apply (get_in _ _ _ Z.eqb_eq); [apply telegram_nodup|exact F].
Qed.
Lemma take_floats_stop : forall n ws, take_floats to_float n ws = Raise StopIteration <->
  length ws < n /\ exists l, Forall2 (decimal_token to_float) ws l.
Proof.
  induction n as [|n IH]; intros ws; cbn [take_floats].
  - split; [discriminate|]. intros [H _]. lia.
  - destruct ws as [|w ws].
    + split; [|reflexivity]. intros _. split; [cbn; lia|]. exists []. constructor.
    + change (read_float to_float w) with (to_float (replace_char "," "." w)).
      destruct (to_float (replace_char "," "." w)) as [q|] eqn:E; cbn [or_error bind].
      * destruct (take_floats to_float n ws) as [[l r]|e] eqn:TF; cbn [bind].
        -- split; [discriminate|]. intros [L [l' F]]. inversion F as [|? ? ? l2 A F']; subst.
           exfalso. assert (X : take_floats to_float n ws = Raise StopIteration); [|congruence].
           apply IH. split; [cbn in L; lia|]. exists l2. exact F'.
        -- split.
           ++ intros H. assert (H' : take_floats to_float n ws = Raise StopIteration) by congruence.
              apply IH in H'. destruct H' as [L [l F]]. split; [cbn; lia|]. exists (q :: l). constructor; [exact E|exact F].
           ++ intros [L [l F]]. inversion F as [|? ? ? l2 A F']; subst.
              assert (H' : take_floats to_float n ws = Raise StopIteration).
              { apply IH. split; [cbn in L; lia|]. exists l2. exact F'. }
              congruence.
      * split; [discriminate|]. intros [_ [l F]]. inversion F as [|? ? ? l2 A F']; subst. unfold decimal_token in A. congruence.
Qed.
Lemma spectrum_stop : forall ws, ws <> [] -> @parse_spectrum D T to_int ws = Raise StopIteration <->
  length ws <= 1024 /\ exists w r, ws = ("<SPECTRUM>" ++ w) :: r /\ w <> "ZERO</SPECTRUM>".
Proof.
  intros [|w ws] NE; [congruence|]. clear NE. unfold parse_spectrum.
  assert (SO : forall o (k : cell -> result (cell * list string)), (forall c, exists x, k c = Ok x) ->
     bind (spectrum_of o) k <> Raise StopIteration).
  { intros o k KO X. apply bind_raise in X. destruct X as [X|(c & _ & X)].
    - apply spectrum_of_raise in X. discriminate.
    - destruct (KO c). congruence. }
  destruct (String.eqb_spec w "<SPECTRUM>ZERO</SPECTRUM>") as [->|NZ].
  - split; [discriminate|]. intros [_ (u & r & E & N)]. destruct N.
    assert (E2 : "<SPECTRUM>" ++ "ZERO</SPECTRUM>" = "<SPECTRUM>" ++ u) by (cbn [append] in *; congruence).
    apply append_inj in E2. congruence.
  - destruct (after_prefix "<SPECTRUM>" w) as [u|] eqn:P.
    + apply after_prefix_iff in P. destruct (skipn 1023 ws) as [|e rest] eqn:S.
      * split; [|reflexivity]. intros _. split.
        -- apply (f_equal (@List.length string)) in S. rewrite skipn_length in S. cbn [length] in *. lia.
        -- exists u, ws. split; [congruence|]. intros ->. apply NZ. exact P.
      * assert (L : 1024 <= length ws).
        { apply (f_equal (@List.length string)) in S. rewrite skipn_length in S. cbn [length] in *. lia. }
        split; [|intros [X _]; cbn [length] in X; lia].
        destruct (String.eqb e "</SPECTRUM>"); [|discriminate]. intros X. exfalso. revert X. apply SO. intros c. eexists. reflexivity.
    + apply after_prefix_none in P.
      split; [|intros [_ (u & r & E & _)]; exfalso; apply P; exists u; congruence].
      destruct (has_char "/" w); intros X; exfalso; revert X; apply SO; intros c; eexists; reflexivity.
Qed.
Lemma one_token_stop : forall f ws, ws <> [] -> @one_token D T f ws <> Raise StopIteration.
Proof.
  intros f [|w ws] N; [congruence|]. cbn [one_token]. destruct (f w); cbn; discriminate.
Qed.
Lemma value_stop : forall h ws, ws <> [] -> value h ws = Raise StopIteration <->
  (vector_name h /\ length ws < 32 /\ exists l, Forall2 (decimal_token to_float) ws l) \/
  (h = "spectrum" /\ length ws <= 1024 /\ exists w r, ws = ("<SPECTRUM>" ++ w) :: r /\ w <> "ZERO</SPECTRUM>").
Proof.
  intros h ws N. unfold parse_value. pose proof (kind_of_spec h) as K. split.
  - destruct (kind_of h); intros H; try (exfalso; revert H; apply one_token_stop; exact N).
    + left. split; [exact K|]. apply bind_raise in H. destruct H as [H|(a & _ & H)]; [|discriminate].
      apply take_floats_stop in H. exact H.
    + right. split; [exact K|]. apply spectrum_stop; assumption.
  - intros [[V H]|[-> H]].
    + rewrite (vector_kind h V). apply take_floats_stop in H. rewrite H. reflexivity.
    + change (@parse_spectrum D T to_int ws = Raise StopIteration). apply spectrum_stop; assumption.
Qed.
(** One line of a record. *)
Definition op4a_one (line : string) : result (option (string * cell)) :=
  match partition ":" (strip line) with
  | None => Ok None
  | Some (key, v) =>
      if mem_str key skipped_keys then Ok None
      else bind (or_error (to_int key)) (fun num =>
      match get Z.eqb num telegram_names with
      | None => Ok None
      | Some name => bind (value name (split_on ";" v)) (fun p => Ok (Some (name, fst p)))
      end)
  end.
Definition put_opt (d : list (string * cell)) (o : option (string * cell)) : list (string * cell) :=
  match o with Some kv => put String.eqb (fst kv) (snd kv) d | None => d end.
Lemma op4a_step : forall line rest d, op4a_values to_int to_float mk_date mk_time (line :: rest) d =
  bind (op4a_one line) (fun o => op4a_values to_int to_float mk_date mk_time rest (put_opt d o)).
Proof.
  intros line rest d. cbn [op4a_values]. unfold op4a_one.
  destruct (partition ":" (strip line)) as [[k v]|]; [|reflexivity].
  destruct (mem_str k skipped_keys); [reflexivity|].
  destruct (to_int k) as [n|]; cbn [or_error bind]; [|reflexivity].
  destruct (get Z.eqb n telegram_names) as [name|]; cbn [bind]; [|reflexivity].
  destruct (value name (split_on ";" v)) as [p|e]; reflexivity.
Qed.
Lemma blank_without : forall l, blank l -> without ":" l.
Proof. intros l B (a & b & E). specialize (B a ":"%char b E). discriminate. Qed.
Lemma without_append : forall c a b, without c (a ++ b) <-> without c a /\ without c b.
Proof.
  intros c a b. unfold without. induction a as [|x a IH]; cbn [append].
  - split; [|intros [_ H]; exact H]. intros H. split; [|exact H]. intros (u & v & E). destruct u; discriminate.
  - split.
    + intros H. split.
      * intros (u & v & E). apply H. exists u, (v ++ b). 
        change (String x (a ++ b)) with (String x a ++ b). rewrite E, append_assoc. reflexivity.
      * intros (u & v & E). apply H. exists (String x (a ++ u)), v. rewrite E. cbn [append]. rewrite append_assoc. reflexivity.
    + intros [H1 H2] (u & v & E). destruct u as [|y u]; cbn in E.
      * apply H1. exists "", a. cbn. congruence.
      * injection E as -> E. assert (W : ~ exists u v, a = u ++ String c v).
        { intros (u' & v' & E'). apply H1. exists (String y u'), v'. cbn. congruence. }
        apply (proj2 IH (conj W H2)). exists u, v. exact E.
Qed.
Lemma strip_without : forall line, without ":" (strip line) <-> without ":" line.
Proof.
  intros line. destruct (strip_stripped line) as (l & r & E & BL & BR & _).
  remember (strip line) as u. clear Hequ. subst line. rewrite !without_append.
  split; [intros H; repeat split; auto using blank_without|tauto].
Qed.
Lemma stripped_iff : forall line u, stripped line u <-> strip line = u.
Proof. intros line u. split; [apply stripped_unique|intros <-; apply strip_stripped]. Qed.
Lemma op4a_one_iff : forall line o, op4a_one line = Ok o <-> fsays line o.
Proof.
  intros line o. unfold op4a_one. split.
  - destruct (partition ":" (strip line)) as [[k v]|] eqn:P.
    + apply partition_some in P. destruct P as [P W]. destruct (mem_str k skipped_keys) eqn:M.
      { intros H. assert (o = None) by congruence. subst o. apply mem_str_iff in M.
        apply (says_skipped _ _ _ _ _ (strip line) k v); [apply strip_stripped|exact P|exact M]. }
      apply mem_str_false in M. destruct (to_int k) as [n|] eqn:TI; cbn [or_error bind]; [|discriminate].
      destruct (get Z.eqb n telegram_names) as [name|] eqn:G.
      * intros H. apply bind_ok in H. destruct H as ([c ts] & A & B). cbn [fst] in B.
        assert (o = Some (name, c)) by congruence. subst o. apply parse_value_iff in A. destruct A as (ws & A & F).
        apply split_on_iff in A.
        apply (says_value _ _ _ _ _ (strip line) k v ws ts n name c); try assumption; [apply strip_stripped|].
        apply number_name_iff. exact G.
      * intros H. assert (o = None) by congruence. subst o.
        apply (says_unknown _ _ _ _ _ (strip line) k v n); try assumption; [apply strip_stripped|].
        intros name X. apply number_name_iff in X. congruence.
    + intros H. assert (o = None) by congruence. subst o. apply says_nothing. apply partition_none in P.
      apply strip_without. exact P.
  - intros S. destruct S as [u k v ws ts n name c SU E W M TI NN SEP FV|u k v n SU E W M TI NN|u k v SU E M|W].
    + apply stripped_iff in SU. rewrite SU, (proj2 (partition_some _ _ k v) (conj E W)).
      rewrite (proj2 (mem_str_false _ skipped_keys) M), TI. cbn [or_error bind]. apply number_name_iff in NN. rewrite NN.
      apply split_on_iff in SEP. rewrite SEP. apply bind_ok. exists (c, ts). split; [|reflexivity].
      apply parse_value_iff. exists ws. auto.
    + apply stripped_iff in SU. rewrite SU, (proj2 (partition_some _ _ k v) (conj E W)).
      rewrite (proj2 (mem_str_false _ skipped_keys) M), TI. cbn [or_error bind].
      destruct (get Z.eqb n telegram_names) as [name|] eqn:G; [|reflexivity]. apply number_name_iff in G. destruct (NN name G).
    + assert (W : without ":" k).
      { intros (a & b & X). subst k.
        destruct M as [Y|[Y|[Y|[Y|[Y|[]]]]]]; do 3 (destruct a as [|? a]; [discriminate|injection Y as _ Y || discriminate]). }
      apply stripped_iff in SU. rewrite SU, (proj2 (partition_some _ _ k v) (conj E W)).
      rewrite (proj2 (mem_str_iff k skipped_keys) M). reflexivity.
    + apply strip_without in W. apply partition_none in W. rewrite W. reflexivity.
Qed.
Lemma op4a_one_stop : forall line, op4a_one line = Raise StopIteration <-> fcut line.
Proof.
  intros line. unfold op4a_one, cut_off. split.
  - destruct (partition ":" (strip line)) as [[k v]|] eqn:P; [|discriminate].
    apply partition_some in P. destruct P as [P W]. destruct (mem_str k skipped_keys) eqn:M; [discriminate|].
    apply mem_str_false in M. destruct (to_int k) as [n|] eqn:TI; cbn [or_error bind]; [|discriminate].
    destruct (get Z.eqb n telegram_names) as [name|] eqn:G; [|discriminate].
    intros H. apply bind_raise in H. destruct H as [H|(a & _ & H)]; [|discriminate].
    apply value_stop in H; [|apply (proj1 (split_on_spec ";" v))].
    exists (strip line), k, v, n, name, (split_on ";" v). split; [apply strip_stripped|].
    split; [exact P|]. split; [exact W|]. split; [exact M|]. split; [exact TI|]. split; [apply number_name_iff; exact G|].
    split; [apply split_on_spec|]. exact H.
  - intros (u & k & v & n & name & ws & SU & E & W & M & TI & NN & SEP & H).
    apply stripped_iff in SU. rewrite SU, (proj2 (partition_some _ _ k v) (conj E W)).
    rewrite (proj2 (mem_str_false _ skipped_keys) M), TI. cbn [or_error bind]. apply number_name_iff in NN. rewrite NN.
    assert (NE : ws <> []) by (apply (proj1 SEP)). apply split_on_iff in SEP. rewrite SEP.
    apply value_stop in H; [|exact NE]. rewrite H. reflexivity.
Qed.
Lemma op4a_one_raise : forall line e, op4a_one line = Raise e -> e = ValueError \/ e = StopIteration.
Proof.
  intros line e. unfold op4a_one. destruct (partition ":" (strip line)) as [[k v]|]; [|discriminate].
  destruct (mem_str k skipped_keys); [discriminate|]. intros H. apply bind_raise in H. destruct H as [H|(n & _ & H)].
  - exact (or_error_raise _ _ _ H).
  - destruct (get Z.eqb n telegram_names) as [name|]; [|discriminate]. apply bind_raise in H.
    destruct H as [H|(a & _ & H)]; [exact (parse_value_raise _ _ _ _ _ _ _ H)|discriminate].
Qed.
Notation op4a := (op4a_values to_int to_float mk_date mk_time).
Lemma op4a_ok : forall lines d r, op4a lines d = Ok r <->
  exists es, Forall2 fsays lines es /\ r = fold_left put_opt es d.
Proof.
  induction lines as [|line lines IH]; intros d r.
  - cbn [op4a_values]. split.
    + intros H. exists []. split; [constructor|]. cbn. congruence.
    + intros (es & F & ->). inversion F. reflexivity.
  - rewrite op4a_step, bind_ok. split.
    + intros (o & A & B). apply op4a_one_iff in A. apply IH in B. destruct B as (es & F & ->).
      exists (o :: es). split; [constructor; assumption|reflexivity].
    + intros (es & F & ->). inversion F as [|? o ? es' S F']; subst. exists o. split; [apply op4a_one_iff; exact S|].
      apply IH. exists es'. auto.
Qed.
Notation stops_at := (stops_at to_int to_float mk_date mk_time).
Lemma op4a_raise : forall lines d e, op4a lines d = Raise e ->
  (e = StopIteration /\ stops_at fcut lines) \/
  (e = ValueError /\ stops_at (fun line => (forall o, ~ fsays line o) /\ ~ fcut line) lines).
Proof.
  induction lines as [|line lines IH]; intros d e; [discriminate|]. rewrite op4a_step. intros H.
  apply bind_raise in H. destruct H as [H|(o & A & H)].
  - destruct (op4a_one_raise line e H) as [->| ->].
    + right. split; [reflexivity|]. exists [], line, lines. split; [reflexivity|]. split; [intros l []|]. split.
      * intros o S. apply op4a_one_iff in S. congruence.
      * intros C. apply op4a_one_stop in C. congruence.
    + left. split; [reflexivity|]. exists [], line, lines. split; [reflexivity|]. split; [intros l []|].
      apply op4a_one_stop. exact H.
  - apply op4a_one_iff in A.
    destruct (IH _ _ H) as [(-> & a & l & b & -> & PRE & P)|(-> & a & l & b & -> & PRE & P)]; [left|right];
      (split; [reflexivity|]; exists (line :: a), l, b; split; [reflexivity|]; split; [|exact P];
       intros l' [<-|I]; [exists o; exact A|exact (PRE l' I)]).
Qed.
Lemma stops_not_said : forall lines es (P : string -> Prop), (forall line o, P line -> ~ fsays line o) ->
  stops_at P lines -> ~ Forall2 fsays lines es.
Proof.
  intros lines es P H (a & line & b & -> & _ & X) F. apply Forall2_app_inv_l in F. destruct F as (e1 & e2 & _ & F & _).
  inversion F as [|? o ? ? S _]; subst. exact (H line o X S).
Qed.
Lemma cut_not_said : forall line o, fcut line -> ~ fsays line o.
Proof. intros line o C S. apply op4a_one_stop in C. apply op4a_one_iff in S. congruence. Qed.
Lemma put_opt_nodup : forall es d, NoDup (map fst d) -> NoDup (map fst (fold_left put_opt es d)).
Proof.
  induction es as [|[[k v]|] es IH]; intros d N; cbn [fold_left put_opt]; [exact N| |apply IH; exact N].
  apply IH. apply put_nodup; [apply string_spec|exact N].
Qed.
Lemma put_opt_get : forall es d name,
  (exists i c, nth_error es i = Some (Some (name, c)) /\ get String.eqb name (fold_left put_opt es d) = Some c /\
     forall j c', i < j -> nth_error es j <> Some (Some (name, c'))) \/
  ((forall c, ~ In (Some (name, c)) es) /\ get String.eqb name (fold_left put_opt es d) = get String.eqb name d).
Proof.
  induction es as [|o es IH]; intros d name; cbn [fold_left].
  - right. split; [intros c []|reflexivity].
  - destruct (IH (put_opt d o) name) as [(i & c & A & B & C)|[A B]].
    + left. exists (S i), c. split; [exact A|]. split; [exact B|]. intros [|j] c' L; [lia|]. apply C. lia.
    + rewrite B. destruct o as [[k v]|]; cbn [put_opt fst snd].
      * rewrite (get_put _ _ _ string_spec). destruct (String.eqb_spec name k) as [->|NE].
        -- left. exists 0, v. split; [reflexivity|]. split; [reflexivity|]. intros [|j] c' L; [lia|].
           cbn. intros X. apply nth_error_In in X. exact (A c' X).
        -- right. split; [|reflexivity]. intros c [X|X]; [congruence|exact (A c X)].
      * right. split; [|reflexivity]. intros c [X|X]; [discriminate|exact (A c X)].
Qed.
Lemma said_get : forall es name, said es name (get String.eqb name (fold_left put_opt es [])).
Proof.
  intros es name. unfold said. destruct (put_opt_get es [] name) as [(i & c & A & B & C)|[A B]].
  - left. exists i, c. auto.
  - right. auto.
Qed.
Lemma said_unique : forall (es : list (option (string * cell))) name o o', said es name o -> said es name o' -> o = o'.
Proof.
  intros es name o o' [(i & c & A & -> & C)|[A ->]] [(i' & c' & A' & -> & C')|[A' ->]]; [| | |reflexivity].
  - destruct (lt_eq_lt_dec i i') as [[L|L]|L].
    + destruct (C i' c' L A').
    + subst. congruence.
    + destruct (C' i c L A).
  - destruct (A' c). apply nth_error_In in A. exact A.
  - destruct (A c'). apply nth_error_In in A'. exact A'.
Qed.
Definition base (n : nat) (d : table) (k : string) : list (option cell) :=
  match column_of String.eqb k d with Some c => c | None => repeat None n end.
Lemma column_app : forall (d : table) k c k', column_of String.eqb k' (d ++ [(k, c)])%list =
  match column_of String.eqb k' d with Some x => Some x | None => if String.eqb k' k then Some c else None end.
Proof.
  induction d as [|[k2 c2] d IH]; intros k c k'; cbn; [reflexivity|].
  destruct (String.eqb k' k2); [reflexivity|apply IH].
Qed.
Lemma column_push : forall (d : table) k v k', column_of String.eqb k' (push String.eqb k v d) =
  if String.eqb k k' then Some (scol d k ++ [v])%list else column_of String.eqb k' d.
Proof.
  intros d k v k'. unfold col. induction d as [|[k2 c2] d IH]; cbn.
  - destruct (String.eqb_spec k k') as [->|N].
    + rewrite String.eqb_refl. reflexivity.
    + destruct (String.eqb_spec k' k); [congruence|reflexivity].
  - destruct (String.eqb_spec k k2) as [->|N]; cbn.
    + destruct (String.eqb_spec k2 k') as [->|N'].
      * rewrite String.eqb_refl. reflexivity.
      * destruct (String.eqb_spec k' k2); [congruence|reflexivity].
    + rewrite IH. destruct (String.eqb_spec k k') as [->|N'].
      * destruct (String.eqb_spec k' k2); [congruence|reflexivity].
      * reflexivity.
Qed.
Lemma add_value_column : forall (d : table) kv t k, column_of String.eqb "_datetime" d = Some t ->
  column_of String.eqb k (add_value d kv) =
  if String.eqb (fst kv) k then Some (base (length t) d (fst kv) ++ [Some (snd kv)])%list else column_of String.eqb k d.
Proof.
  intros d [k0 v] t k H. unfold add_value, base. cbn [fst snd]. rewrite column_push.
  destruct (String.eqb_spec k0 k) as [->|N].
  - f_equal. f_equal. unfold col. destruct (column_of String.eqb k d) as [c|] eqn:E.
    + rewrite E. reflexivity.
    + rewrite column_app, E, String.eqb_refl, H. reflexivity.
  - destruct (column_of String.eqb k0 d) as [c|]; [reflexivity|].
    rewrite column_app. destruct (column_of String.eqb k d); [reflexivity|].
    destruct (String.eqb_spec k k0); [congruence|reflexivity].
Qed.
Lemma add_value_nodup : forall (d : table) kv, NoDup (map fst d) -> NoDup (map fst (add_value d kv)).
Proof.
  intros d [k v] N. unfold add_value. cbn [fst snd]. apply push_nodup; [apply string_spec|].
  destruct (column_of String.eqb k d) as [c|] eqn:E; [exact N|].
  rewrite map_app. cbn [map fst]. apply (column_of_none _ string_spec) in E.
  apply NoDup_app; [exact N|repeat constructor; intros []|]. intros x I [<-|[]]. exact (E I).
Qed.
Lemma add_fold : forall record (d : table) t, NoDup (map fst record) -> ~ In "_datetime" (map fst record) ->
  NoDup (map fst d) -> column_of String.eqb "_datetime" d = Some t ->
  let d1 := fold_left add_value record d in
  NoDup (map fst d1) /\ forall k, column_of String.eqb k d1 =
    match get String.eqb k record with
    | Some v => Some (base (length t) d k ++ [Some v])%list
    | None => column_of String.eqb k d
    end.
Proof.
  induction record as [|[k0 v] record IH]; intros d t N ND NDd H; cbn [fold_left get].
  - split; [exact NDd|reflexivity].
  - cbn [map fst] in N, ND. inversion N as [|? ? NI N']; subst.
    assert (X : k0 <> "_datetime") by (intros ->; apply ND; left; reflexivity).
    destruct (IH (add_value d (k0, v)) t N') as [A B].
    + intros I. apply ND. right. exact I.
    + apply add_value_nodup. exact NDd.
    + rewrite (add_value_column d (k0, v) t) by exact H. cbn [fst]. destruct (String.eqb_spec k0 "_datetime"); [congruence|exact H].
    + split; [exact A|]. intros k. rewrite B. destruct (String.eqb_spec k k0) as [->|NE].
      * assert (G : get String.eqb k0 record = None) by (apply (get_none _ _ _ string_spec); exact NI).
        rewrite G, (add_value_column d (k0, v) t _ H). cbn [fst snd]. rewrite String.eqb_refl. reflexivity.
      * assert (E : column_of String.eqb k (add_value d (k0, v)) = column_of String.eqb k d).
        { rewrite (add_value_column d (k0, v) t _ H). cbn [fst snd]. destruct (String.eqb_spec k0 k); [congruence|reflexivity]. }
        unfold base. rewrite E. reflexivity.
Qed.
Lemma column_map : forall (f : string -> list (option cell) -> list (option cell)) (d : table) k,
  column_of String.eqb k (map (fun kc => (fst kc, f (fst kc) (snd kc))) d) =
  option_map (f k) (column_of String.eqb k d).
Proof.
  intros f d k. induction d as [|[k2 c2] d IH]; cbn; [reflexivity|].
  destruct (String.eqb_spec k k2) as [->|]; [reflexivity|exact IH].
Qed.
Lemma add_values_spec : forall record (d : table) t, NoDup (map fst record) -> ~ In "_datetime" (map fst record) ->
  NoDup (map fst d) -> column_of String.eqb "_datetime" d = Some t ->
  let d1 := add_values record d in
  NoDup (map fst d1) /\ column_of String.eqb "_datetime" d1 = Some t /\
  forall k, k <> "_datetime" -> column_of String.eqb k d1 =
    match column_of String.eqb k d, get String.eqb k record with
    | None, None => None
    | _, o => Some (base (length t) d k ++ [o])%list
    end.
Proof.
  intros record d t N ND NDd H. unfold add_values.
  destruct (add_fold record d t N ND NDd H) as [A B].
  set (f := fun k (c : list (option cell)) => match get String.eqb k record with
              | Some _ => c | None => if String.eqb k "_datetime" then c else (c ++ [None])%list end).
  assert (E : map (fun kc => match get String.eqb (fst kc) record with
                 | Some _ => kc
                 | None => if String.eqb (fst kc) "_datetime" then kc else (fst kc, snd kc ++ [None])%list
                 end) (fold_left add_value record d) =
              map (fun kc => (fst kc, f (fst kc) (snd kc))) (fold_left add_value record d)).
  { apply map_ext. intros [k c]. unfold f. cbn [fst snd]. destruct (get String.eqb k record); [reflexivity|].
    destruct (String.eqb k "_datetime"); reflexivity. }
  cbn zeta. rewrite E. split; [rewrite map_map; exact A|].
  assert (G : get String.eqb "_datetime" record = None) by (apply (get_none _ _ _ string_spec); exact ND).
  split; [rewrite column_map, B, G, H; unfold f; rewrite G; reflexivity|].
  intros k NE. rewrite column_map, B. unfold f, base. apply String.eqb_neq in NE. rewrite NE.
  destruct (get String.eqb k record) as [v|]; cbn [option_map].
  - destruct (column_of String.eqb k d); reflexivity.
  - destruct (column_of String.eqb k d); reflexivity.
Qed.
Notation floop := (fmi_loop to_int to_float mk_date mk_time).
Notation frec := (@fmi_record D T).
(** A record that says [es]. *)
Definition good (r : frec) (es : list (option (string * cell))) : Prop := Forall2 fsays (fr_lines r) es.
Lemma says_unique : forall line o o', fsays line o -> fsays line o' -> o = o'.
Proof. intros line o o' A B. apply op4a_one_iff in A, B. congruence. Qed.
Lemma good_unique : forall r es es', good r es -> good r es' -> es = es'.
Proof.
  unfold good. intros r. generalize (fr_lines r). clear r. induction l as [|x l IH]; intros es es' A B; inversion A; inversion B; subst; [reflexivity|].
  f_equal; [eapply says_unique; eassumption|apply IH; assumption].
Qed.
Lemma fmi_loop_spec : forall rs (d : table) t,
  (forall r es c, In r rs -> good r es -> ~ In (Some ("_datetime", c)) es) ->
  NoDup (map fst d) -> column_of String.eqb "_datetime" d = Some t ->
  (forall k c, column_of String.eqb k d = Some c -> length c = length t) ->
  match floop rs d with
  | Ok d' => NoDup (map fst d') /\ (forall r, In r rs -> ~ stops_at fcut (fr_lines r)) /\
     (exists t', column_of String.eqb "_datetime" d' = Some (t ++ t')%list /\
        collects (fun r o => exists es s, good r es /\ fr_stamp r = Some s /\ o = Some (CStamp s)) rs t') /\
     (forall r es, In r rs -> good r es -> fr_stamp r <> None) /\
     (forall k, k <> "_datetime" -> In k (map fst d') <->
        In k (map fst d) \/ exists r es c, In r rs /\ good r es /\ In (Some (k, c)) es) /\
     (forall k, k <> "_datetime" -> In k (map fst d') -> exists c', column_of String.eqb k d' = Some (base (length t) d k ++ c')%list /\
        collects (fun r o => exists es, good r es /\ said es k o) rs c')
  | Raise e => (e = StopIteration /\ exists r, In r rs /\ stops_at fcut (fr_lines r)) \/
               (e = ValueError /\ exists r es, In r rs /\ good r es /\ fr_stamp r = None)
  end.
Proof.
  induction rs as [|r rs IH]; intros d t HD N H L; cbn [fmi_loop].
  - split; [exact N|]. split; [intros r []|]. split; [exists []; rewrite app_nil_r; split; [exact H|constructor]|].
    split; [intros r es []|]. split.
    + intros k _. split; [auto|]. intros [X|(r & es & c & [] & _)]. exact X.
    + intros k NE I. exists []. split; [|constructor]. rewrite app_nil_r. unfold base.
      destruct (column_of String.eqb k d) eqn:E; [reflexivity|]. apply (column_of_none _ string_spec) in E. destruct (E I).
  - unfold read_op4a. destruct (op4a (fr_lines r) []) as [record|e] eqn:OP.
    + apply op4a_ok in OP. destruct OP as (es & F & ->).
      destruct (fr_stamp r) as [s|] eqn:ST; [|right; split; [reflexivity|]; exists r, es; split; [left; reflexivity|split; assumption]].
      set (record := fold_left put_opt es []) in *.
      assert (NR : NoDup (map fst record)) by (apply put_opt_nodup; constructor).
      assert (SG : forall k, said es k (get String.eqb k record)) by (intros k; apply said_get).
      assert (ND : ~ In "_datetime" (map fst record)).
      { destruct (get String.eqb "_datetime" record) as [c|] eqn:G.
        - exfalso. specialize (SG "_datetime"). rewrite G in SG. destruct SG as [(i & c' & X & _)|[_ X]]; [|discriminate].
          apply nth_error_In in X. exact (HD r es c' (or_introl eq_refl) F X).
        - apply (get_none _ _ _ string_spec). exact G. }
      clearbody record.
      destruct (add_values_spec record d t NR ND N H) as (N1 & T1 & C1).
      set (d1 := add_values record d) in *. clearbody d1.
      assert (N2 : NoDup (map fst (push String.eqb "_datetime" (Some (CStamp s)) d1))) by (apply push_nodup; [apply string_spec|exact N1]).
      assert (T2 : column_of String.eqb "_datetime" (push String.eqb "_datetime" (Some (CStamp s)) d1) = Some (t ++ [Some (CStamp s)])%list).
      { rewrite column_push, String.eqb_refl. unfold col. rewrite T1. reflexivity. }
      assert (C2 : forall k, k <> "_datetime" -> column_of String.eqb k (push String.eqb "_datetime" (Some (CStamp s)) d1) =
        match column_of String.eqb k d, get String.eqb k record with
        | None, None => None | _, o => Some (base (length t) d k ++ [o])%list end).
      { intros k NE. rewrite column_push. destruct (String.eqb_spec "_datetime" k); [congruence|]. apply C1. exact NE. }
      set (d2 := push String.eqb "_datetime" (Some (CStamp s)) d1) in *. clearbody d2.
      specialize (IH d2 (t ++ [Some (CStamp s)])%list (fun r' es' c I => HD r' es' c (or_intror I)) N2 T2).
      assert (BL : forall k, length (base (length t) d k) = length t).
      { intros k. unfold base. destruct (column_of String.eqb k d) as [c|] eqn:E; [exact (L k c E)|apply repeat_length]. }
      assert (L2 : forall k c, column_of String.eqb k d2 = Some c -> length c = length (t ++ [Some (CStamp s)])%list).
      { intros k c E. destruct (String.eqb_spec k "_datetime") as [->|NE]; [congruence|]. rewrite (C2 k NE) in E.
        destruct (column_of String.eqb k d) as [x|], (get String.eqb k record) as [y|]; try discriminate;
          (assert (E' := f_equal (fun o => match o with Some a => length a | None => 0 end) E); cbn beta iota in E';
           rewrite <- E', !app_length, BL; reflexivity). }
      specialize (IH L2).
      assert (K2 : forall k, k <> "_datetime" -> In k (map fst d2) <-> In k (map fst d) \/ exists c, In (Some (k, c)) es).
      { intros k NE.
        assert (IN : forall dd : table, In k (map fst dd) <-> column_of String.eqb k dd <> None).
        { intros dd. destruct (in_dec string_dec k (map fst dd)) as [I|I].
          - split; [intros _ X; apply (column_of_none _ string_spec) in X; exact (X I)|auto].
          - split; [intros X; destruct (I X)|]. intros X. destruct X. apply (column_of_none _ string_spec). exact I. }
        rewrite !IN, (C2 k NE). specialize (SG k). split.
        - intros X. destruct (column_of String.eqb k d) as [x|]; [left; discriminate|].
          destruct (get String.eqb k record) as [y|]; [|congruence]. right.
          destruct SG as [(i & c' & Y & _)|[_ Y]]; [|discriminate]. exists c'. apply nth_error_In in Y. exact Y.
        - intros [X|[c X]].
          + destruct (column_of String.eqb k d); [destruct (get String.eqb k record); discriminate|congruence].
          + destruct (get String.eqb k record) as [y|] eqn:G; [destruct (column_of String.eqb k d); discriminate|].
            exfalso. destruct SG as [(i & c' & _ & Y & _)|[Y _]]; [discriminate|exact (Y c X)]. }
      destruct (floop rs d2) as [d'|e].
      * destruct IH as (N' & CUT & (t' & T' & CT) & STP & K' & C').
        split; [exact N'|].
        assert (NC : ~ stops_at fcut (fr_lines r)).
        { intros X. exact (stops_not_said _ es fcut cut_not_said X F). }
        split; [intros r' [<-|I]; [exact NC|exact (CUT r' I)]|].
        split.
        { exists (Some (CStamp s) :: t'). rewrite <- app_assoc in T'. split; [exact T'|].
          apply collects_take; [exists es, s; auto|exact CT]. }
        split; [intros r' es' [<-|I] G; [congruence|exact (STP r' es' I G)]|].
        split.
        { intros k NE. rewrite (K' k NE), (K2 k NE). split.
          - intros [[X|[c X]]|(r' & es' & c & I & G & X)]; [left; exact X|right; exists r, es, c; split; [left; reflexivity|split; assumption]|].
            right. exists r', es', c. split; [right; exact I|split; assumption].
          - intros [X|(r' & es' & c & [<-|I] & G & X)]; [left; left; exact X| |].
            + left. right. exists c. rewrite (good_unique _ _ _ F G). exact X.
            + right. exists r', es', c. auto. }
        { intros k NE I. destruct (C' k NE I) as (c' & E & CC). exists (get String.eqb k record :: c'). split.
          - rewrite E. f_equal. unfold base at 1. rewrite (C2 k NE), app_length. cbn [length].
            unfold base. destruct (column_of String.eqb k d) as [x|].
            + destruct (get String.eqb k record); rewrite <- app_assoc; reflexivity.
            + destruct (get String.eqb k record); [rewrite <- app_assoc; reflexivity|].
              rewrite repeat_app. cbn [repeat]. rewrite <- app_assoc. reflexivity.
          - apply collects_take; [exists es; auto|exact CC]. }
      * destruct IH as [[-> (r' & I & X)]|[-> (r' & es' & I & X)]]; [left|right]; (split; [reflexivity|]).
        -- exists r'. split; [right; exact I|exact X].
        -- exists r', es'. split; [right; exact I|exact X].
    + apply op4a_raise in OP.
      assert (NG : forall es, ~ good r es).
      { intros es G. destruct OP as [[_ X]|[_ X]].
        - exact (stops_not_said _ es fcut cut_not_said X G).
        - refine (stops_not_said _ es _ _ X G). intros line o [Y _]. apply Y. }
      destruct OP as [[-> X]|[-> X]].
      { left. split; [reflexivity|]. exists r. split; [left; reflexivity|exact X]. }
      specialize (IH d t (fun r' es' c I => HD r' es' c (or_intror I)) N H L).
      destruct (floop rs d) as [d'|e].
      * destruct IH as (N' & CUT & (t' & T' & CT) & STP & K' & C'). split; [exact N'|]. split.
        { intros r' [<-|I]; [|exact (CUT r' I)]. intros (a & line & b & EQ & PRE & CL).
          destruct X as (a' & line' & b' & EQ' & PRE' & [NS NCL]).
          (* the first unreadable line is unique *)
          assert (U : forall a a' l l' b b', (a ++ l :: b)%list = (a' ++ l' :: b')%list ->
            (forall x, In x a -> exists o, fsays x o) -> (forall x, In x a' -> exists o, fsays x o) ->
            (forall o, ~ fsays l o) -> (forall o, ~ fsays l' o) -> l = l').
          { clear. induction a as [|x a IHa]; intros [|x' a'] l l' b b' E P P' Q Q'; cbn in E.
            - congruence.
            - exfalso. destruct (P' x' (or_introl eq_refl)) as [o O]. apply (Q o). congruence.
            - exfalso. destruct (P x (or_introl eq_refl)) as [o O]. apply (Q' o). congruence.
            - injection E as _ E. eapply IHa; [exact E| | |exact Q|exact Q'].
              + intros y I. apply P. right. exact I.
              + intros y I. apply P'. right. exact I. }
          assert (line = line').
          { eapply U; [rewrite <- EQ; exact EQ'|exact PRE|exact PRE'|intros o S; exact (cut_not_said _ _ CL S)|exact NS]. }
          subst. exact (NCL CL). }
        split; [exists t'; split; [exact T'|]; apply collects_skip; [intros o (es & s & G & _); exact (NG es G)|exact CT]|].
        split; [intros r' es' [<-|I] G; [destruct (NG es' G)|exact (STP r' es' I G)]|]. split.
        { intros k NE. rewrite (K' k NE). split.
          - intros [Y|(r' & es' & c & I & Y)]; [left; exact Y|right; exists r', es', c; split; [right; exact I|exact Y]].
          - intros [Y|(r' & es' & c & [<-|I] & G & Y)]; [left; exact Y|destruct (NG es' G)|right; exists r', es', c; auto]. }
        { intros k NE I. destruct (C' k NE I) as (c' & E & CC). exists c'. split; [exact E|].
          apply collects_skip; [intros o (es & G & _); exact (NG es G)|exact CC]. }
      * destruct IH as [[-> (r' & I & Y)]|[-> (r' & es' & I & Y)]]; [left|right]; (split; [reflexivity|]).
        -- exists r'. split; [right; exact I|exact Y].
        -- exists r', es'. split; [right; exact I|exact Y].
Qed.
End Files.
