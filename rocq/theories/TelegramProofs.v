(** Proofs about the Parsivel reader of level 1b files. *)
From Coq Require Import DecimalString DecimalNat.
From Verif Require Import Base GridModel ArrayProofs OutputModel OutputSpec OutputProofs SiteModel SiteSpec SiteProofs
  ReaderModel ReaderSpec ReaderProofs StationModel StationProofs TelegramModel TelegramSpec.
Local Open Scope string_scope.
Local Open Scope nat_scope.
Local Notation length := List.length (only parsing).

(** ** Texts *)
Lemma after_prefix_iff : forall p s r, after_prefix p s = Some r <-> s = p ++ r.
Proof.
  induction p as [|a p IH]; intros s r; cbn.
  - split; [intros H; injection H as ->; reflexivity|intros ->; reflexivity].
  - destruct s as [|b s]; [split; discriminate|].
    destruct (Ascii.eqb_spec a b) as [->|N].
    + rewrite IH. split; [intros ->; reflexivity|intros H; injection H as ->; reflexivity].
    + split; [discriminate|]. intros H. injection H as H _. congruence.
Qed.
Lemma after_prefix_none : forall p s, after_prefix p s = None <-> ~ starts_with p s.
Proof.
  intros p s. unfold starts_with. split.
  - intros H [r E]. apply after_prefix_iff in E. congruence.
  - intros H. destruct (after_prefix p s) as [r|] eqn:E; [|reflexivity].
    apply after_prefix_iff in E. destruct H. exists r. exact E.
Qed.
Lemma append_length : forall a b, String.length (a ++ b) = String.length a + String.length b.
Proof. induction a as [|x a IH]; intros b; cbn; [reflexivity|]. rewrite IH. reflexivity. Qed.
Lemma append_cancel : forall e a b, a ++ e = b ++ e -> a = b.
Proof.
  intros e a. induction a as [|x a IH]; intros [|y b] H; cbn in H.
  - reflexivity.
  - exfalso. apply (f_equal String.length) in H. cbn in H. rewrite append_length in H. lia.
  - exfalso. apply (f_equal String.length) in H. cbn in H. rewrite append_length in H. lia.
  - injection H as -> H. f_equal. apply IH. exact H.
Qed.
Lemma remove_suffix_spec : forall e s, without_ending e s (remove_suffix e s).
Proof.
  intros e s. unfold without_ending. induction s as [|x s IH]; cbn [remove_suffix].
  - destruct (String.eqb_spec "" e) as [<-|N]; [left; reflexivity|].
    right. split; [reflexivity|]. intros [u H]. destruct u; [cbn in H; congruence|discriminate].
  - destruct (String.eqb_spec (String x s) e) as [<-|N]; [left; reflexivity|].
    destruct IH as [H|[H K]].
    + left. cbn. f_equal. exact H.
    + right. split; [f_equal; exact H|]. intros [u E]. destruct u as [|y u]; [cbn in E; congruence|].
      cbn in E. injection E as _ E. apply K. exists u. exact E.
Qed.
Lemma remove_suffix_iff : forall e s t, remove_suffix e s = t <-> without_ending e s t.
Proof.
  intros e s t. split; [intros <-; apply remove_suffix_spec|].
  intros H. destruct (remove_suffix_spec e s) as [A|[A B]], H as [C|[C F]].
  - apply (append_cancel e). congruence.
  - destruct F. exists (remove_suffix e s). exact A.
  - destruct B. exists t. exact C.
  - congruence.
Qed.
Lemma piece_iff : forall s a n w, substring a n s = w <-> piece s a n w.
Proof.
  intros s a n w. unfold piece. rewrite <- get_correct. split.
  - intros H i. rewrite <- H. destruct (i <? n) eqn:E.
    + apply Nat.ltb_lt in E. rewrite (substring_correct1 s a n i E). f_equal. lia.
    + apply Nat.ltb_ge in E. apply substring_correct2. exact E.
  - intros H i. rewrite H. destruct (i <? n) eqn:E.
    + apply Nat.ltb_lt in E. rewrite (substring_correct1 s a n i E). f_equal. lia.
    + apply Nat.ltb_ge in E. apply substring_correct2. exact E.
Qed.
Lemma contains_iff : forall p s, contains p s = true <-> occurs p s.
Proof.
  intros p s. unfold occurs. induction s as [|x s IH]; cbn [contains].
  - destruct (after_prefix p "") as [r|] eqn:E.
    + apply after_prefix_iff in E. split; [|reflexivity]. intros _. exists "", r. exact E.
    + split; [discriminate|]. intros (a & b & H). apply after_prefix_none in E. destruct E. exists b.
      destruct a; [exact H|discriminate].
  - destruct (after_prefix p (String x s)) as [r|] eqn:E.
    + apply after_prefix_iff in E. split; [|reflexivity]. intros _. exists "", r. exact E.
    + rewrite IH. split.
      * intros (a & b & H). exists (String x a), b. cbn. f_equal. exact H.
      * intros (a & b & H). destruct a as [|y a].
        -- apply after_prefix_none in E. destruct E. exists b. exact H.
        -- cbn in H. injection H as _ H. exists a, b. exact H.
Qed.
Lemma mem_str_iff : forall s l, mem_str s l = true <-> In s l.
Proof.
  intros s l. unfold mem_str. rewrite existsb_exists. split.
  - intros (x & H & E). apply String.eqb_eq in E. subst. exact H.
  - intros H. exists s. split; [exact H|apply String.eqb_refl].
Qed.
Lemma mem_str_false : forall s l, mem_str s l = false <-> ~ In s l.
Proof. intros s l. rewrite <- mem_str_iff. destruct (mem_str s l); split; congruence. Qed.
Lemma split_on_iff : forall c s l, split_on c s = l <-> separated c s l.
Proof. intros c s l. split; [intros <-; apply split_on_spec|apply split_on_unique]. Qed.
Lemma separated_has : forall c s a b l, separated c s (a :: b :: l) -> has_char c s = true.
Proof.
  intros c s a b l (_ & _ & E). apply has_char_iff. exists a, (String.concat (String c "") (b :: l)).
  rewrite E. cbn. reflexivity.
Qed.
Lemma bind_ok : forall A B (r : result A) (f : A -> result B) b, bind r f = Ok b <-> exists a, r = Ok a /\ f a = Ok b.
Proof.
  intros A B r f b. destruct r as [a|e]; cbn.
  - split; [intros H; exists a; auto|]. intros (a' & H & K). injection H as ->. exact K.
  - split; [discriminate|]. intros (a' & H & _). discriminate.
Qed.
Lemma or_error_ok : forall A (o : option A) a, or_error o = Ok a <-> o = Some a.
Proof. intros A [x|] a; cbn; split; congruence. Qed.
Lemma option_map_some : forall A B (f : A -> B) o b, option_map f o = Some b <-> exists a, o = Some a /\ b = f a.
Proof.
  intros A B f [x|] b; cbn; split.
  - intros H. exists x. split; congruence.
  - intros (a & H & K). congruence.
  - discriminate.
  - intros (a & H & _). discriminate.
Qed.

Section Values.
Context {D T : Type} (to_int : string -> option Z) (to_float : string -> option Q)
  (mk_date : Z -> Z -> Z -> option D) (mk_time : Z -> Z -> Z -> option T).
Notation cell := (@cell D T).
Lemma int3_iff : forall A (mk : Z -> Z -> Z -> option A) a b c x,
  int3 to_int mk a b c = Some x <-> made to_int mk a b c x.
Proof.
  intros A mk a b c x. unfold int3, made. split.
  - destruct (to_int a) as [i|], (to_int b) as [j|], (to_int c) as [k|]; try discriminate.
    intros H. exists i, j, k. auto.
  - intros (i & j & k & -> & -> & -> & H). exact H.
Qed.
Lemma read_date_iff : forall w x, read_date to_int mk_date w = Some x <-> date_token to_int mk_date w x.
Proof.
  intros w x. unfold read_date, date_token. split.
  - intros H. destruct (has_char "/" w) eqn:E.
    + destruct (split_on "/" w) as [|y [|m [|d [|? ?]]]] eqn:F; try discriminate.
      destruct (String.length y =? 4) eqn:G; [|discriminate].
      exists y, m, d. split; [apply Nat.eqb_eq; exact G|]. split; [apply int3_iff; exact H|].
      left. apply split_on_iff. exact F.
    + destruct (has_char "." w); [|discriminate].
      destruct (split_on "." w) as [|d [|m [|y [|? ?]]]] eqn:F; try discriminate.
      destruct (String.length y =? 4) eqn:G; [|discriminate].
      exists y, m, d. split; [apply Nat.eqb_eq; exact G|]. split; [apply int3_iff; exact H|].
      right. split; [apply has_char_false; exact E|]. apply split_on_iff. exact F.
  - intros (y & m & d & L & M & H). apply int3_iff in M. apply Nat.eqb_eq in L.
    destruct H as [S|[N S]].
    + rewrite (separated_has _ _ _ _ _ S). apply split_on_iff in S. rewrite S, L. exact M.
    + apply has_char_false in N. rewrite N, (separated_has _ _ _ _ _ S).
      apply split_on_iff in S. rewrite S, L. exact M.
Qed.
Lemma read_time_iff : forall w x, read_time to_int mk_time w = Some x <-> time_token to_int mk_time w x.
Proof.
  intros w x. unfold read_time, time_token. split.
  - destruct (split_on ":" w) as [|h [|m [|s [|? ?]]]] eqn:F; try discriminate.
    intros H. exists h, m, s. split; [apply split_on_iff; exact F|apply int3_iff; exact H].
  - intros (h & m & s & S & M). apply split_on_iff in S. rewrite S. apply int3_iff. exact M.
Qed.
Lemma read_stamp_iff : forall w x, read_stamp to_int mk_date mk_time w = Some x <->
  stamp_token to_int mk_date mk_time w x.
Proof.
  intros w x. unfold read_stamp, stamp_token. split.
  - destruct (int3 to_int mk_date _ _ _) as [d|] eqn:A; [|discriminate].
    destruct (int3 to_int mk_time _ _ _) as [t|] eqn:B; [|discriminate].
    intros H. assert (x = (d, t)) by congruence. subst x. apply int3_iff in A, B.
    exists (substring 0 4 w), (substring 4 2 w), (substring 6 2 w), (substring 8 2 w), (substring 10 2 w), (substring 12 2 w).
    do 6 (split; [apply piece_iff; reflexivity|]). split; [exact A|exact B].
  - intros (y & mo & d & h & mi & s & P1 & P2 & P3 & P4 & P5 & P6 & A & B).
    apply piece_iff in P1, P2, P3, P4, P5, P6. subst. apply int3_iff in A, B. rewrite A, B.
    destruct x; reflexivity.
Qed.
Lemma one_token_iff : forall f ws c rest,
  one_token f ws = Ok (c, rest) <-> exists w, ws = w :: rest /\ f w = Some (c : cell).
Proof.
  intros f ws c rest. unfold one_token. destruct ws as [|w ws].
  - split; [discriminate|]. intros (w & H & _). discriminate.
  - rewrite bind_ok. split.
    + intros (a & H & K). apply or_error_ok in H. exists w. split; congruence.
    + intros (w' & H & K). injection H as -> ->. exists c. rewrite K. auto.
Qed.
Lemma take_floats_iff : forall n ws l rest, take_floats to_float n ws = Ok (l, rest) <->
  exists fs, ws = (fs ++ rest)%list /\ length fs = n /\ Forall2 (decimal_token to_float) fs l.
Proof.
  induction n as [|n IH]; intros ws l rest; cbn [take_floats].
  - split.
    + intros H. injection H as <- <-. exists []. repeat split. constructor.
    + intros (fs & -> & L & F). destruct fs; [|discriminate]. inversion F. reflexivity.
  - destruct ws as [|w ws].
    + split; [discriminate|]. intros (fs & H & L & _). destruct fs; discriminate.
    + rewrite bind_ok. split.
      * intros (q & A & B). apply or_error_ok in A. apply bind_ok in B. destruct B as ([l' r'] & B & C).
        cbn in C. apply IH in B. destruct B as (fs & -> & L & F).
        injection C as <- <-. exists (w :: fs). repeat split; [cbn; lia|]. constructor; [exact A|exact F].
      * intros (fs & E & L & F). destruct fs as [|w' fs]; [discriminate|]. cbn in E. injection E as <- ->.
        inversion F as [|? q ? l' A F']; subst. exists q. split; [apply or_error_ok; exact A|].
        apply bind_ok. exists (l', rest). split; [|reflexivity]. apply IH. exists fs. repeat split; [|exact F']. cbn in L. lia.
Qed.
Lemma spectrum_of_iff : forall (o : option (list Z)) (c : cell), spectrum_of o = Ok c <->
  exists m, o = Some (List.concat m) /\ square m /\ c = CSpec m.
Proof.
  intros o c. unfold spectrum_of. rewrite bind_ok. split.
  - intros (l & A & B). apply or_error_ok in A. apply bind_ok in B. destruct B as (m & B & C).
    apply or_error_ok in B. apply reshape_iff in B. destruct B as (L & F & <-).
    exists m. repeat split; [exact A|exact L|exact F|congruence].
  - intros (m & -> & [L F] & ->). exists (List.concat m). split; [reflexivity|].
    apply bind_ok. exists m. split; [|reflexivity]. apply or_error_ok, reshape_iff. auto.
Qed.
Lemma concat_square : forall A (m : list (list A)), square m -> length (List.concat m) = 1024.
Proof.
  intros A m [L F]. assert (H : length (List.concat m) = length m * 32).
  { clear L. induction F as [|r m R F IH]; [reflexivity|]. cbn [List.concat length]. rewrite app_length, R, IH. lia. }
  rewrite H, L. reflexivity.
Qed.
Lemma zero_square : square zero_spectrum /\ forall r z, In r zero_spectrum -> In z r -> z = 0%Z.
Proof.
  unfold zero_spectrum. split; [split|].
  - apply repeat_length.
  - apply Forall_forall. intros r H. apply repeat_spec in H. subst. apply repeat_length.
  - intros r z H K. apply repeat_spec in H. subst. apply repeat_spec in K. exact K.
Qed.
Lemma zero_unique : forall m : list (list Z), square m -> (forall r z, In r m -> In z r -> z = 0%Z) -> m = zero_spectrum.
Proof.
  assert (G : forall l : list Z, (forall z, In z l -> z = 0%Z) -> l = repeat 0%Z (length l)).
  { induction l as [|z l IH]; intros H; cbn; [reflexivity|]. f_equal; [apply H; left; reflexivity|].
    apply IH. intros z' I. apply H. right. exact I. }
  intros m [L F] Z. transitivity (repeat (repeat 0%Z 32) (length m)); [clear L|rewrite L; reflexivity].
  induction F as [|r m R F IH]; [reflexivity|].
  change (r :: m = repeat 0%Z 32 :: repeat (repeat 0%Z 32) (length m)). f_equal.
  - rewrite <- R. apply G. intros z I. apply (Z r z); [left; reflexivity|exact I].
  - apply IH. intros r' z I J. apply (Z r' z); [right; exact I|exact J].
Qed.
Lemma int_or_zero_iff : forall x z, int_or_zero to_int x = Some z <->
  (x = "" /\ z = 0%Z) \/ (x <> "" /\ to_int x = Some z).
Proof.
  intros x z. unfold int_or_zero. destruct (String.eqb_spec x "") as [->|N].
  - split; [intros H; left; split; congruence|]. intros [[_ ->]|[H _]]; congruence.
  - split; [intros H; right; auto|]. intros [[H _]|[_ H]]; congruence.
Qed.
Lemma forall2_iff : forall A B (R S : A -> B -> Prop) l l', (forall a b, R a b <-> S a b) ->
  Forall2 R l l' <-> Forall2 S l l'.
Proof.
  intros A B R S l l' H. split; intros F; induction F; constructor; auto; apply H; auto.
Qed.
Lemma parse_spectrum_iff : forall ws (c : cell) rest, parse_spectrum to_int ws = Ok (c, rest) <->
  exists fs m, ws = (fs ++ rest)%list /\ spectrum_fields to_int fs m /\ c = CSpec m.
Proof.
  intros ws c rest. unfold parse_spectrum. split.
  - destruct ws as [|w ws]; [discriminate|].
    destruct (String.eqb_spec w "<SPECTRUM>ZERO</SPECTRUM>") as [->|NZ].
    { intros H. injection H as <- <-. exists ["<SPECTRUM>ZERO</SPECTRUM>"], zero_spectrum.
      split; [reflexivity|]. split; [|reflexivity]. destruct zero_square. constructor; assumption. }
    destruct (after_prefix "<SPECTRUM>" w) as [u|] eqn:P.
    + apply after_prefix_iff in P. destruct (skipn 1023 ws) as [|e rest'] eqn:S; [discriminate|].
      destruct (String.eqb_spec e "</SPECTRUM>") as [->|NE]; [|discriminate].
      intros H. apply bind_ok in H. destruct H as (c' & A & B). apply spectrum_of_iff in A.
      destruct A as (m & A & SQ & ->). injection B as <- <-.
      apply all_read_iff in A.
      exists (("<SPECTRUM>" ++ u)%string :: firstn 1023 ws ++ ["</SPECTRUM>"])%list, m. split.
      { rewrite <- P. cbn [app]. rewrite <- app_assoc. cbn [app]. rewrite <- S, firstn_skipn. reflexivity. }
      split; [|reflexivity]. constructor.
      * intros ->. apply NZ. exact P.
      * apply firstn_length_le. apply (f_equal (@List.length string)) in S. rewrite skipn_length in S. cbn [length] in S. lia.
      * exact SQ.
      * eapply forall2_iff; [|exact A]. intros a b. symmetry. apply int_or_zero_iff.
    + apply after_prefix_none in P. destruct (has_char "/" w) eqn:HC.
      * intros H. apply bind_ok in H. destruct H as (c' & A & B). apply spectrum_of_iff in A.
        destruct A as (m & A & SQ & ->). injection B as <- <-. apply all_read_iff in A.
        exists [w], m. split; [reflexivity|]. split; [|reflexivity].
        eapply (sf_slash _ w (remove_suffix "/R" w)); [exact P| | |apply split_on_spec|exact SQ|exact A].
        -- apply has_char_iff in HC. destruct HC as (a & b & E). exists a, b. exact E.
        -- apply remove_suffix_spec.
      * intros H. apply bind_ok in H. destruct H as (c' & A & B). apply spectrum_of_iff in A.
        destruct A as (m & A & SQ & ->). injection B as <- <-. apply all_read_iff in A.
        exists (w :: firstn 1023 ws), m. split; [cbn [app]; rewrite firstn_skipn; reflexivity|].
        split; [|reflexivity]. constructor; [exact P|apply has_char_false; exact HC|exact SQ|exact A].
  - intros (fs & m & -> & S & ->). destruct S as [m SQ Z|w us m NZ L SQ F|w t us m NP O WE SEP SQ F|w us m NP WO SQ F].
    + cbn [app]. rewrite String.eqb_refl, (zero_unique m SQ Z). reflexivity.
    + cbn [app]. rewrite <- app_assoc. destruct (String.eqb_spec ("<SPECTRUM>" ++ w) "<SPECTRUM>ZERO</SPECTRUM>") as [E|_].
      { destruct NZ. assert (E2 : "<SPECTRUM>" ++ w = "<SPECTRUM>" ++ "ZERO</SPECTRUM>") by exact E.
        apply (f_equal (after_prefix "<SPECTRUM>")) in E2.
        rewrite (proj2 (after_prefix_iff _ _ w) eq_refl), (proj2 (after_prefix_iff _ _ "ZERO</SPECTRUM>") eq_refl) in E2.
        congruence. }
      rewrite (proj2 (after_prefix_iff _ _ w) eq_refl).
      assert (SK : skipn 1023 (us ++ ["</SPECTRUM>"] ++ rest)%list = ("</SPECTRUM>" :: rest)%list).
      { rewrite <- L, skipn_app, skipn_all, Nat.sub_diag. reflexivity. }
      assert (FI : firstn 1023 (us ++ ["</SPECTRUM>"] ++ rest)%list = us).
      { rewrite <- L, firstn_app, firstn_all, Nat.sub_diag. apply app_nil_r. }
      rewrite SK, FI, String.eqb_refl. apply bind_ok. exists (CSpec m). split; [|reflexivity].
      apply spectrum_of_iff. exists m. split; [|auto]. apply all_read_iff.
      eapply forall2_iff; [|exact F]. intros a b. apply int_or_zero_iff.
    + cbn [app]. destruct (String.eqb_spec w "<SPECTRUM>ZERO</SPECTRUM>") as [->|_].
      { destruct NP. exists "ZERO</SPECTRUM>". reflexivity. }
      rewrite (proj2 (after_prefix_none _ _) NP).
      assert (HC : has_char "/" w = true). { apply has_char_iff. destruct O as (a & b & E). exists a, b. exact E. }
      rewrite HC. apply bind_ok. exists (CSpec m). split; [|reflexivity]. apply spectrum_of_iff.
      exists m. split; [|auto]. apply remove_suffix_iff in WE. rewrite WE. apply split_on_iff in SEP. rewrite SEP.
      apply all_read_iff. exact F.
    + cbn [app]. destruct (String.eqb_spec w "<SPECTRUM>ZERO</SPECTRUM>") as [->|_].
      { destruct NP. exists "ZERO</SPECTRUM>". reflexivity. }
      rewrite (proj2 (after_prefix_none _ _) NP), (proj2 (has_char_false _ _) WO).
      assert (L : length us = 1023).
      { apply forall2_len in F. rewrite (concat_square _ _ SQ) in F. cbn [length] in F. lia. }
      rewrite <- L, firstn_app, firstn_all, skipn_app, skipn_all, Nat.sub_diag. cbn [firstn skipn app]. rewrite app_nil_r.
      apply bind_ok. exists (CSpec m). split; [|reflexivity]. apply spectrum_of_iff. exists m. split; [|auto].
      apply all_read_iff. exact F.
Qed.
Lemma kind_of_spec : forall h, match kind_of h with
  | KInt => whole_name h | KFloat => decimal_name h | KDate => h = "_date" | KTime => h = "_time"
  | KStamp => h = "_datetime" | KVec => vector_name h | KSpec => h = "spectrum" | KText => text_name h
  end.
Proof.
  intros h. unfold kind_of.
  destruct (mem_str h int_names) eqn:E1; [apply mem_str_iff; exact E1|apply mem_str_false in E1].
  destruct (mem_str h float_names) eqn:E2; [apply mem_str_iff; exact E2|apply mem_str_false in E2].
  destruct (String.eqb_spec h "_date") as [E3|E3]; [exact E3|].
  destruct (String.eqb_spec h "_time") as [E4|E4]; [exact E4|].
  destruct (String.eqb_spec h "_datetime") as [E5|E5]; [exact E5|].
  destruct (mem_str h ["fall_velocity"; "number_concentration"]) eqn:E6.
  { apply mem_str_iff in E6. destruct E6 as [<-|[<-|[]]]; [left|right]; reflexivity. }
  apply mem_str_false in E6.
  destruct (String.eqb_spec h "spectrum") as [E7|E7]; [exact E7|].
  repeat split; try assumption. intros [->| ->]; apply E6; [left|right; left]; reflexivity.
Qed.
Lemma whole_kind : forall h, whole_name h -> kind_of h = KInt.
Proof. intros h H. unfold kind_of. apply mem_str_iff in H. change (mem_str h int_names = true) in H. rewrite H. reflexivity. Qed.
Lemma decimal_kind : forall h, decimal_name h -> kind_of h = KFloat.
Proof. intros h H. repeat destruct H as [<-|H]; try reflexivity. destruct H. Qed.
Lemma vector_kind : forall h, vector_name h -> kind_of h = KVec.
Proof. intros h [->| ->]; reflexivity. Qed.
Lemma text_kind : forall h, text_name h -> kind_of h = KText.
Proof.
  intros h (A & B & C & E & F & G & H). pose proof (kind_of_spec h) as K.
  destruct (kind_of h); try reflexivity; exfalso; auto.
Qed.
Notation value := (parse_value to_int to_float mk_date mk_time).
Notation meaning := (field_value to_int to_float mk_date mk_time).
Lemma parse_value_iff : forall h ws c rest, value h ws = Ok (c, rest) <->
  exists fs, ws = (fs ++ rest)%list /\ meaning h fs c.
Proof.
  intros h ws c rest. unfold parse_value. split.
  - pose proof (kind_of_spec h) as K. destruct (kind_of h); intros H.
    + apply one_token_iff in H. destruct H as (w & -> & H). apply option_map_some in H. destruct H as (a & H & ->).
      exists [w]. split; [reflexivity|]. apply fv_int; assumption.
    + apply one_token_iff in H. destruct H as (w & -> & H). apply option_map_some in H. destruct H as (a & H & ->).
      exists [w]. split; [reflexivity|]. apply fv_float; assumption.
    + apply one_token_iff in H. destruct H as (w & -> & H). apply option_map_some in H. destruct H as (a & H & ->).
      exists [w]. split; [reflexivity|]. apply fv_date; [assumption|]. apply read_date_iff. exact H.
    + apply one_token_iff in H. destruct H as (w & -> & H). apply option_map_some in H. destruct H as (a & H & ->).
      exists [w]. split; [reflexivity|]. apply fv_time; [assumption|]. apply read_time_iff. exact H.
    + apply one_token_iff in H. destruct H as (w & -> & H). apply option_map_some in H. destruct H as (a & H & ->).
      exists [w]. split; [reflexivity|]. apply fv_stamp; [assumption|]. apply read_stamp_iff. exact H.
    + apply bind_ok in H. destruct H as ([l r] & H & E). cbn [fst snd] in E.
      apply take_floats_iff in H. destruct H as (fs & -> & L & F). exists fs.
      assert (r = rest) by congruence. subst r. split; [reflexivity|].
      replace c with (@CVec D T l) by congruence. apply fv_vec; assumption.
    + apply parse_spectrum_iff in H. destruct H as (fs & m & -> & S & ->). exists fs. split; [reflexivity|].
      apply fv_spec; assumption.
    + apply one_token_iff in H. destruct H as (w & -> & H). assert (c = CText w) by congruence. subst c.
      exists [w]. split; [reflexivity|]. apply fv_text; assumption.
  - intros (fs & -> & M). destruct M as [w z N H|w q N H|w x N H|w x N H|w x N H|us l N L F|us m N S|w N].
    + rewrite (whole_kind h N). apply one_token_iff. exists w. split; [reflexivity|]. rewrite H. reflexivity.
    + rewrite (decimal_kind h N). apply one_token_iff. exists w. split; [reflexivity|]. unfold read_float.
      unfold decimal_token in H. rewrite H. reflexivity.
    + subst h. apply one_token_iff. exists w. split; [reflexivity|]. apply read_date_iff in H. rewrite H. reflexivity.
    + subst h. apply one_token_iff. exists w. split; [reflexivity|]. apply read_time_iff in H. rewrite H. reflexivity.
    + subst h. apply one_token_iff. exists w. split; [reflexivity|]. apply read_stamp_iff in H. rewrite H. reflexivity.
    + rewrite (vector_kind h N). apply bind_ok. exists (l, rest). split; [|reflexivity].
      apply take_floats_iff. exists us. auto.
    + subst h. change (parse_spectrum to_int (us ++ rest)%list = Ok (@CSpec D T m, rest)).
      apply parse_spectrum_iff. exists us, m. auto.
    + rewrite (text_kind h N). apply one_token_iff. exists w. auto.
Qed.
(** Errors are ValueError and StopIteration. *)
Definition value_error (e : exn) : Prop := e = ValueError \/ e = StopIteration.
Lemma or_error_raise : forall A (o : option A) e, or_error o = Raise e -> value_error e.
Proof. intros A [x|] e; cbn; [discriminate|]. intros H. injection H as <-. left. reflexivity. Qed.
Lemma bind_raise : forall A B (r : result A) (f : A -> result B) e, bind r f = Raise e ->
  r = Raise e \/ exists a, r = Ok a /\ f a = Raise e.
Proof. intros A B [a|x] f e; cbn; intros H; [right; exists a; auto|left; congruence]. Qed.
Lemma one_token_raise : forall f ws e, @one_token D T f ws = Raise e -> value_error e.
Proof.
  intros f [|w ws] e; cbn [one_token]; intros H; [injection H as <-; right; reflexivity|].
  apply bind_raise in H. destruct H as [H|(a & _ & H)]; [exact (or_error_raise _ _ _ H)|discriminate].
Qed.
Lemma take_floats_raise : forall n ws e, take_floats to_float n ws = Raise e -> value_error e.
Proof.
  induction n as [|n IH]; intros ws e; cbn [take_floats]; [discriminate|].
  destruct ws as [|w ws]; [intros H; injection H as <-; right; reflexivity|].
  intros H. apply bind_raise in H. destruct H as [H|(a & _ & H)]; [exact (or_error_raise _ _ _ H)|].
  apply bind_raise in H. destruct H as [H|(b & _ & H)]; [exact (IH _ _ H)|discriminate].
Qed.
Lemma spectrum_of_raise : forall o e, @spectrum_of D T o = Raise e -> e = ValueError.
Proof.
  intros [l|] e; cbn; [|congruence]. destruct (reshape 32 32 l); cbn; congruence.
Qed.
Lemma parse_value_raise : forall h ws e, value h ws = Raise e -> value_error e.
Proof.
  intros h ws e. unfold parse_value. destruct (kind_of h); try apply one_token_raise.
  - intros H. apply bind_raise in H. destruct H as [H|(a & _ & H)]; [exact (take_floats_raise _ _ _ H)|discriminate].
  - unfold parse_spectrum. destruct ws as [|w ws]; [intros H; injection H as <-; right; reflexivity|].
    destruct (String.eqb w _); [discriminate|]. destruct (after_prefix _ w) as [u|].
    + destruct (skipn 1023 ws) as [|x r]; [intros H; injection H as <-; right; reflexivity|].
      destruct (String.eqb x _); [|intros H; injection H as <-; left; reflexivity].
      intros H. apply bind_raise in H. destruct H as [H|(a & _ & H)]; [left; exact (spectrum_of_raise _ _ H)|discriminate].
    + destruct (has_char "/" w); intros H; apply bind_raise in H;
        (destruct H as [H|(a & _ & H)]; [left; exact (spectrum_of_raise _ _ H)|discriminate]).
Qed.
Notation values := (parse_values to_int to_float mk_date mk_time).
Lemma parse_values_iff : forall hs ws cs rest, values hs ws = Ok (cs, rest) <->
  exists pieces, ws = (List.concat pieces ++ rest)%list /\ length pieces = length cs /\
    Forall2 (fun h p => meaning h (fst p) (snd p)) hs (combine pieces cs).
Proof.
  induction hs as [|h hs IH]; intros ws cs rest; cbn [parse_values].
  - split.
    + intros H. assert (cs = [] /\ rest = ws) as [-> ->] by (split; congruence). exists []. repeat split. constructor.
    + intros (ps & E & L & F). inversion F as [F'|]. destruct ps as [|p ps], cs as [|c cs]; try discriminate.
      cbn in E. subst. reflexivity.
  - rewrite bind_ok. split.
    + intros ([c r] & A & B). apply bind_ok in B. destruct B as ([cs' r'] & B & E). cbn [fst snd] in B, E.
      apply parse_value_iff in A. destruct A as (fs & -> & M). apply IH in B. destruct B as (ps & -> & L & F).
      assert (cs = c :: cs' /\ rest = r') as [-> ->] by (split; congruence).
      exists (fs :: ps). cbn [List.concat length combine]. rewrite app_assoc. repeat split; [lia|].
      constructor; [exact M|exact F].
    + intros (ps & E & L & F). destruct ps as [|p ps], cs as [|c cs]; try discriminate; [inversion F|].
      cbn [combine] in F. inversion F as [|? ? ? ? M F']; subst. cbn [fst snd] in M.
      exists (c, (List.concat ps ++ rest)%list). split.
      * apply parse_value_iff. exists p. cbn [List.concat]. rewrite app_assoc. auto.
      * apply bind_ok. exists (cs, rest). split; [|reflexivity]. cbn [snd]. apply IH. exists ps. cbn in L. auto.
Qed.
Lemma parse_values_raise : forall hs ws e, values hs ws = Raise e -> value_error e.
Proof.
  induction hs as [|h hs IH]; intros ws e; cbn [parse_values]; [discriminate|].
  intros H. apply bind_raise in H. destruct H as [H|(a & _ & H)]; [exact (parse_value_raise _ _ _ H)|].
  apply bind_raise in H. destruct H as [H|(b & _ & H)]; [exact (IH _ _ H)|discriminate].
Qed.
Notation prow := (parse_row to_int to_float mk_date mk_time).
Notation reading := (row_reading to_int to_float mk_date mk_time).
Lemma parse_row_iff : forall hs row cs, prow hs row = Ok cs <-> reading hs row cs.
Proof.
  intros hs row cs. unfold parse_row, row_reading. rewrite bind_ok. split.
  - intros ([cs' rest] & A & B). cbn [fst snd] in B. destruct rest; [|discriminate].
    assert (cs' = cs) by congruence. subst cs'. apply parse_values_iff in A. destruct A as (ps & E & L & F).
    rewrite app_nil_r in E. exists (remove_suffix ";" row), ps. split; [apply remove_suffix_spec|].
    split; [apply split_on_iff; exact E|]. auto.
  - intros (t & ps & W & S & F & L). exists (cs, []). split; [|reflexivity].
    apply remove_suffix_iff in W. rewrite W. apply split_on_iff in S. rewrite S.
    apply parse_values_iff. exists ps. rewrite app_nil_r. auto.
Qed.
Lemma parse_row_raise : forall hs row e, prow hs row = Raise e -> value_error e.
Proof.
  intros hs row e H. unfold parse_row in H. apply bind_raise in H. destruct H as [H|([cs r] & _ & H)].
  - exact (parse_values_raise _ _ _ H).
  - cbn [fst snd] in H. destruct r; [discriminate|]. injection H as <-. left. reflexivity.
Qed.
Lemma reading_length : forall hs row cs, reading hs row cs -> length cs = length hs.
Proof.
  intros hs row cs (t & ps & _ & _ & F & L). apply forall2_len in F. rewrite combine_length in F. lia.
Qed.
(** The values of a row, [None] if it is blank or cannot be read. *)
Definition row_cells (hs : list string) (row : string) : option (list cell) :=
  if String.eqb row "" then None
  else match prow hs row with Ok cs => Some cs | Raise _ => None end.
Lemma row_cells_iff : forall hs row cs, row_cells hs row = Some cs <-> row <> "" /\ reading hs row cs.
Proof.
  intros hs row cs. unfold row_cells. destruct (String.eqb_spec row "") as [->|N].
  - split; [discriminate|]. intros [H _]. congruence.
  - rewrite <- parse_row_iff. destruct (prow hs row); split; try congruence.
    + intros H. split; congruence.
    + intros [_ H]. congruence.
    + intros [_ H]. congruence.
Qed.
Notation rloop := (rows_loop to_int to_float mk_date mk_time).
Definition bad_rows (hs : list string) (rows : list string) : nat :=
  length (filter (fun row => negb (String.eqb row "") && match row_cells hs row with None => true | _ => false end) rows).
Lemma rows_loop_spec : forall hs rows d n,
  rloop hs rows d n =
  Ok (fold_left (fun d cs => append_all (combine hs cs) d) (flat_map (fun r => opt_list (row_cells hs r)) rows) d,
      n + bad_rows hs rows).
Proof.
  intros hs rows. unfold bad_rows. induction rows as [|row rows IH]; intros d n; cbn [rows_loop flat_map filter].
  - cbn. rewrite Nat.add_0_r. reflexivity.
  - unfold row_cells at 1 3. destruct (String.eqb row "") eqn:E; cbn [negb andb opt_list app]; [apply IH|].
    destruct (prow hs row) as [cs|e] eqn:P.
    + cbn [opt_list app fold_left]. apply IH.
    + cbn [opt_list app length]. rewrite <- plus_n_Sm, <- plus_Sn_m.
      destruct (parse_row_raise _ _ _ P) as [->| ->]; apply IH.
Qed.
Notation table := (@table D T).
Notation scol := (@col string (option cell) String.eqb).
Lemma append_all_eq : forall ps (d : table), append_all ps d =
  fold_left (fun d kv => push String.eqb (fst kv) (snd kv) d) (map (fun kv => (fst kv, Some (snd kv))) ps) d.
Proof.
  unfold append_all. induction ps as [|[k v] ps IH]; intros d; cbn [fold_left map fst snd]; [reflexivity|]. apply IH.
Qed.
Lemma get_map_some : forall A B (f : A -> B) (ps : list (string * A)) k,
  get String.eqb k (map (fun kv => (fst kv, f (snd kv))) ps) = option_map f (get String.eqb k ps).
Proof.
  intros A B f ps k. induction ps as [|[k2 v] ps IH]; cbn; [reflexivity|]. destruct (String.eqb k k2); [reflexivity|exact IH].
Qed.
Lemma append_all_spec : forall ps (d : table), NoDup (map fst ps) -> NoDup (map fst d) ->
  NoDup (map fst (append_all ps d)) /\
  (forall k, In k (map fst (append_all ps d)) <-> In k (map fst ps) \/ In k (map fst d)) /\
  forall k, scol (append_all ps d) k = (scol d k ++ opt_list (option_map Some (get String.eqb k ps)))%list.
Proof.
  intros ps d N ND. rewrite append_all_eq.
  assert (M : map fst (map (fun kv : string * cell => (fst kv, Some (snd kv))) ps) = map fst ps).
  { rewrite map_map. reflexivity. }
  split; [apply push_all_nodup; [apply string_spec|exact ND]|]. split.
  - rewrite <- M. generalize (map (fun kv : string * cell => (fst kv, Some (snd kv))) ps) as l. clear. intros l. revert d.
    induction l as [|[k2 v] l IH]; intros d k; cbn [fold_left map fst snd In].
    + split; [auto|]. intros [[]|H]. exact H.
    + rewrite IH, (push_keys _ string_spec). split.
      * intros [H|[H|H]]; auto.
      * intros [[H|H]|H]; auto.
  - intros k. rewrite (push_all _ _ _ string_spec) by (rewrite M; exact N). rewrite get_map_some. reflexivity.
Qed.
Lemma empty_cols_spec : forall hs, NoDup (map fst (@empty_cols D T hs)) /\
  (forall k, scol (empty_cols hs) k = []) /\ forall k, In k (map fst (@empty_cols D T hs)) <-> In k hs.
Proof.
  intros hs. unfold empty_cols.
  destruct (empty_table (option cell) hs [] (NoDup_nil _) (fun k => eq_refl)) as (A & B & C).
  split; [exact A|]. split; [exact B|]. intros k. rewrite C. cbn. split; [intros [H|[]]; exact H|auto].
Qed.
Lemma rows_fold_spec : forall hs css (d : table), NoDup hs -> NoDup (map fst d) ->
  (forall k, In k (map fst d) <-> In k hs) -> (forall cs, In cs css -> length cs = length hs) ->
  let r := fold_left (fun d cs => append_all (combine hs cs) d) css d in
  NoDup (map fst r) /\ (forall k, In k (map fst r) <-> In k hs) /\
  forall i h, nth_error hs i = Some h ->
    scol r h = (scol d h ++ flat_map (fun cs => opt_list (option_map Some (nth_error cs i))) css)%list.
Proof.
  intros hs css. induction css as [|cs css IH]; intros d N ND K L; cbn [fold_left flat_map].
  - split; [exact ND|]. split; [exact K|]. intros i h H. rewrite app_nil_r. reflexivity.
  - assert (LC : length cs = length hs) by (apply L; left; reflexivity).
    assert (CF : map fst (combine hs cs) = hs) by (apply combine_fst; lia).
    destruct (append_all_spec (combine hs cs) d) as (A & B & C); [rewrite CF; exact N|exact ND|].
    rewrite CF in B.
    destruct (IH (append_all (combine hs cs) d) N A) as (A' & B' & C').
    + intros k. rewrite B, K. split; [intros [H|H]; exact H|auto].
    + intros cs' I. apply L. right. exact I.
    + split; [exact A'|]. split; [exact B'|]. intros i h H. rewrite (C' i h H), C, <- app_assoc. f_equal. f_equal.
      assert (G : get String.eqb h (combine hs cs) = nth_error cs i); [|rewrite G; reflexivity].
      destruct (nth_error cs i) as [c|] eqn:E.
      * apply get_nth; [rewrite CF; exact N|]. exists i. rewrite nth_error_combine, H, E. reflexivity.
      * apply nth_error_None in E. assert (i < length hs) by (apply nth_error_Some; congruence). lia.
Qed.
Lemma bad_rows_all : forall hs rows, bad_rows hs rows = length rows <->
  forall row, In row rows -> row <> "" /\ row_cells hs row = None.
Proof.
  intros hs rows. unfold bad_rows. split.
  - intros H row I. destruct (String.eqb row "") eqn:E.
    + exfalso. pose proof (filter_less _ (fun row => negb (String.eqb row "") && match row_cells hs row with None => true | _ => false end) rows) as L.
      rewrite H in L. enough (X : length rows < length rows) by lia. apply L. exists row. split; [exact I|]. rewrite E. reflexivity.
    + apply String.eqb_neq in E. split; [exact E|]. destruct (row_cells hs row) eqn:R; [|reflexivity].
      exfalso. pose proof (filter_less _ (fun row => negb (String.eqb row "") && match row_cells hs row with None => true | _ => false end) rows) as L.
      rewrite H in L. enough (X : length rows < length rows) by lia. apply L. exists row. split; [exact I|]. rewrite R. apply andb_false_r.
  - intros H. rewrite filter_all; [reflexivity|]. intros row I. destruct (H row I) as [A B].
    apply String.eqb_neq in A. rewrite A, B. reflexivity.
Qed.
Notation rrows := (read_rows to_int to_float mk_date mk_time).
Notation rvalue := (row_value to_int to_float mk_date mk_time).
Notation readable := (row_readable to_int to_float mk_date mk_time).
Lemma readable_iff : forall hs row, readable hs row <-> exists cs, row_cells hs row = Some cs.
Proof.
  intros hs row. unfold row_readable. split.
  - intros [N [cs R]]. exists cs. apply row_cells_iff. auto.
  - intros [cs H]. apply row_cells_iff in H. destruct H as [N R]. eauto.
Qed.
Lemma read_rows_spec : forall hs rows, NoDup hs ->
  (rrows hs rows = Raise DisdrometerDataError /\ forall row, In row rows -> row <> "" /\ ~ readable hs row) \/
  ((exists row, In row rows /\ (row = "" \/ readable hs row)) /\
   exists d, rrows hs rows = Ok d /\ NoDup (map fst d) /\ (forall k, In k (map fst d) <-> In k hs) /\
   forall i h, nth_error hs i = Some h -> collects (rvalue hs i) rows (scol d h)).
Proof.
  intros hs rows N. unfold read_rows. rewrite rows_loop_spec. cbn [bind fst snd plus].
  destruct (bad_rows hs rows =? length rows) eqn:E.
  - left. split; [reflexivity|]. apply Nat.eqb_eq in E. intros row I. destruct (proj1 (bad_rows_all hs rows) E row I) as [A B].
    split; [exact A|]. intros R. apply readable_iff in R. destruct R as [cs R]. congruence.
  - right. apply Nat.eqb_neq in E. split.
    + destruct (existsb (fun row => String.eqb row "" || match row_cells hs row with Some _ => true | None => false end) rows) eqn:X.
      * apply existsb_exists in X. destruct X as (row & I & X). exists row. split; [exact I|].
        apply orb_true_iff in X. destruct X as [X|X]; [left; apply String.eqb_eq; exact X|right].
        apply readable_iff. destruct (row_cells hs row) as [cs|]; [eauto|discriminate].
      * exfalso. apply E. apply bad_rows_all. intros row I.
        assert (Y : (String.eqb row "" || match row_cells hs row with Some _ => true | None => false end) = false).
        { destruct (_ || _) eqn:Z; [|reflexivity]. rewrite <- X. symmetry. apply existsb_exists. exists row. auto. }
        apply orb_false_iff in Y. destruct Y as [Y1 Y2]. split; [apply String.eqb_neq; exact Y1|].
        destruct (row_cells hs row); [discriminate|reflexivity].
    + eexists. split; [reflexivity|].
      destruct (empty_cols_spec hs) as (A & B & C).
      assert (LL : forall cs, In cs (flat_map (fun r => opt_list (row_cells hs r)) rows) -> length cs = length hs).
      { intros cs I. apply in_flat_map in I. destruct I as (row & _ & I).
        destruct (row_cells hs row) as [cs'|] eqn:R; [|destruct I]. destruct I as [<-|[]].
        apply row_cells_iff in R. destruct R as [_ R]. exact (reading_length _ _ _ R). }
      destruct (rows_fold_spec hs (flat_map (fun r => opt_list (row_cells hs r)) rows) (empty_cols hs) N A C LL) as (A' & B' & C').
      split; [exact A'|]. split; [exact B'|]. intros i h H. rewrite (C' i h H), B. cbn [app].
      replace (flat_map _ _) with (flat_map (fun r => opt_list (match row_cells hs r with
        | Some cs => option_map Some (nth_error cs i) | None => None end)) rows).
      * apply collects_flat_map. intros row o I. unfold row_value. split.
        -- destruct (row_cells hs row) as [cs|] eqn:R; [|discriminate]. apply row_cells_iff in R. destruct R as [NE R].
           intros X. apply option_map_some in X. destruct X as (v & X & ->). exists cs, v. auto.
        -- intros (cs & v & NE & R & X & ->). rewrite (proj2 (row_cells_iff hs row cs) (conj NE R)), X. reflexivity.
      * clear. induction rows as [|row rows IH]; cbn [flat_map]; [reflexivity|].
        rewrite flat_map_app, IH. f_equal. destruct (row_cells hs row) as [cs|]; cbn [flat_map opt_list]; [|reflexivity].
        rewrite app_nil_r. reflexivity.
Qed.
Lemma row_value_readable : forall hs i h row, nth_error hs i = Some h ->
  (exists c, rvalue hs i row c) <-> readable hs row.
Proof.
  intros hs i h row H. unfold row_value, row_readable. split.
  - intros (c & cs & v & NE & R & _). eauto.
  - intros [NE [cs R]]. pose proof (reading_length _ _ _ R) as L.
    destruct (nth_error cs i) as [v|] eqn:E; [|apply nth_error_None in E; assert (i < length hs) by (apply nth_error_Some; congruence); lia].
    exists (Some v), cs, v. auto.
Qed.

(** ** Data logger files *)
Context (to_stamp : string -> option (D * T)).
Notation sval := (scalar_value to_int to_float to_stamp).
Notation vok := (value_ok to_int to_float to_stamp).
Definition is_scalar (h : string) : Prop := ~ vector_name h /\ h <> "spectrum".
Definition under_f (hs : list (option string)) (h : string) (row : list string) : list string :=
  flat_map (fun p => opt_list (match fst p with
                               | Some n => if String.eqb n h then Some (snd p) else None
                               | None => None
                               end)) (combine hs row).
Lemma under_iff : forall hs h row ws, under hs h row ws <-> under_f hs h row = ws.
Proof.
  intros hs h row. assert (F : under hs h row (under_f hs h row)).
  { apply collects_flat_map. intros [o w] x _. cbn [fst snd]. split.
    - destruct o as [n|]; [|discriminate]. destruct (String.eqb_spec n h) as [->|]; congruence.
    - intros H. injection H as -> ->. rewrite String.eqb_refl. reflexivity. }
  intros ws. split; [|intros <-; exact F].
  intros H. eapply collects_unique; [|exact F|exact H]. cbn. intros; congruence.
Qed.
Notation raw1 := (raw_value to_int to_float to_stamp).
Notation raws := (raw_values to_int to_float to_stamp).
(** The outcome for a single value. *)
Inductive raw_step (h v : string) (r r' : @raw_row D T) : Prop :=
| rs_scalar : forall c, is_scalar h -> sval h v c -> rr_scalars r' = put String.eqb h c (rr_scalars r) ->
    rr_conc r' = rr_conc r -> rr_vel r' = rr_vel r -> rr_spec r' = rr_spec r -> raw_step h v r r'
| rs_conc : forall q, h = "number_concentration" -> to_float v = Some q -> rr_scalars r' = rr_scalars r ->
    rr_conc r' = (rr_conc r ++ [q])%list -> rr_vel r' = rr_vel r -> rr_spec r' = rr_spec r -> raw_step h v r r'
| rs_vel : forall q, h = "fall_velocity" -> to_float v = Some q -> rr_scalars r' = rr_scalars r ->
    rr_conc r' = rr_conc r -> rr_vel r' = (rr_vel r ++ [q])%list -> rr_spec r' = rr_spec r -> raw_step h v r r'
| rs_spec : forall z, h = "spectrum" -> to_int v = Some z -> rr_scalars r' = rr_scalars r ->
    rr_conc r' = rr_conc r -> rr_vel r' = rr_vel r -> rr_spec r' = (rr_spec r ++ [z])%list -> raw_step h v r r'.
Lemma set_scalar_ok : forall h r o r', @set_scalar D T h r o = Ok r' <-> exists c, o = Some c /\
  r' = {| rr_scalars := put String.eqb h c (rr_scalars r); rr_conc := rr_conc r; rr_vel := rr_vel r; rr_spec := rr_spec r |}.
Proof.
  intros h r o r'. unfold set_scalar. rewrite bind_ok. split.
  - intros (c & A & B). apply or_error_ok in A. exists c. split; congruence.
  - intros (c & -> & ->). exists c. split; reflexivity.
Qed.
Lemma raw1_step : forall h v r r', raw1 h v r = Ok r' -> raw_step h v r r'.
Proof.
  intros h v r r' H. unfold raw_value in H.
  destruct (String.eqb_spec h "_datetime") as [E1|N1].
  { apply set_scalar_ok in H. destruct H as (c & H & ->). apply option_map_some in H. destruct H as (s & H & ->).
    apply (rs_scalar _ _ _ _ (CStamp s)); try reflexivity; [|apply sv_stamp; assumption].
    subst h. split; [intros [X|X]; discriminate|discriminate]. }
  destruct (String.eqb_spec h "number_concentration") as [E2|N2].
  { apply bind_ok in H. destruct H as (q & A & B). apply or_error_ok in A.
    assert (B' := f_equal (fun x => match x with Ok a => a | _ => r end) B). cbn in B'. subst r'. eapply rs_conc; eauto. }
  destruct (String.eqb_spec h "fall_velocity") as [E3|N3].
  { apply bind_ok in H. destruct H as (q & A & B). apply or_error_ok in A.
    assert (B' := f_equal (fun x => match x with Ok a => a | _ => r end) B). cbn in B'. subst r'. eapply rs_vel; eauto. }
  destruct (String.eqb_spec h "spectrum") as [E4|N4].
  { apply bind_ok in H. destruct H as (q & A & B). apply or_error_ok in A.
    assert (B' := f_equal (fun x => match x with Ok a => a | _ => r end) B). cbn in B'. subst r'. eapply rs_spec; eauto. }
  assert (SC : is_scalar h). { split; [|exact N4]. intros [X|X]; congruence. }
  pose proof (kind_of_spec h) as K.
  assert (TX : forall c, set_scalar h r (Some (CText v)) = Ok c -> ~ whole_name h -> ~ decimal_name h -> raw_step h v r c).
  { intros c X W F. apply set_scalar_ok in X. destruct X as (c' & X & ->).
    apply (rs_scalar _ _ _ _ c'); try reflexivity; [exact SC|]. replace c' with (@CText D T v) by congruence.
    apply sv_text; auto. apply SC. }
  assert (NW : kind_of h <> KInt -> ~ whole_name h) by (intros X W; apply X; apply whole_kind; exact W).
  assert (NF : kind_of h <> KFloat -> ~ decimal_name h) by (intros X W; apply X; apply decimal_kind; exact W).
  destruct (kind_of h) eqn:KE; try (apply TX; [exact H|apply NW; discriminate|apply NF; discriminate]).
  - apply set_scalar_ok in H. destruct H as (c & H & ->). apply option_map_some in H. destruct H as (s & H & ->).
    apply (rs_scalar _ _ _ _ (CInt s)); try reflexivity; [exact SC|]. apply sv_int; assumption.
  - apply set_scalar_ok in H. destruct H as (c & H & ->). apply option_map_some in H. destruct H as (s & H & ->).
    apply (rs_scalar _ _ _ _ (CFloat s)); try reflexivity; [exact SC|]. apply sv_float; assumption.
Qed.
Lemma raw1_total : forall h v r, vok h v -> exists r', raw1 h v r = Ok r'.
Proof.
  intros h v r [[[->| ->] [q H]]|[[-> [z H]]|[c H]]].
  - eexists. unfold raw_value. cbn. rewrite H. reflexivity.
  - eexists. unfold raw_value. cbn. rewrite H. reflexivity.
  - eexists. unfold raw_value. cbn. rewrite H. reflexivity.
  - unfold raw_value. destruct H as [w s -> H|w z N H|w q N H|w N1 N2 N3 N4 N5].
    + rewrite String.eqb_refl, H. eexists. reflexivity.
    + assert (K := whole_kind h N).
      destruct (String.eqb_spec h "_datetime") as [->|_]; [discriminate|].
      destruct (String.eqb_spec h "number_concentration") as [->|_]; [discriminate|].
      destruct (String.eqb_spec h "fall_velocity") as [->|_]; [discriminate|].
      destruct (String.eqb_spec h "spectrum") as [->|_]; [discriminate|].
      rewrite K, H. eexists. reflexivity.
    + assert (K := decimal_kind h N).
      destruct (String.eqb_spec h "_datetime") as [->|_]; [discriminate|].
      destruct (String.eqb_spec h "number_concentration") as [->|_]; [discriminate|].
      destruct (String.eqb_spec h "fall_velocity") as [->|_]; [discriminate|].
      destruct (String.eqb_spec h "spectrum") as [->|_]; [discriminate|].
      rewrite K, H. eexists. reflexivity.
    + destruct (String.eqb_spec h "_datetime") as [->|_]; [congruence|].
      destruct (String.eqb_spec h "number_concentration") as [->|_]; [exfalso; apply N4; right; reflexivity|].
      destruct (String.eqb_spec h "fall_velocity") as [->|_]; [exfalso; apply N4; left; reflexivity|].
      destruct (String.eqb_spec h "spectrum") as [->|_]; [congruence|].
      pose proof (kind_of_spec h) as K.
      destruct (kind_of h); try (eexists; reflexivity); exfalso; auto.
Qed.
Lemma raw1_raise : forall h v r e, raw1 h v r = Raise e -> e = ValueError.
Proof.
  intros h v r e. unfold raw_value, set_scalar.
  repeat match goal with |- (if ?b then _ else _) = _ -> _ => destruct b end;
    try (intros H; apply bind_raise in H; destruct H as [H|(a & _ & H)];
         [unfold or_error in H; match type of H with match ?o with _ => _ end = _ => destruct o end; congruence|discriminate]).
  destruct (kind_of h); intros H; apply bind_raise in H; (destruct H as [H|(a & _ & H)];
         [unfold or_error in H; try (match type of H with match ?o with _ => _ end = _ => destruct o end); congruence|discriminate]).
Qed.
Lemma step_ok : forall h v r r', raw_step h v r r' -> vok h v.
Proof.
  intros h v r r' S. destruct S; [right; right; eauto|left|left|right; left].
  - split; [right; assumption|eauto].
  - split; [left; assumption|eauto].
  - eauto.
Qed.
Lemma raws_ok : forall hs vs r r', raws hs vs r = Ok r' ->
  logger_readable to_int to_float to_stamp hs vs /\
  (exists l, rr_conc r' = (rr_conc r ++ l)%list /\ Forall2 (fun w q => to_float w = Some q) (under_f hs "number_concentration" vs) l) /\
  (exists l, rr_vel r' = (rr_vel r ++ l)%list /\ Forall2 (fun w q => to_float w = Some q) (under_f hs "fall_velocity" vs) l) /\
  (exists l, rr_spec r' = (rr_spec r ++ l)%list /\ Forall2 (fun w q => to_int w = Some q) (under_f hs "spectrum" vs) l) /\
  (NoDup (map fst (rr_scalars r)) -> NoDup (map fst (rr_scalars r'))) /\
  (forall h, is_scalar h -> (under_f hs h vs = [] /\ get String.eqb h (rr_scalars r') = get String.eqb h (rr_scalars r)) \/
     (exists us w c, under_f hs h vs = (us ++ [w])%list /\ sval h w c /\ get String.eqb h (rr_scalars r') = Some c)) /\
  (forall k, In k (map fst (rr_scalars r')) <-> In k (map fst (rr_scalars r)) \/ (is_scalar k /\ In (Some k) hs)).
Proof.
  induction hs as [|o hs IH]; intros [|v vs] r r' H; cbn [raw_values] in H; try discriminate.
  - assert (r' = r) by congruence. subst r'. split.
    { split; [reflexivity|]. intros i h w X. destruct i; discriminate. }
    split; [exists []; rewrite app_nil_r; split; [reflexivity|constructor]|].
    split; [exists []; rewrite app_nil_r; split; [reflexivity|constructor]|].
    split; [exists []; rewrite app_nil_r; split; [reflexivity|constructor]|].
    split; [auto|]. split; [intros h _; left; auto|]. intros k. split; [auto|]. intros [X|[_ []]]. exact X.
  - destruct o as [n|]; [|].
    + apply bind_ok in H. destruct H as (r1 & A & B). apply raw1_step in A.
      apply IH in B. destruct B as (RD & (l1 & C1 & F1) & (l2 & C2 & F2) & (l3 & C3 & F3) & ND & G & K). split.
      { destruct RD as [L RD]. split; [cbn; congruence|]. intros [|i] h w X Y; cbn in X, Y; [|exact (RD i h w X Y)].
        assert (h = n /\ w = v) as [-> ->] by (split; congruence). exact (step_ok _ _ _ _ A). }
      assert (U : forall h, under_f (Some n :: hs) h (v :: vs) =
                  ((if String.eqb n h then [v] else []) ++ under_f hs h vs)%list).
      { intros h. unfold under_f. cbn [combine flat_map fst snd]. destruct (String.eqb n h); reflexivity. }
      rewrite !U.
      destruct A as [c SC SV E1 E2 E3 E4|q -> TF E1 E2 E3 E4|q -> TF E1 E2 E3 E4|z -> TF E1 E2 E3 E4].
      * assert (N1 : String.eqb n "number_concentration" = false)
          by (apply String.eqb_neq; intros ->; apply (proj1 SC); right; reflexivity).
        assert (N2 : String.eqb n "fall_velocity" = false)
          by (apply String.eqb_neq; intros ->; apply (proj1 SC); left; reflexivity).
        assert (N3 : String.eqb n "spectrum" = false) by (apply String.eqb_neq; apply (proj2 SC)).
        rewrite N1, N2, N3. cbn [app].
        split; [exists l1; split; congruence|]. split; [exists l2; split; congruence|]. split; [exists l3; split; congruence|].
        rewrite E1 in ND, G, K. split; [intros X; apply ND; apply put_nodup; [apply string_spec|exact X]|]. split.
        -- intros h HS. rewrite U. specialize (G h HS). rewrite (get_put _ _ _ string_spec) in G.
           destruct (String.eqb_spec n h) as [<-|NE].
           ++ right. rewrite String.eqb_refl in G. destruct G as [[-> G]|(us & w & c' & -> & S' & G)].
              ** exists [], v, c. auto.
              ** exists (v :: us), w, c'. auto.
           ++ assert (X : String.eqb h n = false) by (apply String.eqb_neq; congruence). rewrite X in G. exact G.
        -- intros k. rewrite K, (put_keys _ _ _ string_spec). cbn [In]. split.
           ++ intros [[->|X]|[X Y]]; auto.
           ++ intros [X|[X [Y|Y]]]; auto. left. left. congruence.
      * split; [exists (q :: l1); rewrite C1, E2, <- app_assoc; split; [reflexivity|constructor; assumption]|].
        split; [exists l2; split; [congruence|exact F2]|]. split; [exists l3; split; [congruence|exact F3]|].
        rewrite E1 in ND, G, K. split; [exact ND|]. split.
        -- intros h HS. rewrite U. destruct (String.eqb_spec "number_concentration" h) as [<-|NE]; [|exact (G h HS)].
           exfalso. apply (proj1 HS). right. reflexivity.
        -- intros k. rewrite K. cbn [In]. split; [intros [X|[X Y]]; auto|]. intros [X|[X [Y|Y]]]; auto.
           exfalso. apply (proj1 X). right. congruence.
      * split; [exists l1; split; [congruence|exact F1]|].
        split; [exists (q :: l2); rewrite C2, E3, <- app_assoc; split; [reflexivity|constructor; assumption]|].
        split; [exists l3; split; [congruence|exact F3]|].
        rewrite E1 in ND, G, K. split; [exact ND|]. split.
        -- intros h HS. rewrite U. destruct (String.eqb_spec "fall_velocity" h) as [<-|NE]; [|exact (G h HS)].
           exfalso. apply (proj1 HS). left. reflexivity.
        -- intros k. rewrite K. cbn [In]. split; [intros [X|[X Y]]; auto|]. intros [X|[X [Y|Y]]]; auto.
           exfalso. apply (proj1 X). left. congruence.
      * split; [exists l1; split; [congruence|exact F1]|]. split; [exists l2; split; [congruence|exact F2]|].
        split; [exists (z :: l3); rewrite C3, E4, <- app_assoc; split; [reflexivity|constructor; assumption]|].
        rewrite E1 in ND, G, K. split; [exact ND|]. split.
        -- intros h HS. rewrite U. destruct (String.eqb_spec "spectrum" h) as [<-|NE]; [|exact (G h HS)].
           exfalso. apply (proj2 HS). reflexivity.
        -- intros k. rewrite K. cbn [In]. split; [intros [X|[X Y]]; auto|]. intros [X|[X [Y|Y]]]; auto.
           exfalso. apply (proj2 X). congruence.
    + apply IH in H. destruct H as (RD & C1 & C2 & C3 & ND & G & K). split.
      { destruct RD as [L RD]. split; [cbn; congruence|]. intros [|i] h w X Y; cbn in X, Y; [discriminate|exact (RD i h w X Y)]. }
      split; [exact C1|]. split; [exact C2|]. split; [exact C3|]. split; [exact ND|]. split; [exact G|].
      intros k. rewrite K. cbn [In]. split; [intros [X|[X Y]]; auto|]. intros [X|[X [Y|Y]]]; auto; discriminate.
Qed.
Lemma raws_total : forall hs vs r, logger_readable to_int to_float to_stamp hs vs -> exists r', raws hs vs r = Ok r'.
Proof.
  induction hs as [|o hs IH]; intros vs r [L H]; destruct vs as [|v vs]; try discriminate; cbn [raw_values].
  - eexists. reflexivity.
  - assert (X : logger_readable to_int to_float to_stamp hs vs).
    { split; [cbn in L; lia|]. intros i h w A B. exact (H (S i) h w A B). }
    destruct o as [n|]; [|apply IH; exact X].
    destruct (raw1_total n v r (H 0 n v eq_refl eq_refl)) as [r1 R1].
    rewrite R1. cbn [bind]. apply IH. exact X.
Qed.
Lemma raws_raise : forall hs vs r e, raws hs vs r = Raise e -> e = ValueError.
Proof.
  induction hs as [|o hs IH]; intros [|v vs] r e H; cbn [raw_values] in H; try congruence.
  destruct o as [n|]; [|exact (IH _ _ _ H)]. apply bind_raise in H. destruct H as [H|(a & _ & H)].
  - exact (raw1_raise _ _ _ _ H).
  - exact (IH _ _ _ H).
Qed.
End Values.
