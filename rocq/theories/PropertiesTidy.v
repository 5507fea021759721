(** Properties C193 and C194: attributes of variables, and small helpers. *)
From Verif Require Import Base TidyModel TidySpec.
From Coq Require Import String Ascii Sorted.
Open Scope string_scope.
Open Scope list_scope.

Lemma assign_same : forall A (f : string -> option A) k v, assign f k v k = Some v.
Proof. intros. unfold assign. rewrite String.eqb_refl. reflexivity. Qed.
Lemma assign_other : forall A (f : string -> option A) k v x, x <> k -> assign f k v x = f x.
Proof. intros A f k v x H. unfold assign. apply String.eqb_neq in H. rewrite H. reflexivity. Qed.
Lemma discard_other : forall A (f : string -> option A) k x, x <> k -> discard f k x = f x.
Proof. intros A f k x H. unfold discard. apply String.eqb_neq in H. rewrite H. reflexivity. Qed.
Lemma discard_same : forall A (f : string -> option A) k, discard f k k = None.
Proof. intros. unfold discard. rewrite String.eqb_refl. reflexivity. Qed.

(** ** C193: attributes *)

Theorem C193_unit : forall f var,
  match f var with
  | None => fix_attribute_name f var = None
  | Some before => exists after, fix_attribute_name f var = Some after /\ units_named before after
  end.
Proof.
  intros f var. unfold fix_attribute_name. destruct (f var) as [b|]; [|reflexivity]. cbn [option_map]. exists (fix_unit b). split; [reflexivity|].
  unfold units_named, fix_unit. destruct (b "unit") as [u|] eqn:E.
  - split; [apply discard_same|]. split; [|split].
    + intros v V. rewrite discard_other by discriminate. rewrite assign_same. congruence.
    + discriminate.
    + intros k N1 N2. rewrite discard_other by exact N1. apply assign_other, N2.
  - split; [exact E|]. split; [discriminate|]. split; [reflexivity|]. reflexivity.
Qed.
Print Assumptions C193_unit.

(** The time: its attributes are the standard ones, all else is kept. *)
Theorem C193_time : forall global f f' e, fix_time_attributes global f = (f', e) ->
  (forall k, k <> "time" -> f' k = f k) /\
  (e = Some KeyError <-> f "time" = None) /\
  (e = Some AttributeError <-> f "time" <> None /\ (global "year" = None \/ global "month" = None \/ global "day" = None)) /\
  (f "time" = None -> f' "time" = None) /\
  forall a, f "time" = Some a -> exists a', f' "time" = Some a' /\
    a' "standard_name" = Some "time" /\ a' "long_name" = Some "Time UTC" /\ a' "calendar" = Some "standard" /\
    (forall k, ~ In k ["standard_name"; "long_name"; "calendar"; "units"] -> a' k = a k) /\
    (e <> None -> a' "units" = a "units") /\
    forall y m d, global "year" = Some y -> global "month" = Some m -> global "day" = Some d ->
      a' "units" = Some ("hours since " ++ y ++ "-" ++ m ++ "-" ++ d ++ " 00:00:00 +00:00")%string.
Proof.
  intros g f f' e H. unfold fix_time_attributes in H. destruct (f "time") as [a|] eqn:T.
  2:{ assert (f' = f) by congruence. assert (e = Some KeyError) by congruence. subst. split; [reflexivity|]. split; [split; reflexivity|].
      split; [split; [discriminate|intros [N _]; contradiction]|]. split; [intros _; exact T|discriminate]. }
  cbv zeta in H. set (a0 := assign (assign (assign a "standard_name" "time") "long_name" "Time UTC") "calendar" "standard") in H.
  assert (A0 : a0 "standard_name" = Some "time" /\ a0 "long_name" = Some "Time UTC" /\ a0 "calendar" = Some "standard" /\ a0 "units" = a "units" /\
    forall k, ~ In k ["standard_name"; "long_name"; "calendar"; "units"] -> a0 k = a k).
  { split; [reflexivity|]. split; [reflexivity|]. split; [reflexivity|]. split; [reflexivity|]. intros k N. unfold a0.
    rewrite !assign_other; [reflexivity| | |]; intros ->; apply N; cbn; auto. }
  clearbody a0. destruct A0 as (S1 & S2 & S3 & S4 & S5).
  destruct (g "year") as [y|] eqn:Y; [destruct (g "month") as [m|] eqn:M; [destruct (g "day") as [d|] eqn:D|]|].
  { assert (F : f' = assign f "time" (assign a0 "units" ("hours since " ++ y ++ "-" ++ m ++ "-" ++ d ++ " 00:00:00 +00:00")%string)) by congruence.
    assert (E : e = None) by congruence. rewrite F, E. clear H F E. split; [intros k N; apply assign_other, N|].
    split; [split; discriminate|]. split; [split; [discriminate|intros [_ [X|[X|X]]]; discriminate]|]. split; [discriminate|].
    intros a1 A1. assert (a1 = a) by congruence. subst a1. eexists. split; [apply assign_same|].
    rewrite !assign_other by discriminate. split; [exact S1|]. split; [exact S2|]. split; [exact S3|]. split; [|split].
    - intros k N. rewrite assign_other; [apply S5, N|]. intros ->. apply N. cbn. auto.
    - intros N. contradiction.
    - intros y' m' d' Y' M' D'. rewrite assign_same. congruence. }
  all: assert (F : f' = assign f "time" a0) by congruence; assert (E : e = Some AttributeError) by congruence; rewrite F, E; clear H F E;
    (split; [intros k N; apply assign_other, N|]); (split; [split; discriminate|]);
    (split; [split; [intros _; split; [discriminate|auto]|reflexivity]|]); (split; [discriminate|]);
    intros a1 A1; assert (a1 = a) by congruence; subst a1; exists a0; (split; [apply assign_same|]);
    (split; [exact S1|]); (split; [exact S2|]); (split; [exact S3|]); (split; [exact S5|]); (split; [intros _; exact S4|]);
    intros y' m' d' Y' M' D'; discriminate.
Qed.
Print Assumptions C193_time.

Lemma set_attributes_spec : forall m attributes a a' e, set_attributes m attributes a = (a', e) ->
  (e = None <-> forall k, In k attributes -> m k <> None) /\ (e = None \/ e = Some AttributeError) /\
  (forall k, (In k attributes /\ exists v, m k = Some (Some v)) \/ a' k = a k) /\
  (e = None -> forall k v, In k attributes -> m k = Some (Some v) -> a' k = Some v).
Proof.
  intros m. induction attributes as [|x l IH]; intros a a' e H; cbn in H.
  - assert (a' = a) by congruence. assert (e = None) by congruence. subst.
    split; [split; [intros _ k []|reflexivity]|]. split; [left; reflexivity|]. split; [right; reflexivity|intros _ k v []].
  - destruct (m x) as [[w|]|] eqn:X.
    + destruct (IH _ _ _ H) as (I1 & I2 & I3 & I4). split; [|split; [exact I2|split]].
      * rewrite I1. split; [intros G k [<-|J]; [congruence|apply G, J]|intros G k J; apply G; right; exact J].
      * intros k. destruct (string_dec k x) as [->|N]; [left; split; [left; reflexivity|eauto]|].
        destruct (I3 k) as [[J V]|J]; [left; split; [right; exact J|exact V]|right]. rewrite J. apply assign_other, N.
      * intros E k v J V. destruct (in_dec string_dec k l) as [J'|J']; [exact (I4 E k v J' V)|]. destruct J as [<-|J]; [|contradiction].
        destruct (I3 x) as [[J _]|J]; [contradiction|]. rewrite J, assign_same. congruence.
    + destruct (IH _ _ _ H) as (I1 & I2 & I3 & I4). split; [|split; [exact I2|split]].
      * rewrite I1. split; [intros G k [<-|J]; [congruence|apply G, J]|intros G k J; apply G; right; exact J].
      * intros k. destruct (I3 k) as [[J V]|J]; [left; split; [right; exact J|exact V]|right; exact J].
      * intros E k v [<-|J] V; [congruence|]. exact (I4 E k v J V).
    + assert (a' = a) by congruence. assert (e = Some AttributeError) by congruence. subst.
      split; [split; [discriminate|intros G; exfalso; apply (G x); [left; reflexivity|exact X]]|].
      split; [right; reflexivity|]. split; [right; reflexivity|discriminate].
Qed.

(** Standard values: the given attributes of the given variables get them where there are
    any, nothing else changes. *)
Theorem C193_standard : forall common variables attributes f f', replace_attributes common variables attributes f = (f', None) ->
  forall var, match f var with
  | None => f' var = None
  | Some a => exists a', f' var = Some a' /\ forall k,
      (forall m v, In var variables -> In k attributes -> common var = Some m -> m k = Some (Some v) -> a' k = Some v) /\
      (~ (In var variables /\ In k attributes /\ exists m v, common var = Some m /\ m k = Some (Some v)) -> a' k = a k)
  end.
Proof.
  intros common. induction variables as [|key rest IH]; intros attributes f f' H var; cbn in H.
  - assert (f' = f) by congruence. subst. destruct (f var) as [a|]; [|reflexivity]. exists a. split; [reflexivity|]. intros k. split; [intros m v []|reflexivity].
  - destruct (common key) as [m|] eqn:C; [destruct (f key) as [a|] eqn:F; [destruct (set_attributes m attributes a) as [a1 [e|]] eqn:S; [discriminate|]|]|].
    + destruct (set_attributes_spec _ _ _ _ _ S) as (_ & _ & S3 & S4). specialize (IH _ _ _ H var).
      destruct (string_dec var key) as [->|N].
      * rewrite assign_same in IH. rewrite F. destruct IH as (a' & A & K). exists a'. split; [exact A|]. intros k. destruct (K k) as [K1 K2]. split.
        -- intros m' v _ I C' V. destruct (in_dec string_dec key rest) as [J|J]; [exact (K1 m' v J I C' V)|].
           rewrite K2 by (intros [J' _]; contradiction). apply S4; [reflexivity|exact I|congruence].
        -- intros G. rewrite K2.
           ++ destruct (S3 k) as [[I [v V]]|I]; [|exact I]. exfalso. apply G. split; [left; reflexivity|]. split; [exact I|]. exists m, v. auto.
           ++ intros (J & I & X). apply G. split; [right; exact J|]. split; [exact I|exact X].
      * rewrite (assign_other _ _ _ _ _ N) in IH. destruct (f var) as [b|]; [|exact IH]. destruct IH as (a' & A & K). exists a'. split; [exact A|].
        intros k. destruct (K k) as [K1 K2]. split.
        -- intros m' v [J|J]; [congruence|]. apply K1, J.
        -- intros G. apply K2. intros (J & X). apply G. split; [right; exact J|exact X].
    + specialize (IH _ _ _ H var). destruct (f var) as [b|] eqn:B; [|exact IH]. destruct IH as (a' & A & K). exists a'. split; [exact A|].
      assert (N : key <> var) by congruence. intros k. destruct (K k) as [K1 K2]. split.
      * intros m' v [J|J]; [contradiction|]. apply K1, J.
      * intros G. apply K2. intros (J & X). apply G. split; [right; exact J|exact X].
    + specialize (IH _ _ _ H var). destruct (f var) as [b|] eqn:B; [|exact IH]. destruct IH as (a' & A & K). exists a'. split; [exact A|].
      intros k. destruct (K k) as [K1 K2]. split.
      * intros m' v [J|J] I C'; [congruence|]. apply (K1 m' v J I C').
      * intros G. apply K2. intros (J & X). apply G. split; [right; exact J|exact X].
Qed.
Print Assumptions C193_standard.

(** The only error is a name that is no metadata, for a variable that is there. *)
Theorem C193_standard_error : forall common variables attributes f f' e, replace_attributes common variables attributes f = (f', e) ->
  (e = None \/ e = Some AttributeError) /\
  (e = Some AttributeError <-> exists var m k, In var variables /\ common var = Some m /\ f var <> None /\ In k attributes /\ m k = None).
Proof.
  intros common. induction variables as [|key rest IH]; intros attributes f f' e H; cbn in H.
  - assert (e = None) by congruence. subst. split; [left; reflexivity|]. split; [discriminate|intros (v & m & k & [] & _)].
  - assert (Skip : (common key = None \/ f key = None) ->
      ((exists var m k, In var rest /\ common var = Some m /\ f var <> None /\ In k attributes /\ m k = None) <->
       (exists var m k, In var (key :: rest) /\ common var = Some m /\ f var <> None /\ In k attributes /\ m k = None))).
    { intros Z. split; intros (v & m & k & J & C & F & X); exists v, m, k; (split; [|split; [exact C|split; [exact F|exact X]]]).
      - right. exact J.
      - destruct J as [<-|J]; [|exact J]. exfalso. destruct Z; [congruence|contradiction]. }
    destruct (common key) as [m|] eqn:C; [destruct (f key) as [a|] eqn:F; [destruct (set_attributes m attributes a) as [a1 [e1|]] eqn:S|]|].
    + assert (e = Some e1) by congruence. subst e. destruct (set_attributes_spec _ _ _ _ _ S) as (S1 & S2 & _).
      destruct S2 as [S2|S2]; [discriminate|]. split; [right; exact S2|]. split; [|intros _; exact S2]. intros _.
      destruct (Exists_dec (fun k => m k = None) attributes) as [X|X].
      * intros k. destruct (m k); [right; discriminate|left; reflexivity].
      * apply Exists_exists in X as (k & I & X). exists key, m, k. split; [left; reflexivity|]. split; [exact C|]. split; [congruence|]. split; [exact I|exact X].
      * exfalso. assert (Y : Some e1 = None); [|discriminate]. apply S1. intros k I Z. apply X, Exists_exists. exists k. auto.
    + destruct (set_attributes_spec _ _ _ _ _ S) as (S1 & _). destruct (IH _ _ _ _ H) as [I1 I2]. split; [exact I1|]. rewrite I2.
      assert (Iff : forall v, assign f key a1 v <> None <-> f v <> None).
      { intros v. destruct (string_dec v key) as [->|N]; [rewrite assign_same, F; split; discriminate|rewrite (assign_other _ _ _ _ _ N); reflexivity]. }
      split; intros (v & m' & k & J & C' & F' & I & X); exists v, m', k.
      * split; [right; exact J|]. split; [exact C'|]. split; [apply Iff, F'|]. auto.
      * destruct J as [<-|J].
        -- exfalso. assert (m' = m) by congruence. subst. exact (proj1 S1 eq_refl k I X).
        -- split; [exact J|]. split; [exact C'|]. split; [apply Iff, F'|]. auto.
    + destruct (IH _ _ _ _ H) as [I1 I2]. split; [exact I1|]. rewrite I2. apply Skip. auto.
    + destruct (IH _ _ _ _ H) as [I1 I2]. split; [exact I1|]. rewrite I2. apply Skip. auto.
Qed.
Print Assumptions C193_standard_error.

Example C193_nonvacuous : exists f' a',
  replace_attributes (fun k => if String.eqb k "lwp" then Some (fun x => if String.eqb x "units" then Some (Some "kg m-2") else if String.eqb x "comment" then Some None else None) else None)
    ["lwp"; "iwv"] ["units"; "comment"] (fun k => if String.eqb k "lwp" then Some (fun x => if String.eqb x "comment" then Some "mine" else None) else None) = (f', None) /\
  f' "lwp" = Some a' /\ a' "units" = Some "kg m-2" /\ a' "comment" = Some "mine" /\
  option_map (fun a => (a "unit", a "units")) (fix_attribute_name (fun _ => Some (fun x => if String.eqb x "unit" then Some "m" else None)) "drg") = Some (None, Some "m").
Proof. eexists. eexists. split; [reflexivity|]. split; [reflexivity|]. repeat split. Qed.

(** ** C194: small helpers *)

(** Keys are removed if none of those in the dictionary is given twice. *)
Lemma del_keys_spec : forall A (data temp : string -> option A) keys,
  (forall k, temp k = data k \/ temp k = None) ->
  match del_keys data temp keys with
  | Ok d => (forall k, In k keys -> d k = None) /\ (forall k, ~ In k keys -> d k = temp k)
  | Raise e => e = KeyError /\ ((exists k, In k keys /\ data k <> None /\ temp k = None) \/
      exists k before between after, keys = before ++ k :: between ++ k :: after /\ data k <> None)
  end.
Proof.
  intros A data temp keys. revert temp. induction keys as [|x l IH]; intros temp H; cbn.
  - split; [intros k []|reflexivity].
  - destruct (data x) as [v|] eqn:D.
    + destruct (temp x) as [w|] eqn:T.
      * assert (H' : forall k, discard temp x k = data k \/ discard temp x k = None).
        { intros k. destruct (string_dec k x) as [->|N]; [right; apply discard_same|]. rewrite (discard_other _ _ _ _ N). apply H. }
        specialize (IH _ H'). destruct (del_keys data (discard temp x) l) as [d|e].
        -- destruct IH as [I1 I2]. split.
           ++ intros k [<-|J]; [|apply I1, J]. destruct (in_dec string_dec x l) as [J|J]; [apply I1, J|]. rewrite I2 by exact J. apply discard_same.
           ++ intros k N. rewrite I2 by (intros J; apply N; right; exact J). apply discard_other. intros ->. apply N. left. reflexivity.
        -- destruct IH as [-> [(k & J & K1 & K2)|(k & b & c & a & -> & K)]]; (split; [reflexivity|]).
           ++ destruct (string_dec k x) as [->|N].
              ** right. apply in_split in J as (b & a & ->). exists x, [], b, a. split; [reflexivity|exact K1].
              ** left. exists k. split; [right; exact J|]. split; [exact K1|]. rewrite <- K2. symmetry. apply discard_other, N.
           ++ right. exists k, (x :: b), c, a. split; [reflexivity|exact K].
      * split; [reflexivity|]. left. exists x. split; [left; reflexivity|]. split; [congruence|exact T].
    + assert (T : temp x = None) by (destruct (H x); congruence). specialize (IH _ H). destruct (del_keys data temp l) as [d|e].
      * destruct IH as [I1 I2]. split.
        -- intros k [<-|J]; [|apply I1, J]. destruct (in_dec string_dec x l) as [J|J]; [apply I1, J|]. rewrite I2 by exact J. exact T.
        -- intros k N. apply I2. intros J. apply N. right. exact J.
      * destruct IH as [-> [(k & J & K)|(k & b & c & a & -> & K)]]; (split; [reflexivity|]).
        -- left. exists k. split; [right; exact J|exact K].
        -- right. exists k, (x :: b), c, a. split; [reflexivity|exact K].
Qed.
Theorem C194_keys : forall A (data : string -> option A) keys, NoDup keys -> exists d, del_dict_keys data keys = Ok d /\
  forall k, (In k keys -> d k = None) /\ (~ In k keys -> d k = data k).
Proof.
  intros A data keys N. unfold del_dict_keys. pose proof (del_keys_spec A data data keys (fun k => or_introl eq_refl)) as H.
  destruct (del_keys data data keys) as [d|e].
  - destruct H as [H1 H2]. exists d. split; [reflexivity|]. intros k. split; [apply H1|apply H2].
  - exfalso. destruct H as [_ [(k & _ & K1 & K2)|(k & b & c & a & -> & _)]]; [congruence|].
    apply NoDup_remove_2 in N. apply N. apply in_or_app. right. apply in_or_app. right. left. reflexivity.
Qed.
Print Assumptions C194_keys.

(** A key given twice is an error although it is removed at first. *)
Theorem C194_repeated_key_refuted : exists (data : string -> option nat) keys, (forall k, In k keys -> data k <> None) /\ del_dict_keys data keys = Raise KeyError.
Proof. exists (fun _ => Some 1%nat), ["a"; "a"]. split; [discriminate|reflexivity]. Qed.
Print Assumptions C194_repeated_key_refuted.

(** All days from the first one, without the last one, in order. *)
Theorem C194_days : forall a b, StronglySorted Z.lt (date_range a b) /\ forall d, In d (date_range a b) <-> (a <= d < b)%Z.
Proof.
  intros a b. unfold date_range. split.
  - generalize (Z.to_nat (b - a)) as n. intros n. generalize 0%nat as i. induction n as [|n IH]; intros i; cbn; constructor; [apply IH|].
    apply Forall_forall. intros d I. apply in_map_iff in I as (j & <- & J). apply in_seq in J. lia.
  - intros d. rewrite in_map_iff. split.
    + intros (n & <- & I). apply in_seq in I. lia.
    + intros H. exists (Z.to_nat (d - a)). split; [lia|]. apply in_seq. lia.
Qed.
Print Assumptions C194_days.

Lemma digit_iff : forall c, is_digit c = true <-> In c ["0"; "1"; "2"; "3"; "4"; "5"; "6"; "7"; "8"; "9"]%char.
Proof.
  intros c. split.
  - destruct c as [[] [] [] [] [] [] [] []]; cbn; intros H; try discriminate H; auto 12.
  - intros [<-|[<-|[<-|[<-|[<-|[<-|[<-|[<-|[<-|[<-|[]]]]]]]]]]]; reflexivity.
Qed.
Fixpoint d_times (n : nat) (pattern : string) : string := match n with O => pattern | S n => String "d" (d_times n pattern) end.
Lemma match_digits : forall n pattern t, match_pattern (d_times n pattern) t = true <-> exists a b, t = (a ++ b)%string /\ digits n a /\ match_pattern pattern b = true.
Proof.
  induction n as [|n IH]; intros pattern t.
  - cbn. split.
    + intros H. exists "", t. split; [reflexivity|]. split; [split; [reflexivity|intros i c G; destruct i; discriminate]|exact H].
    + intros (a & b & -> & [L _] & H). destruct a; [exact H|discriminate].
  - cbn [d_times match_pattern]. destruct t as [|c t].
    + split; [discriminate|]. intros (a & b & E & [L _] & _). destruct a; discriminate.
    + change (Ascii.eqb "d" "d") with true. cbv iota. rewrite Bool.andb_true_iff, IH, digit_iff. split.
      * intros (C & a & b & -> & [L G] & H). exists (String c a), b. split; [reflexivity|]. split; [split; [cbn; rewrite L; reflexivity|]|exact H].
        intros [|i] x X; cbn in X; [congruence|exact (G i x X)].
      * intros (a & b & E & [L G] & H). destruct a as [|x a]; [discriminate|]. cbn in E. assert (x = c) by congruence. assert (t = (a ++ b)%string) by congruence. subst.
        split; [apply (G 0%nat); reflexivity|]. exists a, b. split; [reflexivity|]. split; [split; [cbn in L; lia|intros i y Y; exact (G (S i) y Y)]|exact H].
Qed.
Lemma match_literal : forall p pattern t, Ascii.eqb p "d" = false -> (match_pattern (String p pattern) t = true <-> exists b, t = (String p "" ++ b)%string /\ match_pattern pattern b = true).
Proof.
  intros p pattern t N. cbn [match_pattern]. destruct t as [|c t].
  - split; [discriminate|]. intros (b & E & _). discriminate.
  - rewrite N, Bool.andb_true_iff, Ascii.eqb_eq. split.
    + intros [-> H]. exists t. split; [reflexivity|exact H].
    + intros (b & E & H). cbn in E. split; congruence.
Qed.
(** A text is a time stamp if it begins with numbers of the right length behind dashes and
    colons; the numbers need not be a date, and anything may follow. *)
Theorem C194_timestamp : forall t, is_timestamp t = true <-> exists year month day hour minute second rest,
  t = ("-" ++ year ++ "-" ++ month ++ "-" ++ day ++ " " ++ hour ++ ":" ++ minute ++ ":" ++ second ++ rest)%string /\
  digits 4 year /\ digits 2 month /\ digits 2 day /\ digits 2 hour /\ digits 2 minute /\ digits 2 second.
Proof.
  intros t. unfold is_timestamp.
  change "-dddd-dd-dd dd:dd:dd" with (String "-" (d_times 4 (String "-" (d_times 2 (String "-" (d_times 2 (String " " (d_times 2 (String ":" (d_times 2 (String ":" (d_times 2 "")))))))))))).
  split.
  - intros H. apply match_literal in H as (b0 & -> & H); [|reflexivity]. apply match_digits in H as (y & b1 & -> & Y & H).
    apply match_literal in H as (b2 & -> & H); [|reflexivity]. apply match_digits in H as (m & b3 & -> & M & H).
    apply match_literal in H as (b4 & -> & H); [|reflexivity]. apply match_digits in H as (d & b5 & -> & D & H).
    apply match_literal in H as (b6 & -> & H); [|reflexivity]. apply match_digits in H as (h & b7 & -> & Hh & H).
    apply match_literal in H as (b8 & -> & H); [|reflexivity]. apply match_digits in H as (mi & b9 & -> & Mi & H).
    apply match_literal in H as (b10 & -> & H); [|reflexivity]. apply match_digits in H as (s & r & -> & S & H).
    exists y, m, d, h, mi, s, r. split; [reflexivity|]. auto 10.
  - intros (y & m & d & h & mi & s & r & -> & Y & M & D & Hh & Mi & S).
    apply match_literal; [reflexivity|]. eexists. split; [reflexivity|]. apply match_digits. exists y. eexists. split; [reflexivity|]. split; [exact Y|].
    apply match_literal; [reflexivity|]. eexists. split; [reflexivity|]. apply match_digits. exists m. eexists. split; [reflexivity|]. split; [exact M|].
    apply match_literal; [reflexivity|]. eexists. split; [reflexivity|]. apply match_digits. exists d. eexists. split; [reflexivity|]. split; [exact D|].
    apply match_literal; [reflexivity|]. eexists. split; [reflexivity|]. apply match_digits. exists h. eexists. split; [reflexivity|]. split; [exact Hh|].
    apply match_literal; [reflexivity|]. eexists. split; [reflexivity|]. apply match_digits. exists mi. eexists. split; [reflexivity|]. split; [exact Mi|].
    apply match_literal; [reflexivity|]. eexists. split; [reflexivity|]. apply match_digits. exists s. eexists. split; [reflexivity|]. split; [exact S|reflexivity].
Qed.
Print Assumptions C194_timestamp.
(** So more than the documented format is accepted. *)
Theorem C194_format_refuted : exists t, is_timestamp t = true /\ String.length t <> String.length "-yyyy-mm-dd hh:mm:ss".
Proof. exists "-2020-99-99 99:99:99 and more". split; [reflexivity|discriminate]. Qed.
Print Assumptions C194_format_refuted.

Example C194_nonvacuous : is_timestamp "-2020-01-31 12:00:00" = true /\ is_timestamp "2020-01-31 12:00:00" = false /\
  date_range 3 6 = [3; 4; 5]%Z /\ date_range 6 3 = [] /\
  match del_dict_keys (fun k => Some k) ["a"; "b"] with Ok d => d "a" = None /\ d "c" = Some "c" | Raise _ => False end.
Proof. repeat split. Qed.
