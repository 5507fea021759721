From Verif Require Import Base ArrayModel ArraySpec ArrayProofs TimeModel TimeSpec.
From Coq Require Import Qabs Qround Lqa String.
Open Scope nat_scope.

(** ** Rounding and dates *)
Lemma round_half_even_spec q :
  (2 * Qabs (q - inject_Z (round_half_even q)) < 1)%Q \/
  ((2 * Qabs (q - inject_Z (round_half_even q)) == 1)%Q /\ Z.even (round_half_even q) = true).
Proof.
  unfold round_half_even. pose proof (Qfloor_le q) as H1. pose proof (Qlt_floor q) as H2.
  rewrite inject_Z_plus in H2. change (inject_Z 1) with 1%Q in H2.
  set (f := Qfloor q) in *.
  assert (Hneg : forall x, (x <= 0)%Q -> (Qabs x == - x)%Q) by (intros; apply Qabs_neg; assumption).
  assert (Hpos : forall x, (0 <= x)%Q -> (Qabs x == x)%Q) by (intros; apply Qabs_pos; assumption).
  destruct (Qcompare_spec (q - inject_Z f) (1 # 2)) as [E|E|E].
  - right. destruct (Z.even f) eqn:Ev.
    + split; [rewrite Hpos; lra|exact Ev].
    + split.
      * rewrite inject_Z_plus. change (inject_Z 1) with 1%Q. rewrite Hneg; lra.
      * rewrite Z.even_add, Ev. reflexivity.
  - left. rewrite Hpos; lra.
  - left. rewrite inject_Z_plus. change (inject_Z 1) with 1%Q. rewrite Hneg; lra.
Qed.

Lemma inject_Z_lt_inv a b : (inject_Z a < inject_Z b)%Q -> (a < b)%Z.
Proof. unfold Qlt. simpl. lia. Qed.

Lemma rounds_to_unique t u v : rounds_to t u -> rounds_to t v -> u = v.
Proof.
  unfold rounds_to. intros Hu Hv.
  set (x := (t * 1000000)%Q) in *.
  assert (Hb : forall w, ((2 * Qabs (x - inject_Z w) < 1)%Q \/ ((2 * Qabs (x - inject_Z w) == 1)%Q /\ Z.even w = true)) ->
    (2 * (x - inject_Z w) <= 1)%Q /\ (-1 <= 2 * (x - inject_Z w))%Q /\
    ((2 * (x - inject_Z w) < 1)%Q /\ (-1 < 2 * (x - inject_Z w))%Q \/ Z.even w = true)).
  { intros w Hw. pose proof (Qle_Qabs (x - inject_Z w)) as A.
    pose proof (Qle_Qabs (- (x - inject_Z w))) as B. rewrite Qabs_opp in B.
    destruct Hw as [Hw|[Hw He]]; (split; [lra|split; [lra|]]).
    - left. split; lra.
    - right. exact He. }
  apply Hb in Hu as (U1 & U2 & U3). apply Hb in Hv as (V1 & V2 & V3).
  assert (Hd : (inject_Z u < inject_Z v + 1 + 1)%Q) by lra.
  assert (Hd' : (inject_Z v < inject_Z u + 1 + 1)%Q) by lra.
  change 1%Q with (inject_Z 1) in Hd, Hd'. rewrite <- !inject_Z_plus in Hd, Hd'.
  apply inject_Z_lt_inv in Hd, Hd'.
  destruct (Z.eq_dec u v) as [|Hne]; [assumption|]. exfalso.
  assert (Hcase : v = (u + 1)%Z \/ u = (v + 1)%Z) by lia.
  destruct Hcase as [->| ->]; rewrite inject_Z_plus in *; change (inject_Z 1) with 1%Q in *;
    rewrite Z.even_add in *; simpl (Z.even 1) in *.
  - destruct U3 as [[? ?]|U3]; [lra|]. destruct V3 as [[? ?]|V3]; [lra|].
    rewrite U3 in V3. discriminate.
  - destruct U3 as [[? ?]|U3]; [lra|]. destruct V3 as [[? ?]|V3]; [lra|].
    rewrite V3 in U3. discriminate.
Qed.

Lemma day_of_iff epoch day t : day_of epoch t = day <-> on_date epoch day t.
Proof.
  unfold day_of, on_date, us_in_day. split.
  - intros H. exists (round_half_even (t * 1000000)). split; [apply round_half_even_spec|].
    pose proof (Z.div_mod (epoch + round_half_even (t * 1000000)) 86400000000 ltac:(lia)).
    pose proof (Z.mod_pos_bound (epoch + round_half_even (t * 1000000)) 86400000000 ltac:(lia)). lia.
  - intros (u & Hu & Hb). assert (u = round_half_even (t * 1000000)) as ->.
    { eapply rounds_to_unique; [exact Hu|]. apply round_half_even_spec. }
    symmetry. apply Z.div_unique with (r := (epoch + round_half_even (t * 1000000) - 86400000000 * day)%Z); lia.
Qed.

(** Away from midnight (by a microsecond) the date is the exact one. *)
Lemma on_date_exact epoch day t :
  (inject_Z (day * 86400000000 - epoch) <= t * 1000000)%Q ->
  (t * 1000000 <= inject_Z ((day + 1) * 86400000000 - epoch - 1))%Q ->
  on_date epoch day t.
Proof.
  intros H1 H2. exists (round_half_even (t * 1000000)).
  pose proof (round_half_even_spec (t * 1000000)) as Hr. split; [exact Hr|].
  set (x := (t * 1000000)%Q) in *. set (u := round_half_even x) in *.
  pose proof (Qle_Qabs (x - inject_Z u)) as A.
  pose proof (Qle_Qabs (- (x - inject_Z u))) as B. rewrite Qabs_opp in B.
  assert (Hc : (2 * Qabs (x - inject_Z u) <= 1)%Q) by (destruct Hr as [Hr|[Hr _]]; lra).
  assert (L : (inject_Z (day * 86400000000 - epoch) < inject_Z u + 1)%Q) by lra.
  assert (R : (inject_Z u < inject_Z ((day + 1) * 86400000000 - epoch - 1) + 1)%Q) by lra.
  change 1%Q with (inject_Z 1) in L, R. rewrite <- !inject_Z_plus in L, R.
  apply inject_Z_lt_inv in L, R. lia.
Qed.

(** ** find_valid_time_indices *)
Section FindValid.
  Variable time : list Q.
  Variable date_of : Q -> Z.
  Variable day : Z.

  Definition times_lt (i j : nat) : Prop :=
    forall a b, nth_error time i = Some a -> nth_error time j = Some b -> (a < b)%Q.
  Definition times_le (i j : nat) : Prop :=
    forall a b, nth_error time i = Some a -> nth_error time j = Some b -> (a <= b)%Q.

  Lemma StronglySorted_snoc {A} (R : A -> A -> Prop) l x :
    StronglySorted R l -> Forall (fun y => R y x) l -> StronglySorted R (l ++ [x]).
  Proof.
    intros H Hf. apply StronglySorted_app; [exact H|repeat constructor|].
    intros a b Ha [<-|[]]. rewrite Forall_forall in Hf. auto.
  Qed.

  Lemma loop_spec rest : forall done acc,
    Forall (fun i => i < List.length time) (done ++ rest) ->
    StronglySorted times_le (done ++ rest) ->
    incl acc done ->
    StronglySorted times_lt acc ->
    (forall i, In i acc -> exists t, nth_error time i = Some t /\ date_of t = day) ->
    (forall i t, In i done -> nth_error time i = Some t -> date_of t = day ->
       exists k s, In k acc /\ nth_error time k = Some s /\ (s == t)%Q) ->
    exists out, find_valid_loop time date_of day rest acc = Ok out /\
      incl out (done ++ rest) /\ StronglySorted times_lt out /\
      (forall i, In i out -> exists t, nth_error time i = Some t /\ date_of t = day) /\
      (forall i t, In i (done ++ rest) -> nth_error time i = Some t -> date_of t = day ->
         exists k s, In k out /\ nth_error time k = Some s /\ (s == t)%Q).
  Proof.
    induction rest as [|ind rest IH]; intros done acc Hb Hs Hi Hlt Hd Hc.
    - exists acc. rewrite app_nil_r in *. auto.
    - simpl. assert (Hind : ind < List.length time).
      { rewrite Forall_forall in Hb. apply Hb. apply in_or_app. right. left. reflexivity. }
      destruct (nth_error_lt_Some time ind Hind) as [t Ht]. rewrite Ht.
      assert (Hg : Forall (fun i => i < List.length time) acc).
      { apply Forall_forall. intros i Hin. rewrite Forall_forall in Hb. apply Hb. apply in_or_app. left. auto. }
      destruct (gather_ok time acc Hg) as (prev & Eg & Hlen & Hn). rewrite Eg. simpl.
      assert (Happ : done ++ ind :: rest = (done ++ [ind]) ++ rest) by (rewrite <- app_assoc; reflexivity).
      assert (Hprev : existsb (fun x => Qeq_bool x t) prev = true <->
                exists k s, In k acc /\ nth_error time k = Some s /\ (s == t)%Q).
      { rewrite existsb_exists. split.
        - intros (x & Hx & Hq). apply Qeq_bool_iff in Hq. apply In_nth_error in Hx as [m Hm].
          rewrite Hn in Hm. destruct (nth_error acc m) as [k|] eqn:Ek; [|discriminate].
          exists k, x. split; [eapply nth_error_In; exact Ek|]. auto.
        - intros (k & s & Hk & Hsk & Hq). exists s. split; [|apply Qeq_bool_iff; exact Hq].
          apply In_nth_error in Hk as [m Hm]. apply (nth_error_In prev m). rewrite Hn, Hm. exact Hsk. }
      rewrite Happ in Hb, Hs |- *.
      destruct (date_of t =? day)%Z eqn:Ed; cbn [andb].
      + apply Z.eqb_eq in Ed. destruct (existsb (fun x => Qeq_bool x t) prev) eqn:Ex; cbn [negb].
        * apply IH; auto.
          -- intros i Hin. apply in_or_app. left. auto.
          -- intros i t' Hin Ht' Hd'. apply in_app_or in Hin as [Hin|[<-|[]]]; [eauto|].
             rewrite Ht in Ht'. injection Ht' as <-. apply Hprev. reflexivity.
        * apply IH; auto.
          -- intros i Hin. apply in_app_or in Hin as [Hin|Hin]; apply in_or_app; auto.
          -- apply StronglySorted_snoc; [exact Hlt|]. apply Forall_forall. intros k Hk a b Ha Hb'.
             rewrite Ht in Hb'. injection Hb' as <-.
             assert (Hle : (a <= t)%Q).
             { assert (Hkd : In k done) by auto.
               assert (Hks : times_le k ind).
               { rewrite <- Happ in Hs. clear - Hs Hkd. induction done as [|x d IHd]; [destruct Hkd|].
                 simpl in Hs. apply StronglySorted_inv in Hs as [Hs Hf]. destruct Hkd as [<-|Hkd].
                 - rewrite Forall_forall in Hf. apply Hf. apply in_or_app. right. left. reflexivity.
                 - apply IHd; assumption. }
               exact (Hks a t Ha Ht). }
             destruct (Qlt_le_dec a t) as [|Hge]; [assumption|]. exfalso.
             assert (false = true); [|discriminate]. apply Hprev. exists k, a. split; [exact Hk|].
             split; [exact Ha|lra].
          -- intros i Hin. apply in_app_or in Hin as [Hin|[<-|[]]]; [auto|]. eauto.
          -- intros i t' Hin Ht' Hd'. apply in_app_or in Hin as [Hin|[<-|[]]].
             ++ destruct (Hc i t' Hin Ht' Hd') as (k & s & Hk & Hs' & Hq). exists k, s.
                split; [apply in_or_app; left; exact Hk|auto].
             ++ exists ind, t. split; [apply in_or_app; right; left; reflexivity|]. split; [exact Ht|].
                rewrite Ht in Ht'. injection Ht' as <-. reflexivity.
      + apply IH; auto.
        * intros i Hin. apply in_or_app. left. auto.
        * intros i t' Hin Ht' Hd'. apply in_app_or in Hin as [Hin|[<-|[]]]; [eauto|].
          rewrite Ht in Ht'. injection Ht' as <-. apply Z.eqb_neq in Ed. congruence.
  Qed.
End FindValid.

Lemma argsort_bound time idx : is_argsort time idx -> Forall (fun i => i < List.length time) idx.
Proof.
  intros [Hp _]. apply Forall_forall. intros i Hi. apply (Permutation_in _ Hp) in Hi. apply in_seq in Hi. lia.
Qed.
Lemma argsort_all time idx i : is_argsort time idx -> i < List.length time -> In i idx.
Proof. intros [Hp _] Hi. apply (Permutation_in _ (Permutation_sym Hp)). apply in_seq. lia. Qed.

Lemma find_valid_ok idx time epoch day : is_argsort time idx ->
  (exists t, In t time /\ on_date epoch day t) ->
  exists ind, find_valid_time_indices idx time epoch day = Ok ind /\
    Forall (fun i => i < List.length time) ind /\ ind <> [] /\
    StronglySorted (times_lt time) ind /\
    (forall i, In i ind -> exists t, nth_error time i = Some t /\ on_date epoch day t) /\
    (forall t, In t time -> on_date epoch day t ->
       exists k s, In k ind /\ nth_error time k = Some s /\ (s == t)%Q).
Proof.
  intros Ha (t0 & Ht0 & Hd0). unfold find_valid_time_indices.
  pose proof (argsort_bound _ _ Ha) as Hb.
  destruct (loop_spec time (day_of epoch) day idx [] []) as (out & E & Hi & Hs & Hd & Hc); simpl; auto.
  - apply Ha.
  - intros i [].
  - constructor.
  - intros i [].
  - intros i t [].
  - simpl in *. rewrite E. simpl.
    assert (Hcov : forall t, In t time -> on_date epoch day t ->
       exists k s, In k out /\ nth_error time k = Some s /\ (s == t)%Q).
    { intros t Ht Hon. apply In_nth_error in Ht as [i Hi']. apply day_of_iff in Hon.
      apply (Hc i t); auto. eapply argsort_all; [exact Ha|]. eapply nth_error_Some_lt. exact Hi'. }
    destruct (Hcov t0 Ht0 Hd0) as (k0 & s0 & Hk0 & _).
    destruct out as [|o out]; [destruct Hk0|]. exists (o :: out). split; [reflexivity|].
    split. { apply Forall_forall. intros i Hin. rewrite Forall_forall in Hb. auto. }
    split; [discriminate|]. split; [exact Hs|]. split; [|exact Hcov].
    intros i Hin. destruct (Hd i Hin) as (t & Ht & Hday). exists t. split; [exact Ht|].
    apply day_of_iff. exact Hday.
Qed.

Lemma find_valid_error idx time epoch day : is_argsort time idx ->
  ~ (exists t, In t time /\ on_date epoch day t) ->
  find_valid_time_indices idx time epoch day = Raise ValidTimeStampError.
Proof.
  intros Ha Hno. unfold find_valid_time_indices.
  pose proof (argsort_bound _ _ Ha) as Hb.
  destruct (loop_spec time (day_of epoch) day idx [] []) as (out & E & Hi & Hs & Hd & Hc); simpl; auto.
  - apply Ha.
  - intros i [].
  - constructor.
  - intros i [].
  - intros i t [].
  - simpl in *. rewrite E. simpl. destruct out as [|o out]; [reflexivity|]. exfalso. apply Hno.
    destruct (Hd o (or_introl eq_refl)) as (t & Ht & Hday). exists t. split; [eapply nth_error_In; exact Ht|].
    apply day_of_iff. exact Hday.
Qed.

(** ** Alignment *)
Lemma gather_rows_of {A} (l : list A) idx : Forall (fun i => i < List.length l) idx ->
  exists out, gather l idx = Ok out /\ rows_of idx l out.
Proof.
  intros H. destruct (gather_ok l idx H) as (out & E & Hl & Hn). exists out. split; [exact E|].
  split; [exact Hl|]. intros i k Hk. pose proof (nth_error_In _ _ Hk) as Hin.
  rewrite Forall_forall in H. destruct (nth_error_lt_Some l k (H k Hin)) as [x Hx].
  exists x. split; [exact Hx|]. rewrite Hn, Hk. exact Hx.
Qed.

Lemma take_rows_follows {P} maxdim n idx (v : value P) : Forall (fun i => i < n) idx ->
  exists v', take_rows maxdim n idx v = Ok v' /\ value_follows maxdim n idx v v'.
Proof.
  intros Hb. destruct v as [d rows|p|len]; unfold take_rows, value_follows; [|eauto|eauto].
  rewrite <- andb_assoc. destruct (Nat.eqb_spec (List.length rows) n) as [E|E]; cbn [andb]; [|eauto].
  destruct (Nat.leb 1 d && Nat.leb d maxdim) eqn:Ed; [|eauto].
  assert (Hb' : Forall (fun i => i < List.length rows) idx) by (rewrite E; exact Hb).
  destruct (gather_rows_of rows idx Hb') as (rows' & Eg & Hr).
  rewrite Eg. cbn [bind]. eexists. split; [reflexivity|]. eauto.
Qed.

Lemma map_dict_follows {P} (f : value P -> result (value P)) maxdim n idx d :
  (forall k v, In (k, v) d -> exists v', f v = Ok v' /\ value_follows maxdim n idx v v') ->
  exists d', map_dict f d = Ok d' /\ dict_follows maxdim n idx d d'.
Proof.
  intros H. unfold map_dict, dict_follows. apply sequence_forall2. apply Forall_forall.
  intros [k v] Hin. destruct (H k v Hin) as (v' & E & Hv). exists (k, v'). simpl. rewrite E. auto.
Qed.

Lemma rows_of_sorted time idx out : rows_of idx time out -> StronglySorted (times_lt time) idx ->
  strictly_increasing out.
Proof.
  revert out. induction idx as [|i idx IH]; intros out [Hl Hr] Hs.
  - destruct out; [constructor|discriminate].
  - destruct out as [|x out]; [discriminate|]. apply StronglySorted_inv in Hs as [Hs Hf].
    assert (Hr' : rows_of idx time out).
    { split; [simpl in Hl; lia|]. intros j k Hk. apply (Hr (S j) k). exact Hk. }
    constructor; [apply IH; assumption|]. apply Forall_forall. intros y Hy.
    apply In_nth_error in Hy as [j Hj].
    destruct (nth_error_lt_Some idx j) as [k Hk].
    { apply nth_error_Some_lt in Hj. simpl in Hl. lia. }
    destruct (proj2 Hr' j k Hk) as (z & Hz & Hz'). rewrite Hj in Hz'. injection Hz' as <-.
    destruct (Hr 0 i eq_refl) as (w & Hw & Hw'). injection Hw' as <-.
    rewrite Forall_forall in Hf. apply (Hf k (nth_error_In _ _ Hk)); assumption.
Qed.

Lemma screen_by_time_ok {P} idx time (data : dict P) epoch day :
  is_argsort time idx -> (exists t, In t time /\ on_date epoch day t) ->
  (forall k len, In (k, VList len) data -> len <= 1) ->
  exists ind time' data', screen_by_time idx time data epoch day = Ok (time', data') /\
    rows_of ind time time' /\ strictly_increasing time' /\
    (forall t, In t time' -> on_date epoch day t) /\
    (forall t, In t time -> on_date epoch day t -> exists s, In s time' /\ (s == t)%Q) /\
    dict_follows 3 (List.length time) ind data data'.
Proof.
  intros Ha Hex Hl. destruct (find_valid_ok idx time epoch day Ha Hex) as (ind & E & Hb & _ & Hs & Hd & Hc).
  destruct (gather_rows_of time ind Hb) as (time' & Eg & Hr).
  destruct (map_dict_follows (screen_value (List.length time) ind) 3 (List.length time) ind data) as (data' & Em & Hf).
  { intros k v Hin. destruct v as [d rows|p|len]; [apply take_rows_follows; exact Hb|simpl; eauto|].
    simpl. apply Hl in Hin. destruct (Nat.ltb_spec 1 len); [lia|eauto]. }
  exists ind, time', data'. unfold screen_by_time. rewrite E. simpl. rewrite Eg. simpl. rewrite Em. simpl.
  split; [reflexivity|]. split; [exact Hr|]. split; [eapply rows_of_sorted; eauto|].
  split; [|split; [|exact Hf]].
  - intros t Ht. apply In_nth_error in Ht as [i Hi].
    destruct (nth_error_lt_Some ind i) as [k Hk]; [apply nth_error_Some_lt in Hi; destruct Hr; lia|].
    destruct (proj2 Hr i k Hk) as (x & Hx & Hx'). rewrite Hi in Hx'. injection Hx' as <-.
    destruct (Hd k (nth_error_In _ _ Hk)) as (x & Hx1 & Hon). congruence.
  - intros t Ht Hon. destruct (Hc t Ht Hon) as (k & s & Hk & Hs' & Hq). exists s. split; [|exact Hq].
    apply In_nth_error in Hk as [i Hi]. destruct (proj2 Hr i k Hi) as (x & Hx & Hx').
    rewrite Hs' in Hx. injection Hx as <-. eapply nth_error_In. exact Hx'.
Qed.

(** ** np.unique *)
Definition lex (p q : Q * nat) : Prop :=
  (fst p < fst q)%Q \/ ((fst p == fst q)%Q /\ snd p < snd q).

Lemma insert_pair_perm x l : Permutation (insert_pair x l) (x :: l).
Proof.
  induction l as [|y l IH]; simpl; [reflexivity|].
  destruct (Qle_bool (fst x) (fst y)); [reflexivity|].
  rewrite IH. apply perm_swap.
Qed.
Lemma sort_pairs_perm l : Permutation (sort_pairs l) l.
Proof. induction l as [|x l IH]; simpl; [reflexivity|]. rewrite insert_pair_perm. constructor. exact IH. Qed.

Lemma lex_trans p q r : lex p q -> lex q r -> lex p r.
Proof.
  unfold lex. intros [H1|[H1 H1']] [H2|[H2 H2']].
  - left. lra.
  - left. lra.
  - left. lra.
  - right. split; [lra|lia].
Qed.

Lemma insert_pair_sorted x l : StronglySorted lex l -> Forall (fun y => snd x < snd y) l ->
  StronglySorted lex (insert_pair x l).
Proof.
  induction l as [|y l IH]; intros Hs Hf; simpl; [repeat constructor|].
  apply StronglySorted_inv in Hs as [Hs Hy]. inversion Hf as [|? ? Hxy Hf']; subst.
  destruct (Qle_bool (fst x) (fst y)) eqn:E.
  - apply Qle_bool_iff in E. assert (Hlex : lex x y).
    { destruct (Qlt_le_dec (fst x) (fst y)); [left; assumption|]. right. split; [lra|exact Hxy]. }
    constructor; [constructor; assumption|]. constructor; [exact Hlex|].
    eapply Forall_impl; [|exact Hy]. intros z Hz. eapply lex_trans; eauto.
  - assert (Hlt : (fst y < fst x)%Q).
    { destruct (Qlt_le_dec (fst y) (fst x)) as [|Hle]; [assumption|]. apply Qle_bool_iff in Hle. congruence. }
    constructor; [apply IH; assumption|].
    apply Forall_forall. intros z Hz. apply (Permutation_in _ (insert_pair_perm x l)) in Hz as [<-|Hz].
    + left. exact Hlt.
    + rewrite Forall_forall in Hy. auto.
Qed.

Lemma sort_pairs_sorted l : StronglySorted (fun p q => snd p < snd q) l -> StronglySorted lex (sort_pairs l).
Proof.
  induction l as [|x l IH]; intros Hs; simpl; [constructor|].
  apply StronglySorted_inv in Hs as [Hs Hf]. apply insert_pair_sorted; [apply IH; exact Hs|].
  apply Forall_forall. intros y Hy. apply (Permutation_in _ (sort_pairs_perm l)) in Hy.
  rewrite Forall_forall in Hf. auto.
Qed.

Lemma dedup_in l : forall prev p, StronglySorted lex l ->
  (forall v q, prev = Some v -> In q l -> (v <= fst q)%Q) ->
  (In p (dedup prev l) <->
   In p l /\ (forall q, In q l -> (fst q == fst p)%Q -> snd p <= snd q) /\
   (forall v, prev = Some v -> ~ (v == fst p)%Q)).
Proof.
  induction l as [|x l IH]; intros prev p Hs Hprev; [simpl; tauto|].
  apply StronglySorted_inv in Hs as [Hs Hx]. rewrite Forall_forall in Hx.
  assert (Hx' : forall q, In q l -> (fst x <= fst q)%Q).
  { intros q Hq. destruct (Hx q Hq) as [H|[H _]]; lra. }
  assert (IH' := IH (Some (fst x)) p Hs).
  specialize (IH' ltac:(intros v q [= <-] Hq; auto)).
  change (dedup prev (x :: l)) with
    ((if match prev with Some v => Qeq_bool v (fst x) | None => false end then [] else [x]) ++ dedup (Some (fst x)) l).
  rewrite in_app_iff, IH'. clear IH IH'.
  set (eqp := match prev with Some v => Qeq_bool v (fst x) | None => false end).
  assert (Heqp : eqp = true <-> exists v, prev = Some v /\ (v == fst x)%Q).
  { unfold eqp. destruct prev as [v|].
    - rewrite Qeq_bool_iff. split; [eauto|]. intros (w & [= <-] & H); exact H.
    - split; [discriminate|]. intros (w & H & _). discriminate. }
  split.
  - intros [H|(Hin & Hmin & Hne)].
    + destruct eqp eqn:Ee; [destruct H|]. destruct H as [<-|[]]. split; [left; reflexivity|]. split.
      * intros q [<-|Hq] Hqe; [lia|]. destruct (Hx q Hq) as [Hlt|[_ Hlt]]; [lra|lia].
      * intros v Hv Hc. assert (false = true); [|discriminate]. apply Heqp. eauto.
    + specialize (Hne (fst x) eq_refl). split; [right; exact Hin|]. split.
      * intros q [<-|Hq] Hqe; [contradiction|auto].
      * intros v Hv Hc. pose proof (Hprev v x Hv (or_introl eq_refl)). pose proof (Hx' p Hin).
        apply Hne. lra.
  - intros ([<-|Hin] & Hmin & Hne).
    + left. destruct eqp eqn:Ee; [|left; reflexivity].
      destruct (proj1 Heqp eq_refl) as (v & Hv & Hq). exfalso. exact (Hne v Hv Hq).
    + right. split; [exact Hin|]. split; [intros; apply Hmin; [right; assumption|assumption]|].
      intros v [= <-] Hc. pose proof (Hmin x (or_introl eq_refl) Hc). destruct (Hx p Hin) as [Hlt|[_ Hlt]]; [lra|lia].
Qed.

Lemma dedup_sorted l : forall prev, StronglySorted lex l ->
  (forall v q, prev = Some v -> In q l -> (v <= fst q)%Q) ->
  StronglySorted (fun p q => (fst p < fst q)%Q) (dedup prev l) /\
  (forall v q, prev = Some v -> In q (dedup prev l) -> (v < fst q)%Q).
Proof.
  induction l as [|x l IH]; intros prev Hs Hprev; [split; [constructor|intros v q _ []]|].
  pose proof Hs as Hs0. apply StronglySorted_inv in Hs as [Hs Hx]. rewrite Forall_forall in Hx.
  assert (Hx' : forall q, In q l -> (fst x <= fst q)%Q).
  { intros q Hq. destruct (Hx q Hq) as [H|[H _]]; lra. }
  destruct (IH (Some (fst x)) Hs ltac:(intros v q [= <-] Hq; auto)) as [IH1 IH2].
  assert (Hgt : forall v q, prev = Some v -> In q (dedup prev (x :: l)) -> (v < fst q)%Q).
  { intros v q Hv Hq. apply dedup_in in Hq as (Hin & _ & Hne); [|exact Hs0|exact Hprev].
    pose proof (Hprev v q Hv Hin). specialize (Hne v Hv). destruct (Qlt_le_dec v (fst q)); [assumption|].
    exfalso. apply Hne. lra. }
  split; [|exact Hgt].
  change (dedup prev (x :: l)) with
    ((if match prev with Some v => Qeq_bool v (fst x) | None => false end then [] else [x]) ++ dedup (Some (fst x)) l).
  destruct (match prev with Some v => Qeq_bool v (fst x) | None => false end); simpl; [exact IH1|].
  constructor; [exact IH1|]. apply Forall_forall. intros q Hq. apply (IH2 (fst x) q eq_refl Hq).
Qed.

Lemma in_combine_seq (l : list Q) s p : In p (combine l (seq s (List.length l))) <->
  s <= snd p /\ nth_error l (snd p - s) = Some (fst p).
Proof.
  revert s. induction l as [|x l IH]; intros s; simpl.
  - split; [intros []|]. intros [_ H]. destruct (snd p - s); discriminate.
  - rewrite IH. split.
    + intros [<-|[H1 H2]]; simpl; [rewrite Nat.sub_diag; auto|]. split; [lia|].
      replace (snd p - s) with (S (snd p - S s)) by lia. exact H2.
    + intros [H1 H2]. destruct (Nat.eq_dec (snd p) s) as [E|E].
      * left. rewrite E, Nat.sub_diag in H2. injection H2 as H2. destruct p as [a b]; simpl in *. congruence.
      * right. split; [lia|]. replace (snd p - s) with (S (snd p - S s)) in H2 by lia. exact H2.
Qed.

Lemma combine_seq_sorted (l : list Q) : forall s,
  StronglySorted (fun p q : Q * nat => snd p < snd q) (combine l (seq s (List.length l))).
Proof.
  induction l as [|x l IH]; intros s; simpl; [constructor|]. constructor; [apply IH|].
  apply Forall_forall. intros p Hp. apply in_combine_seq in Hp as [Hp _]. simpl. lia.
Qed.

Lemma unique_spec time : 
  (forall i, In i (unique_index time) <-> first_occurrence time i) /\
  StronglySorted (times_lt time) (unique_index time).
Proof.
  assert (Hs : StronglySorted lex (sort_pairs (combine time (seq 0 (List.length time))))).
  { apply sort_pairs_sorted. apply combine_seq_sorted. }
  assert (Hin : forall p, In p (unique time) <->
    nth_error time (snd p) = Some (fst p) /\
    forall j y, nth_error time j = Some y -> (y == fst p)%Q -> snd p <= j).
  { intros p. unfold unique. rewrite dedup_in; [|exact Hs|intros v q H; discriminate].
    assert (Hmem : forall q, In q (sort_pairs (combine time (seq 0 (List.length time)))) <-> nth_error time (snd q) = Some (fst q)).
    { intros q. split.
      - intros H. apply (Permutation_in _ (sort_pairs_perm _)) in H. apply in_combine_seq in H as [_ H].
        rewrite Nat.sub_0_r in H. exact H.
      - intros H. apply (Permutation_in _ (Permutation_sym (sort_pairs_perm _))). apply in_combine_seq.
        rewrite Nat.sub_0_r. split; [lia|exact H]. }
    rewrite Hmem. split.
    - intros (H1 & H2 & _). split; [exact H1|]. intros j y Hj Hy. apply (H2 (y, j)); [apply Hmem; exact Hj|exact Hy].
    - intros (H1 & H2). split; [exact H1|]. split; [|intros v H; discriminate].
      intros q Hq Hqe. apply Hmem in Hq. eapply H2; eauto. }
  split.
  - intros i. unfold unique_index. rewrite in_map_iff. split.
    + intros (p & <- & Hp). apply Hin in Hp as [H1 H2]. exists (fst p). split; [exact H1|].
      intros j y Hj Hy Hc. assert (Hc' : (y == fst p)%Q) by (symmetry; exact Hc). specialize (H2 j y Hy Hc'). lia.
    + intros (x & Hx & Hfirst). exists (x, i). split; [reflexivity|]. apply Hin. simpl. split; [exact Hx|].
      intros j y Hj Hy. destruct (Nat.lt_ge_cases j i) as [Hlt|]; [|assumption].
      exfalso. apply (Hfirst j y Hlt Hj). symmetry. exact Hy.
  - unfold unique_index, unique. destruct (dedup_sorted _ None Hs ltac:(intros v q H; discriminate)) as [Hd _].
    fold (unique time) in Hd |- *.
    assert (Hall : forall p, In p (unique time) -> nth_error time (snd p) = Some (fst p)) by (intros p Hp; apply Hin; exact Hp).
    clear Hin Hs. induction Hd as [|p l Hs IH Hf]; simpl; constructor.
    + apply IH. intros q Hq. apply Hall. right. exact Hq.
    + apply Forall_forall. intros k Hk. apply in_map_iff in Hk as (q & <- & Hq). intros a b Ha Hb.
      rewrite (Hall p (or_introl eq_refl)) in Ha. rewrite (Hall q (or_intror Hq)) in Hb.
      injection Ha as <-. injection Hb as <-. rewrite Forall_forall in Hf. auto.
Qed.

Lemma unique_bound time : Forall (fun i => i < List.length time) (unique_index time).
Proof.
  apply Forall_forall. intros i Hi. apply unique_spec in Hi as (x & Hx & _). eapply nth_error_Some_lt. exact Hx.
Qed.

(** Every value has a first occurrence. *)
Lemma first_occurrence_exists l t : In t l -> exists i x, first_occurrence l i /\ nth_error l i = Some x /\ (x == t)%Q.
Proof.
  intros Ht. apply In_nth_error in Ht as [i Hi].
  assert (H : forall n, (exists j y, j < n /\ nth_error l j = Some y /\ (y == t)%Q /\
      forall k z, k < j -> nth_error l k = Some z -> ~ (z == t)%Q) \/
    (forall k z, k < n -> nth_error l k = Some z -> ~ (z == t)%Q)).
  { induction n as [|n [IH|IH]].
    - right. intros; lia.
    - left. destruct IH as (j & y & Hj & H). exists j, y. split; [lia|exact H].
    - destruct (nth_error l n) as [y|] eqn:E.
      + destruct (Qeq_dec y t) as [Hq|Hq].
        * left. exists n, y. auto.
        * right. intros k z Hk Hz. destruct (Nat.eq_dec k n) as [->|]; [|apply (IH k); [lia|exact Hz]].
          rewrite E in Hz. injection Hz as <-. exact Hq.
      + right. intros k z Hk Hz. destruct (Nat.eq_dec k n) as [->|]; [congruence|]. apply (IH k); [lia|exact Hz]. }
  destruct (H (S i)) as [(j & y & Hj & Hy & Hq & Hf)|Hn].
  - exists j, y. split; [|auto]. exists y. split; [exact Hy|]. intros k z Hk Hz Hc. apply (Hf k z Hk Hz). lra.
  - exfalso. apply (Hn i t); [lia|exact Hi|reflexivity].
Qed.

Lemma screen_time_indices_ok {P} (r : instrument P) ind : ind <> [] ->
  Forall (fun i => i < List.length (i_time r)) ind ->
  exists r', screen_time_indices r ind = Ok r' /\ rows_of ind (i_time r) (i_time r') /\
    dict_follows 3 (List.length (i_time r)) ind (i_data r) (i_data r').
Proof.
  intros Hne Hb. unfold screen_time_indices.
  destruct (map_dict_follows (take_rows 3 (List.length (i_time r)) ind) 3 (List.length (i_time r)) ind (i_data r)) as (d' & Em & Hf).
  { intros k v _. apply take_rows_follows. exact Hb. }
  destruct (gather_rows_of (i_time r) ind Hb) as (t' & Eg & Hr).
  destruct ind; [congruence|]. rewrite Em. cbn [bind]. rewrite Eg. cbn [bind]. eexists. split; [reflexivity|]. auto.
Qed.

Lemma remove_duplicates_ok {P} (r : instrument P) : i_time r <> [] ->
  exists ind r', remove_duplicate_timestamps r = Ok r' /\
    rows_of ind (i_time r) (i_time r') /\ strictly_increasing (i_time r') /\
    (forall i, In i ind <-> first_occurrence (i_time r) i) /\
    (forall t, In t (i_time r') -> In t (i_time r)) /\
    (forall t, In t (i_time r) -> exists s, In s (i_time r') /\ (s == t)%Q) /\
    dict_follows 3 (List.length (i_time r)) ind (i_data r) (i_data r').
Proof.
  intros Hne. destruct (unique_spec (i_time r)) as [Hin Hs].
  assert (Hne' : unique_index (i_time r) <> []).
  { destruct (i_time r) as [|t l] eqn:E; [congruence|].
    destruct (first_occurrence_exists (t :: l) t (or_introl eq_refl)) as (i & x & Hf & _).
    apply Hin in Hf. intros Hc. rewrite Hc in Hf. destruct Hf. }
  destruct (screen_time_indices_ok r _ Hne' (unique_bound _)) as (r' & E & Hr & Hf).
  exists (unique_index (i_time r)), r'. split; [exact E|]. split; [exact Hr|].
  split; [eapply rows_of_sorted; eauto|]. split; [exact Hin|]. split; [|split; [|exact Hf]].
  - intros t Ht. apply In_nth_error in Ht as [i Hi].
    destruct (nth_error_lt_Some (unique_index (i_time r)) i) as [k Hk].
    { apply nth_error_Some_lt in Hi. destruct Hr. lia. }
    destruct (proj2 Hr i k Hk) as (x & Hx & Hx'). rewrite Hi in Hx'. injection Hx' as <-. eapply nth_error_In. exact Hx.
  - intros t Ht. destruct (first_occurrence_exists _ _ Ht) as (i & x & Hfo & Hx & Hq). exists x. split; [|exact Hq].
    apply Hin in Hfo. apply In_nth_error in Hfo as [m Hm]. destruct (proj2 Hr m i Hm) as (y & Hy & Hy').
    rewrite Hx in Hy. injection Hy as <-. eapply nth_error_In. exact Hy'.
Qed.

Lemma sort_timestamps_ok {P} (r : instrument P) ind : i_time r <> [] -> is_argsort (i_time r) ind ->
  exists r', sort_timestamps ind r = Ok r' /\
    rows_of ind (i_time r) (i_time r') /\ StronglySorted Qle (i_time r') /\
    Permutation (i_time r') (i_time r) /\
    dict_follows 3 (List.length (i_time r)) ind (i_data r) (i_data r').
Proof.
  intros Hne Ha. assert (Hne' : ind <> []).
  { intros ->. destruct Ha as [Hp _]. apply Permutation_length in Hp. rewrite seq_length in Hp.
    destruct (i_time r); [congruence|discriminate]. }
  destruct (screen_time_indices_ok r ind Hne' (argsort_bound _ _ Ha)) as (r' & E & Hr & Hf).
  exists r'. split; [exact E|]. split; [exact Hr|]. destruct Ha as [Hp Hs]. split; [|split; [|exact Hf]].
  - clear - Hr Hs. destruct r as [time d]; simpl in *. destruct r' as [out d']; simpl in *. revert out Hr.
    induction ind as [|i ind IH]; intros out [Hl Hr].
    + destruct out; [constructor|discriminate].
    + destruct out as [|x out]; [discriminate|]. apply StronglySorted_inv in Hs as [Hs Hf].
      assert (Hr' : rows_of ind time out).
      { split; [simpl in Hl; lia|]. intros j k Hk. apply (Hr (S j) k). exact Hk. }
      constructor; [apply IH; assumption|]. apply Forall_forall. intros y Hy. apply In_nth_error in Hy as [j Hj].
      destruct (nth_error_lt_Some ind j) as [k Hk]. { apply nth_error_Some_lt in Hj. simpl in Hl. lia. }
      destruct (proj2 Hr' j k Hk) as (z & Hz & Hz'). rewrite Hj in Hz'. injection Hz' as <-.
      destruct (Hr 0 i eq_refl) as (w & Hw & Hw'). injection Hw' as <-.
      rewrite Forall_forall in Hf. apply (Hf k (nth_error_In _ _ Hk)); assumption.
  - (* the rows in order are the times themselves *)
    assert (Hmap : i_time r' = map (fun k => nth k (i_time r) 0%Q) ind).
    { apply nth_error_ext. intros i. rewrite nth_error_map'. destruct (nth_error ind i) as [k|] eqn:Ek; simpl.
      - destruct (proj2 Hr i k Ek) as (x & Hx & Hx'). rewrite Hx'. f_equal. symmetry. apply nth_error_nth. exact Hx.
      - apply nth_error_None in Ek. apply nth_error_None. destruct Hr as [Hl _]. lia. }
    rewrite Hmap. rewrite (Permutation_map _ Hp).
    assert (Hid : map (fun k => nth k (i_time r) 0%Q) (seq 0 (List.length (i_time r))) = i_time r).
    { apply nth_error_ext. intros i. rewrite nth_error_map'.
      destruct (Nat.lt_ge_cases i (List.length (i_time r))) as [Hlt|Hge].
      - destruct (nth_error_lt_Some _ _ Hlt) as [x Hx]. rewrite Hx.
        rewrite (nth_error_nth' _ 0) by (rewrite seq_length; exact Hlt). rewrite seq_nth by exact Hlt. simpl.
        f_equal. apply nth_error_nth. exact Hx.
      - replace (nth_error (seq 0 (List.length (i_time r))) i) with (@None nat).
        + symmetry. apply nth_error_None. exact Hge.
        + symmetry. apply nth_error_None. rewrite seq_length. exact Hge. }
    rewrite Hid. reflexivity.
Qed.

(** The stable sort is one admissible argsort. *)
Lemma argsort_is_argsort time : is_argsort time (argsort time).
Proof.
  unfold argsort. split.
  - rewrite (Permutation_map snd (sort_pairs_perm _)).
    assert (H : forall (l : list Q) s, map snd (combine l (seq s (List.length l))) = seq s (List.length l)).
    { induction l as [|x l IH]; intros s; simpl; [reflexivity|]. rewrite IH. reflexivity. }
    rewrite H. reflexivity.
  - pose proof (sort_pairs_sorted _ (combine_seq_sorted time 0)) as Hs.
    assert (Hall : forall p, In p (sort_pairs (combine time (seq 0 (List.length time)))) -> nth_error time (snd p) = Some (fst p)).
    { intros q H. apply (Permutation_in _ (sort_pairs_perm _)) in H. apply in_combine_seq in H as [_ H].
      rewrite Nat.sub_0_r in H. exact H. }
    induction Hs as [|p l Hs IH Hf]; simpl; constructor.
    + apply IH. intros q Hq. apply Hall. right. exact Hq.
    + apply Forall_forall. intros k Hk. apply in_map_iff in Hk as (q & <- & Hq). intros a b Ha Hb.
      rewrite (Hall p (or_introl eq_refl)) in Ha. rewrite (Hall q (or_intror Hq)) in Hb.
      injection Ha as <-. injection Hb as <-. rewrite Forall_forall in Hf. destruct (Hf q Hq) as [H|[H _]]; lra.
Qed.

(** ** seconds2hours *)
Lemma qfloor_unique q n : (inject_Z n <= q)%Q -> (q < inject_Z n + 1)%Q -> Qfloor q = n.
Proof.
  intros H1 H2. pose proof (Qfloor_le q) as A. pose proof (Qlt_floor q) as B.
  rewrite inject_Z_plus in B. change (inject_Z 1) with 1%Q in B.
  assert (C : (inject_Z n < inject_Z (Qfloor q) + 1)%Q) by lra.
  assert (D : (inject_Z (Qfloor q) < inject_Z n + 1)%Q) by lra.
  change 1%Q with (inject_Z 1) in C, D. rewrite <- inject_Z_plus in C, D.
  apply inject_Z_lt_inv in C, D. lia.
Qed.

Lemma qmod_bound t : (0 <= qmod t 86400 /\ qmod t 86400 < 86400)%Q.
Proof.
  unfold qmod. pose proof (Qfloor_le (t / 86400)) as A. pose proof (Qlt_floor (t / 86400)) as B.
  rewrite inject_Z_plus in B. change (inject_Z 1) with 1%Q in B.
  set (f := inject_Z (Qfloor (t / 86400))) in *.
  assert (E : (t == t / 86400 * 86400)%Q) by field. set (x := (t / 86400)%Q) in *. lra.
Qed.

Lemma qmod_in_day t d : (inject_Z d * 86400 <= t)%Q -> (t < inject_Z d * 86400 + 86400)%Q ->
  (qmod t 86400 == t - inject_Z d * 86400)%Q.
Proof.
  intros H1 H2. unfold qmod.
  assert (E : (t == t / 86400 * 86400)%Q) by field.
  rewrite (qfloor_unique (t / 86400) d); [ring| |]; set (x := (t / 86400)%Q) in *; lra.
Qed.

Lemma fix_last_nth l i x : nth_error (fix_last l) i = Some x <->
  exists y, nth_error l i = Some y /\
    x = if Nat.eqb (S i) (List.length l) && Qeq_bool y 0 then 24%Q else y.
Proof.
  revert i. induction l as [|a l IH]; intros i.
  - simpl. split; [destruct i; discriminate|]. intros (y & H & _). destruct i; discriminate.
  - destruct l as [|b l].
    + destruct i as [|i]; simpl.
      * split; [intros [= <-]; eauto|]. intros (y & [= <-] & ->). reflexivity.
      * split; [destruct i; discriminate|]. intros (y & H & _). destruct i; discriminate.
    + change (fix_last (a :: b :: l)) with (a :: fix_last (b :: l)).
      destruct i as [|i].
      * simpl. split; [intros [= <-]; eauto|]. intros (y & [= <-] & ->). reflexivity.
      * cbn [nth_error]. rewrite IH. reflexivity.
Qed.
Lemma fix_last_length l : List.length (fix_last l) = List.length l.
Proof. induction l as [|a [|b l] IH]; [reflexivity|reflexivity|]. simpl in *. rewrite IH. reflexivity. Qed.

Lemma seconds2hours_range time out : seconds2hours time = Ok out ->
  List.length out = List.length time /\ Forall (fun h => 0 <= h /\ h <= 24)%Q out.
Proof.
  destruct time as [|t r]; [discriminate|]. unfold seconds2hours. intros Ho.
  assert (Ho' : out = fix_last (map (fun t0 => (qmod t0 86400 / 3600)%Q) (t :: r))) by congruence. subst out. clear Ho.
  split; [rewrite fix_last_length; apply map_length|].
  apply Forall_forall. intros h Hh. apply In_nth_error in Hh as [i Hi]. apply fix_last_nth in Hi as (y & Hy & ->).
  rewrite nth_error_map' in Hy. destruct (nth_error (t :: r) i) as [t'|]; [|discriminate]. simpl in Hy. injection Hy as <-.
  destruct (_ && _); [lra|]. pose proof (qmod_bound t') as [A B].
  assert (E : (qmod t' 86400 == qmod t' 86400 / 3600 * 3600)%Q) by field. set (x := (qmod t' 86400 / 3600)%Q) in *. lra.
Qed.

(** Value for a vector within one day, its end included. *)
Lemma seconds2hours_value time d out :
  seconds2hours time = Ok out -> strictly_increasing time ->
  Forall (fun t => inject_Z d * 86400 <= t /\ t <= inject_Z d * 86400 + 86400)%Q time ->
  2 <= List.length time ->
  forall i t, nth_error time i = Some t ->
    exists h, nth_error out i = Some h /\ (h == (t - inject_Z d * 86400) / 3600)%Q.
Proof.
  intros Ho Hs Hd H2 i t Ht. destruct time as [|t0 r]; [discriminate|]. unfold seconds2hours in Ho.
  set (l := t0 :: r) in *.
  assert (Ho' : out = fix_last (map (fun t => (qmod t 86400 / 3600)%Q) l)) by congruence. subst out. clear Ho.
  assert (Hm : nth_error (map (fun t => (qmod t 86400 / 3600)%Q) l) i = Some (qmod t 86400 / 3600)%Q).
  { rewrite nth_error_map', Ht. reflexivity. }
  eexists. split; [apply fix_last_nth; eexists; split; [exact Hm|reflexivity]|].
  rewrite map_length.
  pose proof (nth_error_Some_lt _ _ _ Ht) as Hil.
  rewrite Forall_forall in Hd. destruct (Hd t (nth_error_In _ _ Ht)) as [D1 D2].
  assert (Hlt : forall a b x y, a < b -> nth_error l a = Some x -> nth_error l b = Some y -> (x < y)%Q).
  { clear - Hs. unfold strictly_increasing in Hs. induction Hs as [|z l Hs IH Hf]; intros a b x y Hab Ha Hb.
    - destruct a; discriminate.
    - destruct b as [|b]; [lia|]. destruct a as [|a]; simpl in *.
      + injection Ha as <-. rewrite Forall_forall in Hf. apply Hf. eapply nth_error_In. exact Hb.
      + apply (IH a b x y); [lia|exact Ha|exact Hb]. }
  assert (E3600 : forall x : Q, (x == x / 3600 * 3600)%Q) by (intros; field).
  destruct (Nat.eqb_spec (S i) (List.length l)) as [El|El]; cbn [andb].
  - (* last element: not at the start of the day since there is an earlier one *)
    assert (Hgt : (inject_Z d * 86400 < t)%Q).
    { destruct i as [|i]; [unfold l in *; simpl in *; lia|].
      destruct (nth_error_lt_Some l i ltac:(lia)) as [y Hy].
      pose proof (Hlt i (S i) y t ltac:(lia) Hy Ht). destruct (Hd y (nth_error_In _ _ Hy)). lra. }
    destruct (Qlt_le_dec t (inject_Z d * 86400 + 86400)) as [Hin|Hend].
    + pose proof (qmod_in_day t d D1 Hin) as Hq.
      destruct (Qeq_bool (qmod t 86400 / 3600) 0) eqn:E0.
      * apply Qeq_bool_iff in E0. pose proof (E3600 (qmod t 86400)) as E1. rewrite E0 in E1. exfalso. lra.
      * rewrite Hq. reflexivity.
    + assert (Ht24 : (t == inject_Z d * 86400 + 86400)%Q) by lra.
      assert (Hz : (qmod t 86400 == 0)%Q).
      { rewrite (qmod_in_day t (d + 1)).
        - rewrite inject_Z_plus. change (inject_Z 1) with 1%Q. lra.
        - rewrite inject_Z_plus. change (inject_Z 1) with 1%Q. lra.
        - rewrite inject_Z_plus. change (inject_Z 1) with 1%Q. lra. }
      assert (E0 : Qeq_bool (qmod t 86400 / 3600) 0 = true).
      { apply Qeq_bool_iff. rewrite Hz. reflexivity. }
      rewrite E0. pose proof (E3600 (t - inject_Z d * 86400)%Q). set (x := ((t - inject_Z d * 86400) / 3600)%Q) in *. lra.
  - assert (Hin : (t < inject_Z d * 86400 + 86400)%Q).
    { destruct (nth_error_lt_Some l (List.length l - 1) ltac:(lia)) as [y Hy].
      pose proof (Hlt i (List.length l - 1) t y ltac:(lia) Ht Hy). destruct (Hd y (nth_error_In _ _ Hy)). lra. }
    rewrite (qmod_in_day t d D1 Hin). reflexivity.
Qed.

Lemma strictly_increasing_nth l : strictly_increasing l <->
  forall a b x y, a < b -> nth_error l a = Some x -> nth_error l b = Some y -> (x < y)%Q.
Proof.
  unfold strictly_increasing. split.
  - intros Hs. induction Hs as [|z l Hs IH Hf]; intros a b x y Hab Ha Hb.
    + destruct a; discriminate.
    + destruct b as [|b]; [lia|]. destruct a as [|a]; simpl in *.
      * injection Ha as <-. rewrite Forall_forall in Hf. apply Hf. eapply nth_error_In. exact Hb.
      * apply (IH a b x y); [lia|exact Ha|exact Hb].
  - induction l as [|z l IH]; intros H; constructor.
    + apply IH. intros a b x y Hab Ha Hb. apply (H (S a) (S b) x y); auto. lia.
    + apply Forall_forall. intros y Hy. apply In_nth_error in Hy as [j Hj]. apply (H 0 (S j) z y); auto. lia.
Qed.

Lemma seconds2hours_increasing time d out :
  seconds2hours time = Ok out -> strictly_increasing time ->
  Forall (fun t => inject_Z d * 86400 <= t /\ t <= inject_Z d * 86400 + 86400)%Q time ->
  strictly_increasing out.
Proof.
  intros Ho Hs Hd. destruct (Nat.lt_ge_cases (List.length time) 2) as [H1|H2].
  - destruct (seconds2hours_range time out Ho) as [Hl _]. rewrite <- Hl in H1.
    destruct out as [|a [|b out]]; [constructor|repeat constructor|simpl in H1; lia].
  - pose proof (seconds2hours_value time d out Ho Hs Hd H2) as Hv.
    destruct (seconds2hours_range time out Ho) as [Hl _].
    apply strictly_increasing_nth. intros a b x y Hab Ha Hb.
    destruct (nth_error_lt_Some time a) as [ta Hta]; [apply nth_error_Some_lt in Ha; lia|].
    destruct (nth_error_lt_Some time b) as [tb Htb]; [apply nth_error_Some_lt in Hb; lia|].
    destruct (Hv a ta Hta) as (x' & Hx' & Ex). destruct (Hv b tb Htb) as (y' & Hy' & Ey).
    rewrite Ha in Hx'. injection Hx' as <-. rewrite Hb in Hy'. injection Hy' as <-.
    rewrite strictly_increasing_nth in Hs. pose proof (Hs a b ta tb Hab Hta Htb).
    assert (E3600 : forall x : Q, (x == x / 3600 * 3600)%Q) by (intros; field).
    pose proof (E3600 (ta - inject_Z d * 86400)%Q) as Ea. pose proof (E3600 (tb - inject_Z d * 86400)%Q) as Eb.
    rewrite <- Ex in Ea. rewrite <- Ey in Eb. lra.
Qed.

(** ** Time grid *)
Lemma qceiling_unique q n : (q <= inject_Z n)%Q -> (inject_Z n < q + 1)%Q -> Qceiling q = n.
Proof.
  intros H1 H2. unfold Qceiling. rewrite (qfloor_unique (- q) (- n)); [lia| |]; rewrite inject_Z_opp; lra.
Qed.

Lemma time_grid_ok step : (1 <= step)%Z ->
  exists grid, time_grid step = Ok grid /\
    (forall i x, nth_error grid i = Some x <->
       (Z.of_nat i * step < 86400)%Z /\
       x = ((inject_Z step / 3600 / 2) + inject_Z (Z.of_nat i) * (2 * (inject_Z step / 3600 / 2)))%Q).
Proof.
  intros Hstep. unfold time_grid. destruct (Z.ltb_spec step 1) as [|_]; [lia|].
  set (h := (inject_Z step / 3600 / 2)%Q).
  assert (Hspos : (0 < inject_Z step)%Q) by (change 0%Q with (inject_Z 0); rewrite <- Zlt_Qlt; lia).
  assert (Hh : (inject_Z step == h * 7200)%Q) by (unfold h; field).
  assert (Hhp : (0 < h)%Q) by lra.
  set (c := Qceiling ((24 + h - h) / (2 * h))).
  assert (Hq : ((24 + h - h) / (2 * h) == 86400 / inject_Z step)%Q).
  { rewrite Hh. field. lra. }
  assert (Hc : forall i, (i < c <-> i * step < 86400)%Z).
  { intros i. pose proof (Qle_ceiling ((24 + h - h) / (2 * h))) as A. pose proof (Qceiling_lt ((24 + h - h) / (2 * h))) as B.
    fold c in A, B. rewrite Hq in A, B.
    assert (E : (86400 == 86400 / inject_Z step * inject_Z step)%Q) by (field; lra).
    set (x := (86400 / inject_Z step)%Q) in *.
    split; intros H.
    - assert (Hi : (inject_Z i <= inject_Z (c - 1))%Q) by (rewrite <- Zle_Qle; lia).
      assert (Hx : (inject_Z i < x)%Q) by lra.
      assert (Hm : (inject_Z i * inject_Z step < x * inject_Z step)%Q) by (apply Qmult_lt_compat_r; assumption).
      rewrite <- E in Hm. rewrite <- inject_Z_mult in Hm. change 86400%Q with (inject_Z 86400) in Hm.
      apply inject_Z_lt_inv in Hm. exact Hm.
    - destruct (Z.lt_ge_cases i c) as [|Hge]; [assumption|]. exfalso.
      assert (Hi : (inject_Z c <= inject_Z i)%Q) by (rewrite <- Zle_Qle; lia).
      assert (Hx : (x <= inject_Z i)%Q) by lra.
      assert (Hm : (x * inject_Z step <= inject_Z i * inject_Z step)%Q) by (apply Qmult_le_compat_r; lra).
      rewrite <- E in Hm. rewrite <- inject_Z_mult in Hm. change 86400%Q with (inject_Z 86400) in Hm.
      rewrite <- Zle_Qle in Hm. lia. }
  eexists. split; [reflexivity|]. intros i x. rewrite nth_error_map'.
  destruct (Nat.lt_ge_cases i (Z.to_nat c)) as [Hlt|Hge].
  - rewrite (nth_error_nth' (seq 0 (Z.to_nat c)) 0) by (rewrite seq_length; exact Hlt). rewrite seq_nth by exact Hlt.
    simpl option_map. split.
    + intros [= <-]. split; [apply Hc; lia|reflexivity].
    + intros [_ ->]. reflexivity.
  - replace (nth_error (seq 0 (Z.to_nat c)) i) with (@None nat) by (symmetry; apply nth_error_None; rewrite seq_length; exact Hge).
    simpl. split; [discriminate|]. intros [H _]. apply Hc in H. lia.
Qed.

(** ** Categorize screening *)
Lemma valid_indices_in n r l m i : In i (valid_indices n r l m) <-> i < n /\ ~ In i r /\ ~ In i l /\ ~ In i m.
Proof.
  unfold valid_indices. rewrite filter_In, in_seq, negb_true_iff.
  assert (H : existsb (Nat.eqb i) (r ++ l ++ m) = false <-> ~ In i (r ++ l ++ m)).
  { rewrite <- not_true_iff_false, existsb_exists. split.
    - intros H Hc. apply H. exists i. split; [exact Hc|apply Nat.eqb_refl].
    - intros H (x & Hx & E). apply Nat.eqb_eq in E. subst. auto. }
  rewrite H, !in_app_iff. split; intros [? ?]; split; try lia; tauto.
Qed.
Lemma filter_sorted {A} (R : A -> A -> Prop) f l : StronglySorted R l -> StronglySorted R (filter f l).
Proof.
  induction 1 as [|x l Hs IH Hf]; simpl; [constructor|]. destruct (f x); [|exact IH].
  constructor; [exact IH|]. apply Forall_forall. intros y Hy. apply filter_In in Hy as [Hy _].
  rewrite Forall_forall in Hf. auto.
Qed.
Lemma seq_sorted n : forall s, StronglySorted lt (seq s n).
Proof.
  induction n as [|n IH]; intros s; simpl; constructor; [apply IH|].
  apply Forall_forall. intros y Hy. apply in_seq in Hy. lia.
Qed.

Lemma screen_categorize_ok {P} time r l m (data : dict P) :
  let ind := valid_indices (List.length time) r l m in
  (List.length ind < 2 -> screen_categorize time r l m data = Raise ValidTimeStampError) /\
  (2 <= List.length ind ->
   exists time' data', screen_categorize time r l m data = Ok (time', data') /\
     rows_of ind time time' /\ dict_follows 2 (List.length time) ind data data').
Proof.
  intros ind. unfold screen_categorize. fold ind.
  destruct (Nat.ltb_spec (List.length ind) 2) as [Hlt|Hge]; split; intros H; try lia; [reflexivity|].
  assert (Hb : Forall (fun i => i < List.length time) ind).
  { apply Forall_forall. intros i Hi. apply valid_indices_in in Hi. tauto. }
  destruct (gather_rows_of time ind Hb) as (time' & Eg & Hr). rewrite Eg. cbn [bind].
  destruct (map_dict_follows (take_rows 2 (List.length time) ind) 2 (List.length time) ind data) as (d' & Em & Hf).
  { intros k v _. apply take_rows_follows. exact Hb. }
  rewrite Em. cbn [bind]. eauto.
Qed.

Lemma screen_categorize_spec {P} time radar_gap lidar_gap model_gap (data : dict P) :
  strictly_increasing time ->
  exists ind,
    StronglySorted lt ind /\
    (forall i, In i ind <-> i < List.length time /\ ~ In i radar_gap /\ ~ In i lidar_gap /\ ~ In i model_gap) /\
    (List.length ind < 2 ->
       screen_categorize time radar_gap lidar_gap model_gap data = Raise ValidTimeStampError) /\
    (2 <= List.length ind -> exists time' data',
       screen_categorize time radar_gap lidar_gap model_gap data = Ok (time', data') /\
       rows_of ind time time' /\ strictly_increasing time' /\
       dict_follows 2 (List.length time) ind data data').
Proof.
  intros Hs. set (ind := valid_indices (List.length time) radar_gap lidar_gap model_gap). exists ind.
  assert (Hsi : StronglySorted lt ind) by (apply filter_sorted, seq_sorted).
  split; [exact Hsi|]. split; [intros i; apply valid_indices_in|].
  destruct (screen_categorize_ok time radar_gap lidar_gap model_gap data) as [H1 H2].
  split; [exact H1|]. intros H. destruct (H2 H) as (t' & d' & E & Hr & Hf). exists t', d'.
  split; [exact E|]. split; [exact Hr|]. split; [|exact Hf].
  eapply rows_of_sorted; [exact Hr|]. rewrite strictly_increasing_nth in Hs.
  change (StronglySorted (times_lt time) ind). clearbody ind. clear - Hs Hsi.
  induction Hsi as [|i l Hl IH Hf]; constructor; [exact IH|].
  eapply Forall_impl; [|exact Hf]. intros j Hij a b Ha Hb. exact (Hs i j a b Hij Ha Hb).
Qed.

Lemma sequence_raise {A B} (f : A -> result B) l x e :
  In x l -> f x = Raise e -> (forall y, In y l -> f y = Raise e \/ exists z, f y = Ok z) ->
  sequence (map f l) = Raise e.
Proof.
  induction l as [|y l IH]; intros Hin Hx Hall; [destruct Hin|]. simpl.
  destruct (Hall y (or_introl eq_refl)) as [E|[z E]]; rewrite E; [reflexivity|].
  destruct Hin as [->|Hin]; [congruence|]. rewrite IH; [reflexivity|assumption|assumption|].
  intros w Hw. apply Hall. right. exact Hw.
Qed.

Lemma screen_by_time_list {P} idx time (data : dict P) epoch day k len :
  is_argsort time idx -> (exists t, In t time /\ on_date epoch day t) ->
  In (k, VList len) data -> 1 < len ->
  screen_by_time idx time data epoch day = Raise ValueError.
Proof.
  intros Ha Hex Hin Hlen. destruct (find_valid_ok idx time epoch day Ha Hex) as (ind & E & Hb & _).
  destruct (gather_rows_of time ind Hb) as (time' & Eg & _). unfold screen_by_time. rewrite E. cbn [bind].
  rewrite Eg. cbn [bind]. unfold map_dict.
  erewrite (sequence_raise _ data (k, VList len) ValueError); [reflexivity|exact Hin| |].
  - simpl. destruct (Nat.ltb_spec 1 len); [reflexivity|lia].
  - intros [k' v'] _. cbn [fst snd]. destruct v' as [d rows|p|n'].
    + right. unfold screen_value. destruct (take_rows_follows 3 (List.length time) ind (VArr d rows) Hb) as (v' & Ev & _).
      rewrite Ev. simpl. eauto.
    + right. simpl. eauto.
    + simpl. destruct (Nat.ltb 1 n'); simpl; eauto.
Qed.
