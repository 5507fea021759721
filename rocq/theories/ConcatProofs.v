(** Proofs about concatenation and appending. *)
From Verif Require Import Base OutputModel OutputSpec OutputProofs ConcatModel ConcatSpec.
Open Scope nat_scope.

(** ** Dictionaries *)
Lemma lookup_some_in : forall A k (d : dict A) v, lookup k d = Some v -> In (k, v) d.
Proof.
  intros A k d v. induction d as [|[k' w] d IH]; cbn [lookup]; [discriminate|].
  destruct (String.eqb_spec k k') as [->|N]; [intros H; left; congruence|right; auto].
Qed.
Lemma in_lookup : forall A k (d : dict A) v, NoDup (map fst d) -> In (k, v) d -> lookup k d = Some v.
Proof.
  intros A k d v. induction d as [|[k' w] d IH]; intros N I; [destruct I|].
  inversion N as [|? ? N1 N2]; subst. cbn [lookup]. destruct I as [E|I].
  - injection E as -> ->. rewrite String.eqb_refl. reflexivity.
  - destruct (String.eqb_spec k k') as [->|D]; [|auto].
    exfalso. apply N1. apply (in_map fst) in I. exact I.
Qed.
Lemma lookup_none : forall A k (d : dict A), lookup k d = None <-> ~ In k (map fst d).
Proof.
  intros A k d. rewrite <- lookup_in. destruct (lookup k d); split; try congruence; auto.
  intros H. exfalso. apply H. discriminate.
Qed.
Lemma lookup_key_in : forall A k (d : dict A) v, lookup k d = Some v -> In k (map fst d).
Proof. intros A k d v H. apply lookup_in. congruence. Qed.

(** ** Files *)
Lemma file_time : forall f, file_ok f -> exists r stamps,
  lookup "time" (cf_vars f) = Some (Series r stamps) /\ List.length stamps = n_time f /\ steps f (n_time f).
Proof.
  intros f [N (r & stamps & I & H)]. exists r, stamps.
  pose proof (in_lookup _ _ _ _ N I) as L. unfold n_time. rewrite L. split; [reflexivity|].
  split; [reflexivity|]. exists r, stamps. auto.
Qed.
Lemma steps_n : forall f n, file_ok f -> steps f n -> n = n_time f.
Proof.
  intros f n [N _] (r & stamps & I & <-). unfold n_time.
  rewrite (in_lookup _ _ _ _ N I). reflexivity.
Qed.
Lemma expand_own : forall f k v, file_ok f -> lookup k (cf_vars f) = Some v ->
  own_profiles v (n_time f) (expand_array v (n_time f)) /\
  List.length (expand_array v (n_time f)) = n_time f.
Proof.
  intros f k v Hf L. destruct (file_time f Hf) as (r & stamps & Lt & E & S).
  destruct Hf as [N (r' & stamps' & I & H)].
  assert (E' : Series r' stamps' = Series r stamps).
  { pose proof (in_lookup _ _ _ _ N I). congruence. }
  injection E' as -> ->. destruct v as [b rows|b row]; simpl.
  - split; [reflexivity|]. rewrite (H k b rows); [exact E|]. apply lookup_some_in, L.
  - split; [|apply repeat_length]. split; [apply repeat_length|].
    apply Forall_forall. intros x J. apply repeat_spec in J. congruence.
Qed.

Lemma valid_files_spec : forall files valid, valid_files files = Ok valid ->
  Forall file_ok files -> valid = filter (fun f => match is_valid_file f with Ok b => b | _ => false end) files /\
  forall f, In f valid <-> In f files /\ takes_part f.
Proof.
  intros files. induction files as [|f files IH]; intros valid H F.
  - cbn in H. assert (valid = []) by congruence. subst. split; [reflexivity|]. intros f. simpl. tauto.
  - apply Forall_cons_iff in F. destruct F as [Ff F]. cbn [valid_files] in H.
    destruct (is_valid_file f) as [b|e] eqn:V; [|discriminate]. cbn [bind] in H.
    destruct (valid_files files) as [r|e] eqn:R; [|discriminate]. cbn [bind] in H.
    destruct (IH r eq_refl F) as [E Hin].
    assert (valid = if b then f :: r else r) by congruence. subst valid. clear H.
    assert (B : b = true <-> takes_part f).
    { unfold is_valid_file in V. destruct (file_time f Ff) as (rr & stamps & L & Es & S).
      rewrite L in V. simpl in V. destruct (Nat.ltb_spec 0 (List.length stamps)) as [P|P].
      - destruct (cf_range f) as [x|] eqn:Er; [|discriminate].
        assert (b = (Z.of_nat (List.length x) <? 10000)%Z) by congruence. subst b.
        rewrite Z.ltb_lt. split.
        + intros Lt. split; [exists (n_time f); split; [exact S|lia]|]. eauto.
        + intros [_ (x' & Ex & Lt)]. congruence.
      - assert (b = false) by congruence. subst b. split; [discriminate|].
        intros [(n & Sn & P') _]. apply (steps_n f n Ff) in Sn. lia. }
    split.
    + cbn [filter]. rewrite V. destruct b; [rewrite <- E; reflexivity|exact E].
    + intros g. destruct b.
      * simpl. rewrite Hin. split.
        -- intros [->|[I T]]; [split; [auto|apply B; reflexivity]|auto].
        -- intros [[->|I] T]; auto.
      * rewrite Hin. simpl. split; [tauto|]. intros [[->|I] T]; [|auto].
        apply B in T. discriminate.
Qed.

(** ** Order of the files *)
Lemma insert_file_perm : forall f l, Permutation (insert_file f l) (f :: l).
Proof.
  intros f l. induction l as [|g l IH]; cbn [insert_file]; [reflexivity|].
  destruct (str_leb (cf_name f) (cf_name g)); [reflexivity|]. rewrite IH. apply perm_swap.
Qed.
Lemma sort_files_perm : forall l, Permutation (sort_files l) l.
Proof.
  induction l as [|f l IH]; [reflexivity|]. unfold sort_files in *. simpl.
  rewrite insert_file_perm. constructor. exact IH.
Qed.
Lemma name_le_trans : forall f g h, name_le f g -> name_le g h -> name_le f h.
Proof.
  intros f g h [E1|L1] [E2|L2]; unfold name_le.
  - left. congruence.
  - rewrite E1. auto.
  - rewrite <- E2. auto.
  - right. apply (str_lt_trans _ _ _ L1 L2).
Qed.
Lemma insert_file_sorted : forall f l, StronglySorted name_le l -> StronglySorted name_le (insert_file f l).
Proof.
  intros f l H. induction H as [|g l H IH F]; cbn [insert_file]; [constructor; constructor|].
  destruct (str_leb (cf_name f) (cf_name g)) eqn:L.
  - apply str_leb_iff in L. constructor; [constructor; assumption|].
    constructor; [exact L|]. rewrite Forall_forall in *. intros x I.
    apply (name_le_trans _ g); [exact L|apply F, I].
  - constructor; [exact IH|]. rewrite Forall_forall in *. intros x I.
    apply (Permutation_in _ (insert_file_perm f l)) in I. destruct I as [<-|I]; [|auto].
    destruct (str_lt_total (cf_name g) (cf_name f)) as [E|[G|G]]; [left; exact E|right; exact G|].
    exfalso. assert (str_leb (cf_name f) (cf_name g) = true) by (apply str_leb_iff; auto). congruence.
Qed.
Lemma sort_files_sorted : forall l, StronglySorted name_le (sort_files l).
Proof.
  induction l as [|f l IH]; [constructor|]. unfold sort_files in *. simpl.
  apply insert_file_sorted, IH.
Qed.
Lemma insert_file_filter : forall f l n,
  StronglySorted name_le l ->
  filter (fun g => String.eqb (cf_name g) n) (insert_file f l) =
  filter (fun g => String.eqb (cf_name g) n) (f :: l).
Proof.
  intros f l n H. induction H as [|g l H IH F]; cbn [insert_file]; [reflexivity|].
  destruct (str_leb (cf_name f) (cf_name g)) eqn:L; [reflexivity|].
  cbn [filter] in *. rewrite IH.
  destruct (String.eqb_spec (cf_name g) n) as [E1|N1];
    destruct (String.eqb_spec (cf_name f) n) as [E2|N2]; try reflexivity.
  exfalso. assert (str_leb (cf_name f) (cf_name g) = true) by (apply str_leb_iff; left; congruence).
  congruence.
Qed.
Lemma sort_files_stable : forall l n,
  filter (fun g => String.eqb (cf_name g) n) (sort_files l) =
  filter (fun g => String.eqb (cf_name g) n) l.
Proof.
  intros l n. induction l as [|f l IH]; [reflexivity|].
  unfold sort_files in *. cbn [fold_right]. rewrite insert_file_filter by apply sort_files_sorted.
  cbn [filter]. rewrite IH. reflexivity.
Qed.

(** ** Nearest neighbour *)
Lemma argmin_from_spec : forall l i best d,
  exists v, (argmin_from i best d l = best /\ v = d \/
             exists k, argmin_from i best d l = i + k /\ nth_error l k = Some v /\ (v < d)%Q) /\
    (v <= d)%Q /\ (forall x, In x l -> (v <= x)%Q) /\
    (forall k x, i + k < argmin_from i best d l -> nth_error l k = Some x ->
       argmin_from i best d l <> best -> (v < x)%Q).
Proof.
  induction l as [|x l IH]; intros i best d; cbn [argmin_from].
  - exists d. split; [auto|]. split; [apply Qle_refl|]. split; [intros ? []|].
    intros [|k] y _ E; discriminate.
  - destruct (Qlt_le_dec x d) as [L|L].
    + destruct (IH (S i) i x) as (v & Hv & Hd & Hl & Hf). exists v. split; [|split; [|split]].
      * right. destruct Hv as [[E ->]|(k & E & N & Lv)].
        -- exists 0. rewrite E. split; [lia|]. split; [reflexivity|exact L].
        -- exists (S k). rewrite E. split; [lia|]. split; [exact N|].
           apply (Qlt_trans _ x); assumption.
      * apply (Qle_trans _ x); [exact Hd|apply Qlt_le_weak, L].
      * intros y [<-|I]; auto.
      * intros k y Lt Ey D. destruct Hv as [[E ->]|(k' & E & N & Lv)].
        -- lia.
        -- destruct k as [|k]; cbn [nth_error] in Ey.
           ++ assert (y = x) by congruence. subst y. exact Lv.
           ++ apply (Hf k y); [lia|exact Ey|lia].
    + destruct (IH (S i) best d) as (v & Hv & Hd & Hl & Hf). exists v. split; [|split; [|split]].
      * destruct Hv as [[E ->]|(k & E & N & Lv)]; [auto|]. right. exists (S k).
        split; [lia|auto].
      * exact Hd.
      * intros y [<-|I]; [apply (Qle_trans _ d); assumption|auto].
      * intros k y Lt Ey D. destruct k as [|k]; cbn [nth_error] in Ey.
        -- assert (y = x) by congruence. subst y.
           destruct Hv as [[E _]|(k' & E & N & Lv)]; [contradiction|].
           apply (Qlt_le_trans _ d); assumption.
        -- apply (Hf k y); [lia|exact Ey|exact D].
Qed.
Lemma argmin_spec : forall l, l <> [] ->
  exists v, nth_error l (argmin l) = Some v /\ (forall x, In x l -> (v <= x)%Q) /\
    forall k x, k < argmin l -> nth_error l k = Some x -> (v < x)%Q.
Proof.
  intros [|x l] N; [congruence|]. unfold argmin.
  destruct (argmin_from_spec l 1 0 x) as (v & Hv & Hd & Hl & Hf). exists v.
  split; [|split].
  - destruct Hv as [[E ->]|(k & E & Nk & _)]; rewrite E; [reflexivity|exact Nk].
  - intros y [<-|I]; auto.
  - intros k y Lt Ey. destruct Hv as [[E ->]|(k' & E & Nk & Lv)]; [lia|].
    destruct k as [|k]; cbn [nth_error] in Ey.
    + assert (y = x) by congruence. subst y. exact Lv.
    + apply (Hf k y); [lia|exact Ey|lia].
Qed.
Lemma interpolate_resampled : forall x xt row, x <> [] -> List.length row = List.length x ->
  resampled x xt row (interpolate_profile x xt row).
Proof.
  intros x xt row Nx El. split; [apply map_length|].
  intros j t Ej. unfold interpolate_profile. rewrite nth_error_map', Ej. cbn [option_map].
  assert (Hlo : forallb (fun a => if Qlt_le_dec t a then true else false) x = true <->
                forall a, In a x -> (t < a)%Q).
  { rewrite forallb_forall. split; intros H a I; specialize (H a I);
      destruct (Qlt_le_dec t a) as [L|L]; auto; try discriminate.
    exfalso. apply (Qlt_irrefl t). apply (Qlt_le_trans _ a); assumption. }
  assert (Hhi : forallb (fun a => if Qlt_le_dec a t then true else false) x = true <->
                forall a, In a x -> (a < t)%Q).
  { rewrite forallb_forall. split; intros H a I; specialize (H a I);
      destruct (Qlt_le_dec a t) as [L|L]; auto; try discriminate.
    exfalso. apply (Qlt_irrefl t). apply (Qle_lt_trans _ a); assumption. }
  split.
  - intros H. assert (O : out_of_bounds x t = true).
    { unfold out_of_bounds. apply orb_true_iff. rewrite Hlo, Hhi. exact H. }
    rewrite O. reflexivity.
  - intros (a & b & Ia & Ib & La & Lb).
    assert (O : out_of_bounds x t = false).
    { destruct (out_of_bounds x t) eqn:O; [|reflexivity]. exfalso.
      unfold out_of_bounds in O. apply orb_true_iff in O. rewrite Hlo, Hhi in O.
      destruct O as [O|O].
      - apply (Qlt_irrefl t), (Qlt_le_trans _ a); auto.
      - apply (Qlt_irrefl t), (Qle_lt_trans _ b); auto. }
    rewrite O. unfold nearest.
    destruct (argmin_spec (map (fun c => qabs_diff c t) x)) as (v & Ev & Hmin & Hfirst).
    { destruct x; [congruence|discriminate]. }
    set (i := argmin (map (fun c => qabs_diff c t) x)) in *.
    rewrite nth_error_map' in Ev. destruct (nth_error x i) as [c|] eqn:Ec; [|discriminate].
    cbn [option_map] in Ev. assert (v = qabs_diff c t) by congruence. subst v.
    exists i, c. split; [exact Ec|]. split; [|split].
    + pose proof (nth_error_Some_lt _ _ _ Ec) as Li. symmetry. apply nth_error_nth'. lia.
    + intros d Id. apply (Hmin (qabs_diff d t)). apply (in_map (fun c => qabs_diff c t)), Id.
    + intros i' d Li Ed. apply (Hfirst i' (qabs_diff d t)); [exact Li|].
      rewrite nth_error_map', Ed. reflexivity.
Qed.

(** ** Appending one file *)
Definition rd (n : nat) (l : list (option (list (masked Q)))) : list (option (list (masked Q))) :=
  l ++ repeat None (n - List.length l).
Lemma rd_length : forall n l, List.length l <= n -> List.length (rd n l) = n.
Proof. intros n l H. unfold rd. rewrite app_length, repeat_length. lia. Qed.
Lemma rd_grow : forall n m l, List.length l <= n -> n <= m -> rd m l = rd n l ++ repeat None (m - n).
Proof.
  intros n m l H1 H2. unfold rd. rewrite <- app_assoc, <- repeat_app. do 2 f_equal. lia.
Qed.
Lemma write_rows_end : forall ind0 rows old, List.length old <= ind0 ->
  write_rows ind0 rows old = rd ind0 old ++ map Some rows.
Proof.
  intros ind0 rows old H. unfold write_rows, rd. rewrite firstn_all2 by exact H.
  rewrite skipn_all2 by lia. rewrite app_nil_r, app_assoc. reflexivity.
Qed.
Lemma forall_none_repeat : forall A n, Forall (eq None) (repeat (@None A) n).
Proof. intros A n. apply Forall_forall. intros x I. apply repeat_spec in I. congruence. Qed.

Lemma appended_rows_spec : forall fr x f key v rows,
  file_ok f -> cf_range f = Some x -> lookup key (cf_vars f) = Some v ->
  appended_rows fr x v (n_time f) = Ok rows ->
  List.length rows = n_time f /\ contributes fr f (n_time f) key (map Some rows).
Proof.
  intros fr x f key v rows Hf Hx Hv H. destruct (expand_own f key v Hf Hv) as [Ho El].
  unfold appended_rows in H. set (own := expand_array v (n_time f)) in *.
  assert (Hr : on_range v = true <-> lies_on_range v).
  { destruct v as [[|] ?|[|] ?]; simpl; split; auto; try discriminate; contradiction. }
  destruct (on_range v && negb (List.length fr =? List.length x)) eqn:C.
  - apply andb_true_iff in C. destruct C as [C1 C2]. apply negb_true_iff, Nat.eqb_neq in C2.
    assert (Nx : x <> []) by (intros ->; discriminate).
    assert (E : rows = map (interpolate_profile x fr) own) by (destruct x; congruence).
    subst rows. split; [rewrite map_length; exact El|].
    split; [rewrite !map_length; exact El|]. right.
    exists v, x, own, (map (interpolate_profile x fr) own).
    split; [apply lookup_some_in, Hv|]. split; [exact Hx|]. split; [exact Ho|].
    split; [reflexivity|]. split.
    + intros [N|N]; [apply Hr in C1; contradiction|lia].
    + intros _ _. clear -Nx. induction own as [|row own IH]; constructor; [|exact IH].
      intros L. apply interpolate_resampled; assumption.
  - assert (rows = own) by congruence. subst rows. split; [exact El|].
    split; [rewrite map_length; exact El|]. right. exists v, x, own, own.
    split; [apply lookup_some_in, Hv|]. split; [exact Hx|]. split; [exact Ho|].
    split; [reflexivity|]. split; [reflexivity|].
    intros Lr N. exfalso. apply Hr in Lr. rewrite Lr in C. cbn [andb] in C.
    apply negb_false_iff, Nat.eqb_eq in C. lia.
Qed.

Definition step_rel (fr : list Q) (f : cfile) (ind0 size' : nat) (ok : bool)
  (kv kv' : string * list (option (list (masked Q)))) : Prop :=
  fst kv' = fst kv /\ List.length (snd kv') <= size' /\
  exists block, rd size' (snd kv') = rd ind0 (snd kv) ++ block /\
    List.length block = size' - ind0 /\
    (ok = true -> size' = ind0 + n_time f -> contributes fr f (n_time f) (fst kv) block).

Lemma append_vars_spec : forall fr x f ind0, file_ok f -> cf_range f = Some x ->
  forall vars size ok size' vars',
  append_vars fr x f ind0 size vars = Ok (ok, size', vars') ->
  Forall (fun kv => List.length (snd kv) <= ind0) vars ->
  size = ind0 \/ size = ind0 + n_time f ->
  (size' = ind0 \/ size' = ind0 + n_time f) /\ size <= size' /\
  (ok = true <-> readable (map fst vars) f) /\
  (ok = true -> (exists k, In k (map fst vars) /\ In k (map fst (cf_vars f))) ->
     size' = ind0 + n_time f) /\
  Forall2 (step_rel fr f ind0 size' ok) vars vars'.
Proof.
  intros fr x f ind0 Hf Hx. induction vars as [|[key old] vars IH];
    intros size ok size' vars' H Hl Hs; cbn [append_vars] in H.
  - assert (ok = true /\ size' = size /\ vars' = []) as (-> & -> & ->).
    { split; [congruence|split; congruence]. }
    split; [exact Hs|]. split; [lia|]. split; [|split].
    + split; [intros _ k []|reflexivity].
    + intros _ [k [[] _]].
    + constructor.
  - apply Forall_cons_iff in Hl. destruct Hl as [Hk Hl]. cbn [snd] in Hk.
    destruct (lookup key (cf_vars f)) as [v|] eqn:Lk.
    + assert (Ik : In key (map fst (cf_vars f))) by (apply (lookup_key_in _ _ _ _ Lk)).
      destruct (mem_string key (cf_broken f)) eqn:Br.
      * assert (ok = false /\ size' = size /\ vars' = (key, old) :: vars) as (-> & -> & ->).
        { split; [congruence|split; congruence]. }
        split; [exact Hs|]. split; [lia|]. split; [|split].
        -- split; [discriminate|]. intros R. exfalso. apply mem_string_iff in Br.
           apply (R key); [left; reflexivity|exact Ik|exact Br].
        -- discriminate.
        -- assert (G : forall kv, List.length (snd kv) <= ind0 -> step_rel fr f ind0 size false kv kv).
           { intros kv L. split; [reflexivity|]. split; [lia|].
             exists (repeat None (size - ind0)). split; [apply rd_grow; lia|].
             split; [apply repeat_length|discriminate]. }
           constructor; [apply G; exact Hk|].
           clear -Hl G. induction vars as [|kv vars IH]; constructor;
             apply Forall_cons_iff in Hl; [apply G|apply IH]; apply Hl.
      * destruct (appended_rows fr x v (n_time f)) as [rows|e] eqn:Ar; [|discriminate].
        cbn [bind] in H.
        destruct (appended_rows_spec fr x f key v rows Hf Hx Lk Ar) as [El Hc].
        destruct (append_vars fr x f ind0 (Nat.max size (ind0 + List.length rows)) vars)
          as [[[ok1 s1] vs1]|e] eqn:Av; [|discriminate].
        cbn [bind fst snd] in H.
        assert (ok = ok1 /\ size' = s1 /\ vars' = (key, write_rows ind0 rows old) :: vs1)
          as (-> & -> & ->).
        { split; [congruence|split; congruence]. }
        destruct (IH _ _ _ _ Av Hl) as (A1 & A2 & A3 & A4 & A5).
        { right. rewrite El. destruct Hs as [-> | ->]; lia. }
        assert (Es : s1 = ind0 + n_time f) by (rewrite El in A2; destruct A1; lia).
        split; [auto|]. split; [lia|]. split; [|split].
        -- rewrite A3. split.
           ++ intros R k [<-|I] Ip; [|apply R; assumption].
              intros Ib. apply mem_string_iff in Ib. cbn [fst] in Ib. congruence.
           ++ intros R k I. apply R. right. exact I.
        -- intros _ _. exact Es.
        -- constructor; [|exact A5]. split; [reflexivity|]. cbn [snd fst].
           rewrite write_rows_end by exact Hk.
           assert (Ln : List.length (rd ind0 old ++ map Some rows) = s1).
           { rewrite app_length, rd_length, map_length by exact Hk. lia. }
           split; [lia|]. exists (map Some rows). split; [|split].
           ++ unfold rd at 1. rewrite Ln, Nat.sub_diag. apply app_nil_r.
           ++ rewrite map_length. lia.
           ++ intros _ _. exact Hc.
    + destruct (append_vars fr x f ind0 size vars) as [[[ok1 s1] vs1]|e] eqn:Av; [|discriminate].
      cbn [bind fst snd] in H.
      assert (ok = ok1 /\ size' = s1 /\ vars' = (key, old) :: vs1) as (-> & -> & ->).
      { split; [congruence|split; congruence]. }
      destruct (IH _ _ _ _ Av Hl Hs) as (A1 & A2 & A3 & A4 & A5).
      apply lookup_none in Lk.
      split; [exact A1|]. split; [exact A2|]. split; [|split].
      * rewrite A3. split.
        -- intros R k [<-|I] Ip; [contradiction|apply R; assumption].
        -- intros R k I. apply R. right. exact I.
      * intros Eo [k [[<-|I] Ip]]; [contradiction|]. apply A4; [exact Eo|]. exists k. auto.
      * constructor; [|exact A5]. split; [reflexivity|]. cbn [snd fst].
        split; [destruct Hs; lia|]. exists (repeat None (s1 - ind0)).
        split; [apply rd_grow; [exact Hk|destruct Hs; lia]|]. split; [apply repeat_length|].
        intros _ E. split; [rewrite repeat_length; lia|]. left. split; [exact Lk|].
        apply forall_none_repeat.
Qed.

Lemma step_rel_keys : forall fr f i s ok vars vars',
  Forall2 (step_rel fr f i s ok) vars vars' -> map fst vars' = map fst vars.
Proof.
  intros fr f i s ok vars vars' H. induction H as [|a b l m [E _] H IH]; [reflexivity|].
  simpl. rewrite E, IH. reflexivity.
Qed.
Lemma step_rel_lookup : forall fr f i s ok vars vars' key old,
  Forall2 (step_rel fr f i s ok) vars vars' -> lookup key vars = Some old ->
  exists new, lookup key vars' = Some new /\ step_rel fr f i s ok (key, old) (key, new).
Proof.
  intros fr f i s ok vars vars' key old H. induction H as [|[k a] [k' b] l m R H IH];
    cbn [lookup]; [discriminate|].
  intros L. destruct R as [E R]. cbn [fst] in E. subst k'.
  destruct (String.eqb_spec key k) as [->|N].
  - exists b. split; [reflexivity|]. assert (a = old) by congruence. subst a.
    split; [reflexivity|exact R].
  - apply IH, L.
Qed.

(** One file's block in one variable. *)
Definition block_rel (fr : list Q) (keys : list string) (key : string)
  (fs : cfile * nat) (b : list (option (list (masked Q)))) : Prop :=
  List.length b = snd fs /\
  (readable keys (fst fs) -> contributes fr (fst fs) (snd fs) key b).

Lemma append_files_spec : forall fr files out lst out',
  append_files fr files out = Ok (lst, out') -> Forall file_ok files ->
  Forall (fun kv => List.length (snd kv) <= co_n out) (co_vars out) ->
  let keys := map fst (co_vars out) in
  map fst (co_vars out') = keys /\
  Forall (fun kv => List.length (snd kv) <= co_n out') (co_vars out') /\
  exists sizes flags,
    Forall2 (fun f s => (s = 0 \/ steps f s) /\ (readable keys f -> steps f s)) files sizes /\
    Forall2 (fun f b => b = true <-> readable keys f) files flags /\
    lst = map fst (filter snd (combine files flags)) /\
    co_n out' = co_n out + list_sum sizes /\
    forall key old, lookup key (co_vars out) = Some old ->
      exists new blocks, lookup key (co_vars out') = Some new /\
        rd (co_n out') new = rd (co_n out) old ++ List.concat blocks /\
        Forall2 (block_rel fr keys key) (combine files sizes) blocks.
Proof.
  intros fr files. induction files as [|f files IH]; intros out lst out' H Hf Hl keys.
  - cbn [append_files] in H. assert (lst = [] /\ out' = out) as [-> ->] by (split; congruence).
    split; [reflexivity|]. split; [exact Hl|]. exists [], [].
    split; [constructor|]. split; [constructor|]. split; [reflexivity|]. split; [simpl; lia|].
    intros key old L. exists old, []. split; [exact L|]. split; [rewrite app_nil_r; reflexivity|constructor].
  - apply Forall_cons_iff in Hf. destruct Hf as [Ff Hf]. cbn [append_files] in H.
    destruct (append_data fr f out) as [[ok out1]|e] eqn:Ad; [|discriminate].
    cbn [bind fst snd] in H.
    destruct (append_files fr files out1) as [[lst1 out2]|e] eqn:Af; [|discriminate].
    cbn [bind fst snd] in H.
    assert (lst = (if ok then f :: lst1 else lst1) /\ out' = out2) as [-> ->] by (split; congruence).
    clear H. unfold append_data in Ad.
    destruct (lookup "time" (co_vars out)) as [ot|] eqn:Lo; [|discriminate].
    destruct (lookup "time" (cf_vars f)) as [ft|] eqn:Lf; [|discriminate].
    destruct (cf_range f) as [x|] eqn:Rx; [|discriminate].
    destruct (append_vars fr x f (co_n out) (co_n out) (co_vars out)) as [[[ok1 s1] vs1]|e] eqn:Av;
      [|discriminate].
    cbn [bind fst snd] in Ad.
    assert (ok = ok1 /\ out1 = {| co_n := s1; co_vars := vs1 |}) as [-> ->] by (split; congruence).
    clear Ad.
    destruct (append_vars_spec fr x f (co_n out) Ff Rx _ _ _ _ _ Av Hl (or_introl eq_refl))
      as (A1 & A2 & A3 & A4 & A5).
    assert (Ks : map fst vs1 = keys) by (apply (step_rel_keys _ _ _ _ _ _ _ A5)).
    assert (Hl1 : Forall (fun kv => List.length (snd kv) <= s1) vs1).
    { clear -A5. induction A5 as [|a b l m R A5 IH]; constructor; [apply R|exact IH]. }
    destruct (IH _ _ _ Af Hf) as (B1 & B2 & sizes & flags & B3 & B4 & B5 & B6 & B7); [exact Hl1|].
    cbn [co_n co_vars] in *. rewrite Ks in *.
    split; [exact B1|]. split; [exact B2|].
    assert (St : steps f (n_time f)) by (destruct (file_time f Ff) as (? & ? & _ & _ & S); exact S).
    assert (Hs : ok1 = true -> s1 = co_n out + n_time f).
    { intros E. apply A4; [exact E|]. exists "time"%string.
      split; apply lookup_key_in with (1 := Lo) || apply lookup_key_in with (1 := Lf). }
    exists ((s1 - co_n out) :: sizes), (ok1 :: flags).
    split; [|split; [|split; [|split]]].
    + constructor; [|exact B3]. split.
      * destruct A1 as [-> | ->]; [left; lia|right].
        replace (co_n out + n_time f - co_n out) with (n_time f) by lia. exact St.
      * intros R. apply A3 in R. rewrite (Hs R).
        replace (co_n out + n_time f - co_n out) with (n_time f) by lia. exact St.
    + constructor; [exact A3|exact B4].
    + cbn [combine filter snd]. destruct ok1; cbn [map fst]; rewrite B5; reflexivity.
    + rewrite B6. simpl. destruct A1; lia.
    + intros key old L. destruct (step_rel_lookup _ _ _ _ _ _ _ _ _ A5 L) as (mid & Lm & R).
      destruct (B7 key mid Lm) as (new & blocks & Ln & En & Hb).
      destruct R as (_ & _ & block & Eb & Lb & Cb). cbn [snd fst] in *.
      exists new, (block :: blocks). split; [exact Ln|]. split.
      * rewrite En, Eb. cbn [List.concat]. rewrite <- app_assoc. reflexivity.
      * cbn [combine]. constructor; [|exact Hb]. split; [exact Lb|]. cbn [fst snd].
        intros Rd. apply A3 in Rd. rewrite (Hs Rd).
        replace (co_n out + n_time f - co_n out) with (n_time f) by lia.
        apply Cb; [exact Rd|apply Hs, Rd].
Qed.

(** ** The whole concatenation *)
Lemma kept_selected : forall keep ignore key v,
  kept keep ignore key v = true <-> selected keep ignore key v.
Proof.
  intros keep ignore key v. unfold kept, selected.
  rewrite andb_true_iff, !negb_true_iff.
  assert (A : mem_opt key ignore = false <-> forall l, ignore = Some l -> ~ In key l).
  { unfold mem_opt. destruct ignore as [l|].
    - rewrite <- not_true_iff_false, mem_string_iff. split; [|auto].
      intros H l' E. congruence.
    - split; [discriminate|reflexivity]. }
  assert (B : match keep with Some l => negb (mem_string key l) | None => false end
               && negb (String.eqb key "time") && has_time v = false <->
    forall l, keep = Some l -> In key l \/ key = "time"%string \/ exists b row, v = Static b row).
  { destruct keep as [l|]; [|split; [discriminate|reflexivity]].
    destruct (mem_string key l) eqn:M.
    - split; [|reflexivity]. intros _ l' E. left. apply mem_string_iff. congruence.
    - assert (N : ~ In key l) by (rewrite <- mem_string_iff, M; discriminate).
      destruct (String.eqb_spec key "time") as [->|D]; cbn [negb andb].
      + split; [|reflexivity]. auto.
      + destruct v as [b r|b r]; cbn [has_time].
        * split; [discriminate|]. intros H. destruct (H l eq_refl) as [I|[E|(b' & r' & E)]];
            [contradiction|contradiction|discriminate].
        * split; [|reflexivity]. intros _ l' _. right. right. eauto. }
  rewrite A, B. reflexivity.
Qed.
Lemma initial_vars_spec : forall broken n keep ignore vars d,
  NoDup (map fst vars) -> initial_vars broken n keep ignore vars = Ok d ->
  (forall k, In k (map fst d) -> In k (map fst vars)) /\
  (forall k, In k (map fst d) <-> exists v, In (k, v) vars /\ selected keep ignore k v) /\
  (forall k, In k (map fst d) -> ~ In k broken) /\
  (forall k v, In (k, v) vars -> selected keep ignore k v ->
     lookup k d = Some (map Some (expand_array v n))).
Proof.
  intros broken n keep ignore vars. induction vars as [|[key v] vars IH]; intros d N H.
  - cbn in H. assert (d = []) by congruence. subst. simpl.
    split; [tauto|]. split; [split; [intros []|intros [v [[] _]]]|]. split; [intros k []|intros k v []].
  - inversion N as [|? ? N1 N2]; subst. cbn [initial_vars] in H.
    destruct (kept keep ignore key v) eqn:K.
    + apply kept_selected in K.
      destruct (mem_string key broken) eqn:B; [discriminate|].
      destruct (initial_vars broken n keep ignore vars) as [d'|e] eqn:I; [|discriminate].
      cbn [bind] in H.
      assert (d = (key, map Some (expand_array v n)) :: d') by congruence. subst d.
      destruct (IH d' N2 eq_refl) as (A1 & A2 & A3 & A4). split; [|split; [|split]].
      * intros k [<-|J]; [left; reflexivity|right; auto].
      * intros k. simpl. rewrite A2. split.
        -- intros [<-|(w & J & S)]; [exists v; auto|exists w; auto].
        -- intros (w & [E|J] & S); [left; congruence|]. right. exists w. auto.
      * intros k [<-|J]; [|auto]. simpl. rewrite <- mem_string_iff, B. discriminate.
      * intros k w [E|J] S; cbn [lookup].
        -- injection E as <- <-. rewrite String.eqb_refl. reflexivity.
        -- destruct (String.eqb_spec k key) as [->|D]; [|auto].
           exfalso. apply N1. apply (in_map fst) in J. exact J.
    + assert (K' : ~ selected keep ignore key v) by (rewrite <- kept_selected, K; discriminate).
      destruct (IH d N2 H) as (A1 & A2 & A3 & A4). split; [|split; [|split]].
      * intros k J. right. auto.
      * intros k. rewrite A2. split.
        -- intros (w & J & S). exists w. split; [right; exact J|exact S].
        -- intros (w & [E|J] & S); [|eauto]. exfalso. apply K'. congruence.
      * exact A3.
      * intros k w [E|J] S; [|auto]. exfalso. apply K'. congruence.
Qed.

Lemma filter_combine_map : forall A (p : A -> bool) l, 
  map fst (filter snd (combine l (map p l))) = filter p l.
Proof.
  intros A p l. induction l as [|x l IH]; [reflexivity|]. cbn [map combine filter snd].
  destruct (p x); cbn [map fst]; rewrite IH; reflexivity.
Qed.
Lemma valid_flag : forall f, file_ok f -> (exists b, is_valid_file f = Ok b) ->
  (match is_valid_file f with Ok b => b | Raise _ => false end) = true <-> takes_part f.
Proof.
  intros f Hf [b Hb]. pose proof (valid_files_spec [f]) as S.
  cbn [valid_files] in S. rewrite Hb in *. cbn [bind] in S.
  destruct (S _ eq_refl (Forall_cons _ Hf (Forall_nil _))) as [_ Hin]. specialize (Hin f).
  destruct b; simpl in Hin; split; intros H; try congruence; try tauto.
Qed.
Lemma valid_files_all : forall files valid, valid_files files = Ok valid ->
  forall f, In f files -> exists b, is_valid_file f = Ok b.
Proof.
  induction files as [|g files IH]; intros valid H f I; [destruct I|].
  cbn [valid_files] in H. destruct (is_valid_file g) as [b|e] eqn:V; [|discriminate].
  cbn [bind] in H. destruct (valid_files files) as [r|e] eqn:R; [|discriminate].
  destruct I as [<-|I]; [eauto|]. apply (IH r eq_refl f I).
Qed.

Theorem concat_spec : forall files keep ignore lst out,
  Forall file_ok files -> concatenate_files files keep ignore = Ok (lst, out) ->
  exists first rest xt keys sizes flags,
    let order := first :: rest in
    in_name_order files order /\ cf_range first = Some xt /\
    (forall k, In k keys <-> exists v, In (k, v) (cf_vars first) /\ selected keep ignore k v) /\
    Forall2 (fun f b => b = true <-> readable keys f) order flags /\ readable keys first /\
    lst = map fst (filter snd (combine order flags)) /\
    Forall2 (fun f s => (s = 0 \/ steps f s) /\ (readable keys f -> keys <> [] -> steps f s)) order sizes /\
    co_n out = list_sum sizes /\
    (forall k, ~ In k keys -> read_var out k = None) /\
    forall k, In k keys -> exists blocks,
      read_var out k = Some (List.concat blocks) /\
      Forall2 (block_rel xt keys k) (combine order sizes) blocks.
Proof.
  intros files keep ignore lst out Hf H. unfold concatenate_files in H.
  destruct (valid_files files) as [valid|e] eqn:V; [|discriminate]. cbn [bind] in H.
  destruct (valid_files_spec files valid V Hf) as [Ev Hin].
  pose proof (sort_files_perm valid) as Pm. pose proof (sort_files_sorted valid) as Ss.
  pose proof (sort_files_stable valid) as St.
  destruct (sort_files valid) as [|first rest] eqn:So; [discriminate|].
  assert (Hall : Forall file_ok (first :: rest)).
  { rewrite Forall_forall in *. intros g I. apply (Permutation_in _ Pm) in I.
    apply Hin in I. apply Hf, I. }
  assert (Hnm : in_name_order files (first :: rest)).
  { exists (map (fun f => match is_valid_file f with Ok b => b | Raise _ => false end) files).
    split; [|rewrite filter_combine_map, <- Ev; split; [exact Pm|split; [exact Ss|exact St]]].
    pose proof (valid_files_all files valid V) as Va. clear -Hf Va.
    induction files as [|f files IH]; constructor.
    - apply valid_flag; [apply Forall_inv in Hf; exact Hf|apply Va; left; reflexivity].
    - apply IH; [apply Forall_inv_tail in Hf; exact Hf|]. intros g I. apply Va. right. exact I. }
  pose proof (Forall_inv Hall) as Hfirst. pose proof (Forall_inv_tail Hall) as Hrest.
  unfold write_initial_data in H.
  destruct (initial_vars (cf_broken first) (n_time first) keep ignore (cf_vars first)) as [d|e] eqn:I;
    [|discriminate].
  cbn [bind] in H. destruct (cf_range first) as [xt|] eqn:Rx; [|discriminate].
  destruct (append_files xt rest _) as [[lst1 out1]|e] eqn:A in H; [|discriminate].
  cbn [bind fst snd] in H.
  assert (lst = first :: lst1 /\ out = out1) as [-> ->] by (split; congruence). clear H.
  destruct (initial_vars_spec _ _ _ _ _ _ (proj1 Hfirst) I) as (I1 & I2 & I3 & I4).
  assert (Hd : d <> [] -> co_n {| co_n := match d with [] => 0 | _ => n_time first end; co_vars := d |} = n_time first).
  { destruct d; [congruence|reflexivity]. }
  assert (Hrow : forall k rows, lookup k d = Some rows -> exists v, lookup k (cf_vars first) = Some v /\
            rows = map Some (expand_array v (n_time first)) /\ List.length rows = n_time first).
  { intros k rows L. assert (Ik : In k (map fst d)) by (apply (lookup_key_in _ _ _ _ L)).
    apply I2 in Ik. destruct Ik as (v & J & S). pose proof (I4 k v J S) as L'.
    exists v. assert (Lv : lookup k (cf_vars first) = Some v) by (apply in_lookup; [apply Hfirst|exact J]).
    split; [exact Lv|]. split; [congruence|].
    assert (rows = map Some (expand_array v (n_time first))) by congruence. subst rows.
    rewrite map_length. apply (expand_own first k v Hfirst Lv). }
  set (out0 := {| co_n := match d with [] => 0 | _ => n_time first end; co_vars := d |}) in *.
  assert (Hl0 : Forall (fun kv => List.length (snd kv) <= co_n out0) (co_vars out0)).
  { unfold out0. cbn [co_vars]. apply Forall_forall. intros [k rows] J. cbn [snd].
    assert (Nd : NoDup (map fst d)).
    { clear -I Hfirst. revert d I. destruct Hfirst as [N _]. revert N.
      generalize (n_time first) as n, (cf_vars first) as vars. intros n vars.
      induction vars as [|[key v] vars IH]; intros N d I.
      - cbn in I. assert (d = []) by congruence. subst. constructor.
      - inversion N as [|? ? N1 N2]; subst. cbn [initial_vars] in I.
        destruct (kept keep ignore key v); [|apply IH; assumption].
        destruct (mem_string key (cf_broken first)); [discriminate|].
        destruct (initial_vars (cf_broken first) n keep ignore vars) as [d'|e] eqn:E; [|discriminate].
        cbn [bind] in I. assert (d = (key, map Some (expand_array v n)) :: d') by congruence. subst d.
        simpl. constructor; [|apply IH; auto].
        destruct (initial_vars_spec _ _ _ _ _ _ N2 E) as (Z1 & _). intros J. apply N1, Z1, J. }
    destruct (Hrow k rows (in_lookup _ _ _ _ Nd J)) as (v & _ & _ & L).
    unfold out0 in Hd. rewrite Hd by (intros ->; destruct J). lia. }
  destruct (append_files_spec _ _ _ _ _ A Hrest Hl0) as (B1 & B2 & sizes & flags & B3 & B4 & B5 & B6 & B7).
  change (co_vars out0) with d in *.
  assert (Rf : readable (map fst d) first).
  { intros k J _. apply I3, J. }
  exists first, rest, xt, (map fst d), (co_n out0 :: sizes), (true :: flags). cbv zeta.
  split; [exact Hnm|]. split; [exact Rx|]. split; [exact I2|].
  split; [constructor; [split; auto|exact B4]|]. split; [exact Rf|].
  split; [cbn [combine filter snd map fst]; rewrite <- B5; reflexivity|].
  split.
  { constructor.
    - destruct (file_time first Hfirst) as (? & ? & _ & _ & S). unfold out0. cbn [co_n].
      destruct d as [|kv d']; [split; [auto|cbn; congruence]|]. split; auto.
    - clear -B3. induction B3 as [|f s l m [P1 P2] B3 IH]; constructor; [|exact IH]. split; auto. }
  split; [rewrite B6; reflexivity|]. split.
  { intros k Nk. unfold read_var. rewrite <- B1 in Nk. apply lookup_none in Nk. rewrite Nk. reflexivity. }
  intros k Ik. apply I2 in Ik. destruct Ik as (v & J & S).
  pose proof (I4 k v J S) as L0. destruct (B7 k _ L0) as (new & blocks & Ln & En & Hb).
  assert (Dn : d <> []) by (intros ->; discriminate).
  exists (map Some (expand_array v (n_time first)) :: blocks). split.
  - unfold read_var. rewrite Ln. cbn [option_map]. f_equal. change (rd (co_n out1) new = List.concat (map Some (expand_array v (n_time first)) :: blocks)).
    rewrite En. cbn [List.concat]. f_equal. destruct (Hrow k _ L0) as (v' & _ & _ & L).
    unfold rd. rewrite L, (Hd Dn), Nat.sub_diag. apply app_nil_r.
  - assert (Lv : lookup k (cf_vars first) = Some v) by (apply in_lookup; [apply Hfirst|exact J]).
    destruct (expand_own first k v Hfirst Lv) as [Ho El].
    cbn [combine]. constructor; [|exact Hb]. split; cbn [fst snd]; rewrite (Hd Dn).
    + rewrite map_length. exact El.
    + intros _. split; [rewrite map_length; exact El|]. right.
      exists v, xt, (expand_array v (n_time first)), (expand_array v (n_time first)).
      split; [exact J|]. split; [exact Rx|]. split; [exact Ho|]. split; [reflexivity|].
      split; [reflexivity|]. intros _ N. congruence.
Qed.

(** ** All files readable *)
Lemma concat_rows : forall files keep ignore lst out,
  Forall file_ok files -> Forall (fun f => cf_broken f = []) files ->
  (forall l, ignore = Some l -> ~ In "time"%string l) ->
  concatenate_files files keep ignore = Ok (lst, out) ->
  exists first rest xt sizes,
    lst = first :: rest /\ in_name_order files lst /\ cf_range first = Some xt /\
    Forall2 steps lst sizes /\ co_n out = list_sum sizes /\
    (forall k, (exists v, In (k, v) (cf_vars first) /\ selected keep ignore k v) ->
       exists blocks, read_var out k = Some (List.concat blocks) /\
         Forall2 (fun fs b => contributes xt (fst fs) (snd fs) k b) (combine lst sizes) blocks) /\
    (forall k, ~ (exists v, In (k, v) (cf_vars first) /\ selected keep ignore k v) ->
       read_var out k = None).
Proof.
  intros files keep ignore lst out Hf Hb Hi H.
  destruct (concat_spec _ _ _ _ _ Hf H) as
    (first & rest & xt & keys & sizes & flags & Ho & Hx & Hk & Hfl & _ & Hl & Hs & Hn & Hno & Hrow).
  assert (Hin : forall f, In f (first :: rest) -> In f files).
  { intros f I. destruct Ho as (part & _ & P & _). apply (Permutation_in _ P) in I.
    apply in_map_iff in I. destruct I as ([g b] & <- & I). apply filter_In in I.
    apply in_combine_l with (1 := proj1 I). }
  assert (Hr : forall f, In f (first :: rest) -> readable keys f).
  { intros f I k _ _. rewrite Forall_forall in Hb. rewrite (Hb f (Hin f I)). intros []. }
  assert (El : lst = first :: rest).
  { rewrite Hl. clear -Hfl Hr. revert flags Hfl Hr. generalize (first :: rest) as l.
    induction l as [|f l IH]; intros flags Hfl Hr; inversion Hfl as [|? b ? m P Q]; subst; [reflexivity|].
    assert (b = true) by (apply P, Hr; left; reflexivity). subst b.
    cbn [combine filter snd map fst]. f_equal. apply IH; [exact Q|]. intros g I. apply Hr. right. exact I. }
  assert (Kn : keys <> []).
  { assert (T : In "time"%string keys).
    { apply Hk. assert (Ff : file_ok first).
      { rewrite Forall_forall in Hf. apply Hf, Hin. left. reflexivity. }
      destruct Ff as [_ (r & stamps & I & _)]. exists (Series r stamps). split; [exact I|].
      split; [auto|exact Hi]. }
    intros E. rewrite E in T. destruct T. }
  exists first, rest, xt, sizes. split; [exact El|]. split; [rewrite El; exact Ho|].
  split; [exact Hx|]. rewrite El. split; [|split; [exact Hn|split]].
  - clear -Hs Hr Kn. revert sizes Hs Hr. generalize (first :: rest) as l.
    induction l as [|f l IH]; intros sizes Hs Hr; inversion Hs as [|? s ? m P Q]; subst; constructor.
    + apply P; [apply Hr; left; reflexivity|exact Kn].
    + apply IH; [exact Q|]. intros g I. apply Hr. right. exact I.
  - intros k Sk. apply Hk in Sk. destruct (Hrow k Sk) as (blocks & R & F). exists blocks.
    split; [exact R|]. clear -F Hr. revert sizes blocks F Hr. generalize (first :: rest) as l.
    induction l as [|f l IH]; intros [|s sizes] blocks F Hr; cbn [combine] in *;
      inversion F as [|? b ? m P Q]; subst; try constructor.
    + apply P. apply Hr. left. reflexivity.
    + apply IH; [exact Q|]. intros g I. apply Hr. right. exact I.
  - intros k N. apply Hno. rewrite Hk. exact N.
Qed.

(** ** Success and failure *)
Lemma valid_files_total : forall files, Forall file_ok files ->
  (forall f, In f files -> cf_range f <> None) -> exists v, valid_files files = Ok v.
Proof.
  induction files as [|f files IH]; intros Hf Hr; [eexists; reflexivity|].
  apply Forall_cons_iff in Hf. destruct Hf as [Ff Hf]. cbn [valid_files].
  assert (V : exists b, is_valid_file f = Ok b).
  { unfold is_valid_file. destruct (file_time f Ff) as (r & stamps & L & _). rewrite L.
    specialize (Hr f (or_introl eq_refl)). destruct (cf_range f); [|congruence].
    destruct (0 <? _); eauto. }
  destruct V as [b ->]. cbn [bind]. destruct IH as [v ->]; [exact Hf|intros; apply Hr; right; assumption|].
  cbn [bind]. eauto.
Qed.
Lemma initial_vars_total : forall n keep ignore vars,
  exists d, initial_vars [] n keep ignore vars = Ok d.
Proof.
  intros n keep ignore vars. induction vars as [|[k v] vars [d IH]]; [eexists; reflexivity|].
  cbn [initial_vars]. destruct (kept keep ignore k v); [|eauto].
  cbn [mem_string existsb]. rewrite IH. cbn [bind]. eauto.
Qed.
Lemma append_vars_total : forall fr x f ind0 vars size, x <> [] ->
  exists r, append_vars fr x f ind0 size vars = Ok r.
Proof.
  intros fr x f ind0 vars. induction vars as [|[k old] vars IH]; intros size N; [eexists; reflexivity|].
  cbn [append_vars]. destruct (lookup k (cf_vars f)) as [v|].
  - destruct (mem_string k (cf_broken f)); [eauto|].
    assert (A : exists rows, appended_rows fr x v (n_time f) = Ok rows).
    { unfold appended_rows. destruct (on_range v && _); [|eauto]. destruct x; [congruence|eauto]. }
    destruct A as [rows ->]. cbn [bind].
    destruct (IH (Nat.max size (ind0 + List.length rows)) N) as [r ->]. cbn [bind]. eauto.
  - destruct (IH size N) as [r ->]. cbn [bind]. eauto.
Qed.
Lemma append_files_total : forall fr files out,
  Forall file_ok files -> (forall f, In f files -> exists x, cf_range f = Some x /\ x <> []) ->
  Forall (fun kv => List.length (snd kv) <= co_n out) (co_vars out) ->
  In "time"%string (map fst (co_vars out)) ->
  exists r, append_files fr files out = Ok r.
Proof.
  intros fr files. induction files as [|f files IH]; intros out Hf Hr Hl It; [eexists; reflexivity|].
  apply Forall_cons_iff in Hf. destruct Hf as [Ff Hf]. cbn [append_files].
  destruct (Hr f (or_introl eq_refl)) as (x & Rx & Nx).
  destruct (append_vars_total fr x f (co_n out) (co_vars out) (co_n out) Nx) as [[[ok s] vs] Av].
  destruct (append_vars_spec fr x f (co_n out) Ff Rx _ _ _ _ _ Av Hl (or_introl eq_refl))
    as (A1 & A2 & A3 & A4 & A5).
  assert (E : append_data fr f out = Ok (ok, {| co_n := s; co_vars := vs |})).
  { unfold append_data. destruct (lookup "time" (co_vars out)) as [ot|] eqn:Lo;
      [|apply lookup_none in Lo; contradiction].
    destruct (file_time f Ff) as (r & stamps & Lf & _). rewrite Lf, Rx, Av. reflexivity. }
  rewrite E. cbn [bind fst snd].
  destruct (IH {| co_n := s; co_vars := vs |}) as [r ->].
  - exact Hf.
  - intros g I. apply Hr. right. exact I.
  - cbn [co_n co_vars]. clear -A5. induction A5 as [|a b l m R A5 IH]; constructor; [apply R|exact IH].
  - cbn [co_vars]. rewrite (step_rel_keys _ _ _ _ _ _ _ A5). exact It.
  - cbn [bind]. eauto.
Qed.
Lemma concat_total : forall files keep ignore,
  Forall file_ok files ->
  (forall f, In f files -> exists x, cf_range f = Some x /\ x <> []) ->
  Forall (fun f => cf_broken f = []) files ->
  (forall l, ignore = Some l -> ~ In "time"%string l) ->
  (exists f, In f files /\ takes_part f) ->
  exists r, concatenate_files files keep ignore = Ok r.
Proof.
  intros files keep ignore Hf Hr Hb Hi (f0 & I0 & T0).
  destruct (valid_files_total files Hf) as [valid V].
  { intros f I. destruct (Hr f I) as (x & E & _). congruence. }
  unfold concatenate_files. rewrite V. cbn [bind].
  destruct (valid_files_spec files valid V Hf) as [_ Hin].
  pose proof (sort_files_perm valid) as Pm.
  destruct (sort_files valid) as [|first rest] eqn:So.
  { exfalso. apply Permutation_nil in Pm. subst valid. apply (proj2 (Hin f0)). auto. }
  assert (Hord : forall g, In g (first :: rest) -> In g files).
  { intros g I. apply (Permutation_in _ Pm) in I. apply Hin in I. apply I. }
  assert (Ff : file_ok first) by (rewrite Forall_forall in Hf; apply Hf, Hord; left; reflexivity).
  unfold write_initial_data.
  assert (Bf : cf_broken first = []) by (rewrite Forall_forall in Hb; apply Hb, Hord; left; reflexivity).
  rewrite Bf. destruct (initial_vars_total (n_time first) keep ignore (cf_vars first)) as [d I].
  rewrite I. cbn [bind].
  destruct (Hr first (Hord _ (or_introl eq_refl))) as (x & Rx & Nx). rewrite Rx.
  destruct (initial_vars_spec _ _ _ _ _ _ (proj1 Ff) I) as (I1 & I2 & I3 & I4).
  assert (It : In "time"%string (map fst d)).
  { apply I2. destruct Ff as [_ (r & stamps & J & _)]. exists (Series r stamps).
    split; [exact J|]. split; [auto|exact Hi]. }
  destruct (append_files_total x rest {| co_n := match d with [] => 0 | _ => n_time first end; co_vars := d |})
    as [s ->].
  - rewrite Forall_forall in *. intros g J. apply Hf, Hord. right. exact J.
  - intros g J. apply Hr, Hord. right. exact J.
  - cbn [co_n co_vars]. clear I1 I2 I3 I4 It.
    assert (Z : forall k rows, In (k, rows) d -> List.length rows = n_time first).
    { pose proof (fun k v => expand_own first k v Ff) as Ex.
      assert (Ex' : forall k v, In (k, v) (cf_vars first) -> List.length (expand_array v (n_time first)) = n_time first).
      { intros k v J. apply (Ex k v). apply in_lookup; [apply Ff|exact J]. }
      clear -I Ex'. revert d I Ex'. generalize (cf_vars first) as vars.
      induction vars as [|[k v] vars IH]; intros d I Ex'.
      - cbn in I. assert (d = []) by congruence. subst. intros ? ? [].
      - cbn [initial_vars] in I. destruct (kept keep ignore k v).
        + cbn [mem_string existsb] in I.
          destruct (initial_vars [] (n_time first) keep ignore vars) as [d'|e] eqn:E; [|discriminate].
          cbn [bind] in I. assert (d = (k, map Some (expand_array v (n_time first))) :: d') by congruence.
          subst d. intros k' rows [J|J].
          * injection J as <- <-. rewrite map_length. apply (Ex' k v). left. reflexivity.
          * apply (IH d' eq_refl) with (k := k'); [intros; apply (Ex' k0 v0); right; assumption|exact J].
        + apply IH; [exact I|]. intros k' v' J. apply (Ex' k' v'). right. exact J. }
    apply Forall_forall. intros [k rows] J. cbn [snd]. destruct d; [destruct J|].
    rewrite (Z k rows J). lia.
  - exact It.
  - cbn [bind]. eauto.
Qed.
Lemma concat_none_valid : forall files keep ignore,
  Forall file_ok files -> (forall f, In f files -> cf_range f <> None) ->
  (forall f, In f files -> ~ takes_part f) ->
  concatenate_files files keep ignore = Raise ValidTimeStampError.
Proof.
  intros files keep ignore Hf Hr Hn. destruct (valid_files_total files Hf Hr) as [valid V].
  unfold concatenate_files. rewrite V. cbn [bind].
  destruct (valid_files_spec files valid V Hf) as [_ Hin].
  assert (E : valid = []).
  { destruct valid as [|f l]; [reflexivity|]. exfalso.
    destruct (proj1 (Hin f) (or_introl eq_refl)) as [I T]. apply (Hn f I T). }
  subst. reflexivity.
Qed.
Lemma concat_missing_range : forall files keep ignore f,
  Forall file_ok files -> In f files -> (exists n, steps f n /\ 0 < n) -> cf_range f = None ->
  concatenate_files files keep ignore = Raise IndexError.
Proof.
  intros files keep ignore f Hf I (n & Sn & Pn) Rf.
  assert (V : valid_files files = Raise IndexError).
  { revert Hf I. induction files as [|g files IH]; intros Hf I; [destruct I|].
    apply Forall_cons_iff in Hf. destruct Hf as [Fg Hf]. cbn [valid_files].
    destruct (file_time g Fg) as (r & stamps & L & El & _).
    destruct I as [->|I].
    - unfold is_valid_file. rewrite L. simpl. apply (steps_n f n Fg) in Sn.
      destruct (Nat.ltb_spec 0 (List.length stamps)); [|lia]. rewrite Rf. reflexivity.
    - unfold is_valid_file. rewrite L. simpl.
      destruct (0 <? List.length stamps).
      + destruct (cf_range g); [|reflexivity]. cbn [bind]. rewrite IH by assumption. reflexivity.
      + cbn [bind]. rewrite IH by assumption. reflexivity. }
  unfold concatenate_files. rewrite V. reflexivity.
Qed.

(** ** Appending *)
Lemma newer_last : forall old t, old <> [] -> newer old t <-> (List.last old 0%Q < t)%Q.
Proof.
  intros old t N. destruct (exists_last N) as [b [l E]]. subst old. rewrite last_last. split.
  - intros (b' & l' & E & L). apply app_inj_tail in E. destruct E as [_ <-]. exact L.
  - intros L. exists b, l. auto.
Qed.
Lemma later_from_in : forall l i t k, In k (later_from i t l) <->
  exists j x, k = i + j /\ nth_error l j = Some x /\ (t < x)%Q.
Proof.
  induction l as [|y l IH]; intros i t k; cbn [later_from].
  - split; [intros []|]. intros (j & x & _ & E & _). destruct j; discriminate.
  - assert (T : (exists j x, k = S i + j /\ nth_error l j = Some x /\ (t < x)%Q) <->
                (exists j x, k = i + S j /\ nth_error (y :: l) (S j) = Some x /\ (t < x)%Q)).
    { split; intros (j & x & E & R); exists j, x; (split; [lia|exact R]). }
    destruct (Qlt_le_dec t y) as [L|L]; simpl In; rewrite IH, T; split.
    + intros [<-|(j & x & R)]; [exists 0, y; split; [lia|auto]|]. exists (S j), x. exact R.
    + intros ([|j] & x & E & R); [left; lia|]. right. exists j, x. auto.
    + intros (j & x & R). exists (S j), x. exact R.
    + intros ([|j] & x & E & R1 & R2).
      * exfalso. cbn in R1. assert (x = y) by congruence. subst.
        apply (Qlt_irrefl t), (Qlt_le_trans _ y); assumption.
      * exists j, x. auto.
Qed.
(** Reading with positions that were never written as [None]. *)
Definition at_ {A} (l : list (option A)) (i : nat) : option A :=
  match nth_error l i with Some (Some x) => Some x | _ => None end.
Lemma set_at_length : forall A (x : A) i l, List.length (set_at l i x) = Nat.max (List.length l) (S i).
Proof.
  intros A x i. induction i as [|i IH]; intros [|a l]; simpl; try reflexivity; try lia.
  - rewrite IH. simpl. lia.
  - rewrite IH. lia.
Qed.
Lemma set_at_at : forall A (x : A) i l j,
  at_ (set_at l i x) j = if j =? i then Some x else at_ l j.
Proof.
  intros A x i. unfold at_. induction i as [|i IH]; intros [|a l] [|j]; simpl; try reflexivity.
  - destruct j; reflexivity.
  - rewrite IH. destruct (j =? i); [reflexivity|]. destruct j; reflexivity.
  - apply IH.
Qed.
Lemma scatter_spec : forall A (data : list A) ind0 valid old,
  (forall k, In k valid -> k < List.length data) ->
  List.length (scatter ind0 valid data old) =
    fold_right (fun k m => Nat.max (S (ind0 + k)) m) (List.length old) valid /\
  forall j, at_ (scatter ind0 valid data old) j =
    if existsb (fun k => j =? ind0 + k) valid then nth_error data (j - ind0) else at_ old j.
Proof.
  intros A data ind0 valid. induction valid as [|k valid IH]; intros old Hk; cbn [scatter].
  - split; reflexivity.
  - destruct (nth_error_lt_Some data k (Hk k (or_introl eq_refl))) as [x Ex]. rewrite Ex.
    destruct (IH (set_at old (ind0 + k) x)) as [L R]; [intros; apply Hk; right; assumption|].
    split.
    + rewrite L, set_at_length. cbn [fold_right].
      clear. induction valid as [|k' v IH]; cbn [fold_right]; lia.
    + intros j. rewrite R, set_at_at. cbn [existsb].
      destruct (existsb (fun k' => j =? ind0 + k') valid) eqn:E; [rewrite orb_true_r; reflexivity|].
      rewrite orb_false_r. destruct (Nat.eqb_spec j (ind0 + k)) as [->|D]; [|reflexivity].
      replace (ind0 + k - ind0) with k by lia. symmetry. exact Ex.
Qed.
Lemma at_map_some : forall A (l : list A) i, at_ (map Some l) i = nth_error l i.
Proof.
  intros A l i. unfold at_. rewrite nth_error_map'. destruct (nth_error l i); reflexivity.
Qed.
Lemma nth_at : forall A (l : list (option A)) i, i < List.length l -> nth_error l i = Some (at_ l i).
Proof.
  intros A l i H. unfold at_. destruct (nth_error_lt_Some l i H) as [[x|] ->]; reflexivity.
Qed.

(** Number of profiles added. *)
Definition added (valid : list nat) : nat := fold_right (fun k m => Nat.max (S k) m) 0 valid.
Lemma added_fold : forall ind0 valid, valid <> [] ->
  fold_right (fun k m => Nat.max (S (ind0 + k)) m) ind0 valid = ind0 + added valid.
Proof.
  intros ind0 valid _. unfold added. induction valid as [|k v IH]; cbn [fold_right]; [lia|]. rewrite IH. lia.
Qed.
Lemma added_max : forall valid k, In k valid -> k < added valid.
Proof.
  unfold added. induction valid as [|k' v IH]; intros k I; [destruct I|]. cbn [fold_right].
  destruct I as [<-|I]; [lia|]. specialize (IH k I). lia.
Qed.
Lemma added_last : forall valid, valid <> [] -> exists k, In k valid /\ added valid = S k.
Proof.
  induction valid as [|k v IH]; intros N; [congruence|].
  change (added (k :: v)) with (Nat.max (S k) (added v)).
  destruct v as [|k' v]; [exists k; split; [left; reflexivity|unfold added; cbn [fold_right]; lia]|].
  destruct IH as (j & I & E); [discriminate|]. destruct (le_lt_dec (S k) (added (k' :: v))).
  - exists j. split; [right; exact I|lia].
  - exists k. split; [left; reflexivity|lia].
Qed.
Lemma scatter_split : forall A (data : list A) ind0 valid rows, valid <> [] ->
  (forall k, In k valid -> k < List.length data) -> List.length rows = ind0 ->
  exists tail, scatter ind0 valid data (map Some rows) = map Some rows ++ tail /\
    List.length tail = added valid /\
    forall k, k < added valid ->
      (In k valid -> nth_error tail k = Some (nth_error data k)) /\
      (~ In k valid -> nth_error tail k = Some None).
Proof.
  intros A data ind0 valid rows Nv Hk Hr.
  destruct (scatter_spec A data ind0 valid (map Some rows) Hk) as [L R].
  rewrite map_length, Hr, (added_fold _ _ Nv) in L.
  exists (skipn ind0 (scatter ind0 valid data (map Some rows))).
  set (s := scatter ind0 valid data (map Some rows)) in *. clearbody s.
  assert (F : firstn ind0 s = map Some rows).
  { apply nth_error_ext. intros i. destruct (le_lt_dec ind0 i) as [G|G].
    - rewrite (proj2 (nth_error_None _ _)) by (rewrite firstn_length; lia).
      symmetry. apply nth_error_None. rewrite map_length. lia.
    - transitivity (nth_error s i).
      { clear -G. revert s i G. induction ind0 as [|n IH]; intros s i G; [lia|].
        destruct s as [|a s]; [reflexivity|]. destruct i; [reflexivity|]. simpl. apply IH. lia. }
      rewrite nth_at by lia. rewrite R.
      assert (X : existsb (fun k => i =? ind0 + k) valid = false).
      { destruct (existsb (fun k => i =? ind0 + k) valid) eqn:X; [|reflexivity].
        apply existsb_exists in X. destruct X as (k & _ & E). apply Nat.eqb_eq in E. lia. }
      rewrite X, at_map_some, nth_error_map'.
      destruct (nth_error_lt_Some rows i) as [x ->]; [lia|reflexivity]. }
  split; [rewrite <- F; symmetry; apply firstn_skipn|]. split; [rewrite skipn_length; lia|].
  intros k Lk.
  assert (E : nth_error (skipn ind0 s) k = Some (at_ s (ind0 + k))).
  { rewrite <- nth_at by lia. clear. revert s. induction ind0 as [|n IH]; intros [|a s]; try reflexivity.
    - simpl. destruct k; reflexivity.
    - simpl. apply IH. }
  rewrite E, R. split; intros H.
  - assert (X : existsb (fun k' => ind0 + k =? ind0 + k') valid = true).
    { apply existsb_exists. exists k. split; [exact H|apply Nat.eqb_refl]. }
    rewrite X. do 2 f_equal. lia.
  - assert (X : existsb (fun k' => ind0 + k =? ind0 + k') valid = false).
    { destruct (existsb (fun k' => ind0 + k =? ind0 + k') valid) eqn:X; [|reflexivity].
      apply existsb_exists in X. destruct X as (k' & I & E'). apply Nat.eqb_eq in E'.
      exfalso. apply H. replace k with k' by lia. exact I. }
    rewrite X, at_map_some. f_equal. apply nth_error_None. lia.
Qed.

Lemma update_nc_return : forall o n,
  match update_nc (Some o) (Some n) with
  | Ok (r, u) => uf_time o <> [] /\
      ((r = 1 /\ u <> None /\ exists t, In t (uf_time n) /\ newer (uf_time o) t) \/
       (r = 0 /\ u = None /\ forall t, In t (uf_time n) -> ~ newer (uf_time o) t))
  | Raise e => e = IndexError /\ uf_time o = []
  end.
Proof.
  intros o n. unfold update_nc, valid_time_indices. destruct (uf_time o) as [|t0 ts] eqn:E.
  - cbn [bind]. auto.
  - cbn [bind]. rewrite <- E. assert (N : uf_time o <> []) by congruence.
    set (valid := later_from 0 (List.last (uf_time o) 0%Q) (uf_time n)).
    assert (Hin : forall k, In k valid <-> exists t, nth_error (uf_time n) k = Some t /\ newer (uf_time o) t).
    { intros k. unfold valid. rewrite later_from_in. split.
      - intros (j & t & -> & Et & L). exists t. split; [exact Et|]. apply newer_last; assumption.
      - intros (t & Et & L). exists k, t. split; [reflexivity|]. split; [exact Et|].
        apply newer_last; assumption. }
    destruct valid as [|k valid].
    + split; [exact N|]. right. split; [reflexivity|]. split; [reflexivity|]. intros t I L.
      apply In_nth_error in I. destruct I as [k Ek]. apply (proj2 (Hin k)). eauto.
    + split; [exact N|]. left. split; [reflexivity|]. split; [discriminate|].
      destruct (proj1 (Hin k) (or_introl eq_refl)) as (t & Et & L). exists t.
      split; [apply nth_error_In with (1 := Et)|exact L].
Qed.

Lemma lookup_map : forall A B (f : string -> A -> B) k (d : dict A),
  lookup k (map (fun kv => (fst kv, f (fst kv) (snd kv))) d) = option_map (f k) (lookup k d).
Proof.
  intros A B f k d. induction d as [|[k' v] d IH]; [reflexivity|]. cbn [map fst snd lookup].
  destruct (String.eqb_spec k k') as [->|D]; [reflexivity|exact IH].
Qed.

Lemma update_nc_content : forall o n u,
  aligned o -> aligned n -> update_nc (Some o) (Some n) = Ok (1, Some u) ->
  exists m tail,
    un_time u = map Some (uf_time o) ++ tail /\
    newer_in_place (uf_time o) (uf_time n) (uf_time n) m tail /\
    (forall k, In (k, Other) (uf_vars o) -> lookup k (un_vars u) = Some None) /\
    forall k rows, In (k, Profiles rows) (uf_vars o) \/ In (k, Deep rows) (uf_vars o) ->
      exists tail', lookup k (un_vars u) = Some (Some (map Some rows ++ tail')) /\
        List.length tail' = m /\
        (forall data, In (k, Profiles data) (uf_vars n) ->
           newer_in_place (uf_time o) (uf_time n) data m tail') /\
        ((forall data, ~ In (k, Profiles data) (uf_vars n)) -> Forall (eq None) tail').
Proof.
  intros o n u [No Ho] [Nn Hn] H. unfold update_nc, valid_time_indices in H.
  destruct (uf_time o) as [|t0 ts] eqn:Eo; [discriminate|]. cbn [bind] in H.
  rewrite <- Eo in *. assert (N : uf_time o <> []) by congruence.
  set (valid := later_from 0 (List.last (uf_time o) 0%Q) (uf_time n)) in *.
  assert (Hin : forall k, In k valid <-> exists t, nth_error (uf_time n) k = Some t /\ newer (uf_time o) t).
  { intros k. unfold valid. rewrite later_from_in. split.
    - intros (j & t & -> & Et & L). exists t. split; [exact Et|]. apply newer_last; assumption.
    - intros (t & Et & L). exists k, t. split; [reflexivity|]. split; [exact Et|].
      apply newer_last; assumption. }
  assert (Nv : valid <> []) by (intros E; rewrite E in H; discriminate).
  assert (Eu : u = update_fields o n valid) by (destruct valid; congruence). clear H.
  assert (Place : forall A (data : list A) rows, List.length data = List.length (uf_time n) ->
    List.length rows = List.length (uf_time o) ->
    exists tail, scatter (List.length (uf_time o)) valid data (map Some rows) = map Some rows ++ tail /\
      newer_in_place (uf_time o) (uf_time n) data (added valid) tail).
  { intros A data rows Ld Lr.
    destruct (scatter_split A data (List.length (uf_time o)) valid rows Nv) as (tail & E & L & R).
    - intros k I. apply Hin in I. destruct I as (t & Et & _). rewrite Ld.
      apply (nth_error_Some_lt _ _ _ Et).
    - exact Lr.
    - exists tail. split; [exact E|]. split; [exact L|]. split; [|split].
      + intros k t Lk Et Nw. assert (I : In k valid) by (apply Hin; eauto).
        apply added_max in I. lia.
      + destruct (added_last valid Nv) as (k & I & Ea). apply Hin in I. destruct I as (t & Et & Nw).
        exists k, t. auto.
      + intros k t x Lk Et Ex. destruct (R k Lk) as [R1 R2]. split; intros Nw.
        * rewrite R1; [rewrite Ex; reflexivity|]. apply Hin. eauto.
        * apply R2. intros I. apply Hin in I. destruct I as (t' & Et' & Nw'). apply Nw. congruence. }
  destruct (Place Q (uf_time n) (uf_time o) eq_refl eq_refl) as (tail & Et & Pt).
  exists (added valid), tail. subst u. cbn [update_fields un_time].
  split; [exact Et|]. split; [exact Pt|].
  set (conv := fun (key : string) (v : uvar) =>
        match v with
        | Other => None
        | Profiles rows | Deep rows =>
            Some (pad (List.length (scatter (List.length (uf_time o)) valid (uf_time n) (map Some (uf_time o))))
              (match lookup key (uf_vars n) with
               | Some (Profiles data) => scatter (List.length (uf_time o)) valid data (map Some rows)
               | _ => map Some rows
               end))
        end).
  assert (Ev : un_vars (update_fields o n valid) = map (fun kv => (fst kv, conv (fst kv) (snd kv))) (uf_vars o)).
  { reflexivity. }
  assert (Lt : List.length tail = added valid) by apply Pt.
  split.
  - intros k I. rewrite Ev, lookup_map, (in_lookup _ _ _ _ No I). reflexivity.
  - intros k rows Hk. pose proof (Ho k rows Hk) as Lr.
    assert (L0 : exists v, lookup k (uf_vars o) = Some v /\ (v = Profiles rows \/ v = Deep rows)).
    { destruct Hk as [Hk|Hk]; eexists; (split; [apply (in_lookup _ _ _ _ No Hk)|auto]). }
    destruct L0 as (v & L0 & Dv).
    assert (Cv : conv k v = Some (pad (List.length (uf_time o) + added valid)
              (match lookup k (uf_vars n) with
               | Some (Profiles data) => scatter (List.length (uf_time o)) valid data (map Some rows)
               | _ => map Some rows
               end))).
    { unfold conv. destruct Dv as [-> | ->]; rewrite Et, app_length, map_length, Lt; reflexivity. }
    rewrite Ev, lookup_map, L0. cbn [option_map]. rewrite Cv.
    destruct (lookup k (uf_vars n)) as [[data|data|]|] eqn:Ln.
    1: { apply lookup_some_in in Ln. pose proof (Hn k data (or_introl Ln)) as Ld.
         destruct (Place _ data rows Ld Lr) as (tail' & E' & P'). exists tail'.
         assert (Ll : List.length tail' = added valid) by apply P'.
         split.
         - unfold pad. rewrite E', app_length, map_length, Lr, Ll, Nat.sub_diag, app_nil_r. reflexivity.
         - split; [exact Ll|]. split; [|intros X; destruct (X data Ln)].
           intros data' I'. assert (data' = data).
           { pose proof (in_lookup _ _ _ _ Nn Ln). pose proof (in_lookup _ _ _ _ Nn I'). congruence. }
           subst data'. exact P'. }
    all: exists (repeat None (added valid));
      (split; [unfold pad; rewrite map_length, Lr; do 3 f_equal; f_equal; lia|]);
      (split; [apply repeat_length|]);
      (split; [|intros _; apply forall_none_repeat]);
      intros data' I'; apply (in_lookup _ _ _ _ Nn) in I'; congruence.
Qed.
(** If every profile of the new file is newer, the result is the old file
    followed by the new one. *)
Lemma in_place_all : forall A old stamps (data : list A) m tail,
  newer_in_place old stamps data m tail -> List.length data = List.length stamps ->
  (forall t, In t stamps -> newer old t) -> tail = map Some data.
Proof.
  intros A old stamps data m tail (L & H1 & (k0 & t0 & Em & Et & _) & H2) Ld Hall.
  assert (Lm : m = List.length stamps).
  { pose proof (nth_error_Some_lt _ _ _ Et). destruct (le_lt_dec (List.length stamps) m); [lia|].
    destruct (nth_error_lt_Some stamps m) as [t E]; [lia|].
    exfalso. apply (H1 m t); [lia|exact E|]. apply Hall, (nth_error_In _ _ E). }
  apply nth_error_ext. intros k. rewrite nth_error_map'. destruct (le_lt_dec m k) as [G|G].
  - rewrite (proj2 (nth_error_None tail k)) by lia.
    rewrite (proj2 (nth_error_None data k)) by lia. reflexivity.
  - destruct (nth_error_lt_Some stamps k) as [t E]; [lia|].
    destruct (nth_error_lt_Some data k) as [x Ex]; [lia|]. rewrite Ex. cbn [option_map].
    apply (H2 k t x G E Ex). apply Hall, (nth_error_In _ _ E).
Qed.
