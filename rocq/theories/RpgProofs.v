(** Proofs about the files of RPG cloud radars. *)
From Verif Require Import Base ArrayModel ArrayProofs FillModel FillProofs TimeModel TimeSpec TimeProofs GridModel GridSpec GridProofs
  OutputModel InstrumentModel InstrumentSpec InstrumentProofs DropletModel DropletSpec DropletProofs RadarModel MpProofs SourceProofs NwpProofs RpgModel RpgSpec.
From Verif Require OutputProofs ConcatProofs FreezeProofs.
From Coq Require Import Qabs Qround String Ascii Lqa.
Open Scope string_scope.
Open Scope nat_scope.
Open Scope list_scope.
Local Notation length := List.length (only parsing).
Local Notation dict := OutputModel.dict (only parsing).
Local Notation present := OutputModel.present (only parsing).

(** ** Files *)
Lemma stamps_times f l : stamps f l <-> times_of f = Ok l.
Proof.
  unfold stamps, times_of, key_of. split.
  - intros (e & E & ->). rewrite E. reflexivity.
  - destruct (lookup "time" (f_data f)) as [[e|n rows]|] eqn:E; cbn [bind]; try discriminate.
    intros H. exists e. split; [reflexivity|congruence].
Qed.
Lemma validate_iff epoch day f l : stamps f l ->
  (validate_date epoch day f = Ok tt <-> Forall (on_date epoch day) l) /\
  (~ Forall (on_date epoch day) l -> validate_date epoch day f = Raise ValueError).
Proof.
  intros S. apply stamps_times in S. unfold validate_date. rewrite S. cbn [bind].
  assert (E : forallb (fun t => (day_of epoch t =? day)%Z) l = true <-> Forall (on_date epoch day) l).
  { rewrite forallb_forall, Forall_forall. split; intros H t T; specialize (H t T).
    - apply day_of_iff. apply Z.eqb_eq, H.
    - apply Z.eqb_eq. apply day_of_iff, H. }
  destruct (forallb _ l) eqn:F.
  - split; [split; intros; [apply E|]; reflexivity|]. intros N. exfalso. apply N. apply E. reflexivity.
  - split; [|reflexivity]. split; [discriminate|]. intros X. apply E in X. discriminate.
Qed.
Lemma stamps_fun f l l' : stamps f l -> stamps f l' -> l = l'.
Proof. rewrite !stamps_times. congruence. Qed.

Lemma read_files_spec epoch expected files : readable files ->
  exists used, read_files epoch expected files = Ok used /\ picked (of_day epoch expected) files used.
Proof.
  induction files as [|[name r] files IH]; intros R.
  - exists []. split; [reflexivity|constructor].
  - destruct IH as (used & E & P). { intros n x I. apply (R n x). right. exact I. }
    specialize (R name r (or_introl eq_refl)). cbn [read_files]. destruct r as [f|e]; cbn [bind].
    + destruct R as (l & S). destruct expected as [day|]; cbn [bind].
      * destruct (validate_iff epoch day f l S) as (V & V').
        destruct (validate_date epoch day f) as [[]|e] eqn:Ev; cbn [bind].
        -- rewrite E. cbn [bind]. eexists. split; [reflexivity|]. apply picked_take; [|exact P].
           exists l. split; [exact S|]. apply V. reflexivity.
        -- assert (N : ~ Forall (on_date epoch day) l). { intros X. apply V in X. discriminate. }
           specialize (V' N). assert (e = ValueError) by congruence. subst e.
           exists used. split; [exact E|]. apply picked_skip; [|exact P]. intros g G (l' & S' & F).
           assert (g = f) by congruence. subst g. apply N. rewrite (stamps_fun _ _ _ S S'). exact F.
      * rewrite E. cbn [bind]. eexists. split; [reflexivity|]. apply picked_take; [exact I|exact P].
    + exists used. split; [|apply picked_skip; [discriminate|exact P]].
      destruct R as [->|[->| ->]]; exact E.
Qed.
Lemma picked_fun P files : forall a b, picked P files a -> picked P files b -> a = b.
Proof.
  induction files as [|[n r] files IH]; intros a b A B.
  - inversion A. inversion B. reflexivity.
  - inversion A as [|? f ? ua Pf Ra|? ? ? ua Na Ra]; subst; inversion B as [|? g ? ub Pg Rb|? ? ? ub Nb Rb]; subst.
    + f_equal. apply IH; assumption.
    + exfalso. apply (Nb f); [reflexivity|exact Pf].
    + exfalso. apply (Na g); [reflexivity|exact Pg].
    + apply IH; assumption.
Qed.
Lemma picked_in P files used : picked P files used -> forall n f, In (n, f) used -> In (n, Ok f) files /\ P f.
Proof.
  induction 1 as [|name f rest used Pf _ IH|name r rest used N _ IH]; intros n g I.
  - destruct I.
  - destruct I as [E|I].
    + assert (n = name) by congruence. assert (g = f) by congruence. subst. split; [left; reflexivity|exact Pf].
    + destruct (IH n g I). split; [right|]; assumption.
  - destruct (IH n g I). split; [right|]; assumption.
Qed.

(** ** Dictionaries *)
Lemma hidden_iff k : hidden k = true <-> internal k.
Proof.
  unfold hidden, internal. destruct k as [|c k]; [split; [discriminate|intros (s & E); discriminate]|].
  split.
  - destruct c as [b0 b1 b2 b3 b4 b5 b6 b7]. destruct b0, b1, b2, b3, b4, b5, b6, b7; try discriminate. intros _. exists k. reflexivity.
  - intros (s & E). injection E as -> ->. reflexivity.
Qed.
Lemma hidden_false k : ~ internal k -> hidden k = false.
Proof. intros N. destruct (hidden k) eqn:E; [|reflexivity]. exfalso. apply N, hidden_iff, E. Qed.

Lemma set_key_nodup {A} k (v : A) d : NoDup (map fst d) -> NoDup (map fst (set_key k v d)).
Proof.
  induction d as [|[k' v'] d IH]; cbn [set_key map fst]; intros N; [constructor; [intros []|constructor]|].
  inversion N as [|? ? Nk Nd]; subst. destruct (String.eqb_spec k k') as [->|D]; cbn [map fst].
  - constructor; assumption.
  - constructor; [|apply IH; exact Nd]. intros I. apply Nk. clear - I D.
    induction d as [|[a b] d IH]; cbn [set_key map fst] in I.
    + destruct I as [I|[]]. congruence.
    + destruct (String.eqb_spec k a) as [->|E]; cbn [map fst] in *.
      * destruct I as [I|I]; [congruence|right; exact I].
      * destruct I as [I|I]; [left; exact I|right; apply IH; exact I].
Qed.
Lemma set_key_in {A} k (v : A) d x : In x (map fst (set_key k v d)) <-> x = k \/ In x (map fst d).
Proof.
  rewrite <- (OutputProofs.lookup_in A), OutputProofs.set_key_lookup. destruct (String.eqb_spec x k) as [->|D].
  - split; [auto|discriminate].
  - rewrite OutputProofs.lookup_in. split; [auto|]. intros [E|I]; [contradiction|exact I].
Qed.

(** [l[k]] for a list of dictionaries, joined one after the other. *)
Fixpoint joined {V} (cat : V -> V -> result V) (acc : option V) (l : list (option V)) : result (option V) :=
  match l with
  | [] => Ok acc
  | None :: r => joined cat acc r
  | Some v :: r => match acc with
                   | None => joined cat (Some v) r
                   | Some a => bind (cat a v) (fun w => joined cat (Some w) r)
                   end
  end.
Lemma stack_into_spec {V} (cat : V -> V -> result V) src : NoDup (map fst src) -> forall dst out,
  stack_into cat src dst = Ok out -> NoDup (map fst dst) ->
  NoDup (map fst out) /\
  (forall k, hidden k = false -> joined cat (lookup k dst) [lookup k src] = Ok (lookup k out)) /\
  (forall k, hidden k = true -> lookup k out = lookup k dst).
Proof.
  induction src as [|[k0 v0] src IH]; intros N dst out H Nd; cbn [stack_into] in H.
  - assert (dst = out) by congruence. subst out. split; [exact Nd|]. split; reflexivity.
  - inversion N as [|? ? N0 N']; subst. destruct (hidden k0) eqn:H0.
    + destruct (IH N' dst out H Nd) as (A & B & C). split; [exact A|]. split; [|exact C].
      intros k Hk. rewrite <- (B k Hk). cbn [lookup]. destruct (String.eqb_spec k k0) as [->|]; [congruence|reflexivity].
    + assert (L0 : lookup k0 src = None). { apply ConcatProofs.lookup_none. exact N0. }
      destruct (lookup k0 dst) as [a|] eqn:E0.
      * apply bind_ok in H. destruct H as (w & W & H).
        destruct (IH N' _ out H (set_key_nodup _ _ _ Nd)) as (A & B & C). split; [exact A|]. split.
        -- intros k Hk. specialize (B k Hk). rewrite OutputProofs.set_key_lookup in B. cbn [lookup].
           destruct (String.eqb_spec k k0) as [Ek|D]; [subst k|exact B].
           rewrite L0 in B. cbn [joined] in *. rewrite E0, W. cbn [bind]. exact B.
        -- intros k Hk. rewrite (C k Hk), OutputProofs.set_key_lookup. destruct (String.eqb_spec k k0) as [->|]; [congruence|reflexivity].
      * destruct (IH N' _ out H (set_key_nodup _ _ _ Nd)) as (A & B & C). split; [exact A|]. split.
        -- intros k Hk. specialize (B k Hk). rewrite OutputProofs.set_key_lookup in B. cbn [lookup].
           destruct (String.eqb_spec k k0) as [Ek|D]; [subst k|exact B].
           rewrite L0 in B. cbn [joined] in *. rewrite E0. exact B.
        -- intros k Hk. rewrite (C k Hk), OutputProofs.set_key_lookup. destruct (String.eqb_spec k k0) as [->|]; [congruence|reflexivity].
Qed.
Lemma stack_spec {V} (cat : V -> V -> result V) srcs : Forall (fun d => NoDup (map fst d)) srcs -> forall dst out,
  stack cat srcs dst = Ok out -> NoDup (map fst dst) ->
  NoDup (map fst out) /\
  (forall k, hidden k = false -> joined cat (lookup k dst) (map (lookup k) srcs) = Ok (lookup k out)) /\
  (forall k, hidden k = true -> lookup k out = lookup k dst).
Proof.
  induction 1 as [|s srcs N _ IH]; intros dst out H Nd; cbn [stack] in H.
  - assert (dst = out) by congruence. subst out. split; [exact Nd|]. split; reflexivity.
  - apply bind_ok in H. destruct H as (d1 & H1 & H). destruct (stack_into_spec cat s N dst d1 H1 Nd) as (N1 & B1 & C1).
    destruct (IH d1 out H N1) as (A & B & C). split; [exact A|]. split.
    + intros k Hk. specialize (B1 k Hk). specialize (B k Hk). cbn [map joined] in *.
      destruct (lookup k s) as [v|].
      * destruct (lookup k dst) as [a|]; cbn [bind] in *.
        -- destruct (cat a v) as [w|]; cbn [bind] in *; [|discriminate]. rewrite <- B. f_equal. congruence.
        -- rewrite <- B. f_equal. congruence.
      * rewrite <- B. f_equal. congruence.
    + intros k Hk. rewrite (C k Hk). apply C1, Hk.
Qed.

Lemma joined_d1 : forall ls a, joined cat_data (Some (D1 a)) (map (fun l => Some (D1 l)) ls) = Ok (Some (D1 (a ++ List.concat ls))).
Proof.
  induction ls as [|l ls IH]; intros a; cbn [map joined List.concat cat_data bind]; [rewrite app_nil_r; reflexivity|].
  rewrite IH, <- app_assoc. reflexivity.
Qed.
Lemma joined_d1_all ls : ls <> [] -> joined cat_data None (map (fun l => Some (D1 l)) ls) = Ok (Some (D1 (List.concat ls))).
Proof. destruct ls as [|l ls]; [congruence|]. intros _. cbn [map joined List.concat]. apply joined_d1. Qed.
Lemma joined_d2 n : forall ls a, joined cat_data (Some (D2 n a)) (map (fun l => Some (D2 n l)) ls) = Ok (Some (D2 n (a ++ List.concat ls))).
Proof.
  induction ls as [|l ls IH]; intros a; cbn [map joined List.concat cat_data bind]; [rewrite app_nil_r; reflexivity|].
  rewrite Nat.eqb_refl. cbn [bind]. rewrite IH, <- app_assoc. reflexivity.
Qed.
Lemma joined_d2_all n ls : ls <> [] -> joined cat_data None (map (fun l => Some (D2 n l)) ls) = Ok (Some (D2 n (List.concat ls))).
Proof. destruct ls as [|l ls]; [congruence|]. intros _. cbn [map joined List.concat]. apply joined_d2. Qed.
Lemma cat_header_time a b v : cat_header (PerTime a) (PerTime b) = Ok v -> v = PerTime (a ++ b).
Proof.
  cbn [cat_header]. destruct a as [|u a]; [congruence|]. destruct b as [|w b]; [congruence|].
  destruct (same_size _ _); congruence.
Qed.
Lemma joined_time : forall ls a v, joined cat_header (Some (PerTime a)) (map (fun l => Some (PerTime l)) ls) = Ok v ->
  v = Some (PerTime (a ++ List.concat ls)).
Proof.
  induction ls as [|l ls IH]; intros a v H; cbn [map joined List.concat] in *; [rewrite app_nil_r; congruence|].
  apply bind_ok in H. destruct H as (w & W & H). apply cat_header_time in W. subst w. apply IH in H. rewrite H, <- app_assoc. reflexivity.
Qed.
Lemma joined_time_all ls v : ls <> [] -> joined cat_header None (map (fun l => Some (PerTime l)) ls) = Ok v ->
  v = Some (PerTime (List.concat ls)).
Proof. destruct ls as [|l ls]; [congruence|]. intros _ H. cbn [map joined List.concat] in *. apply joined_time, H. Qed.
Lemma joined_none {V} (cat : V -> V -> result V) : forall l v, joined cat None l = Ok v -> Forall (fun o => o = None) l -> v = None.
Proof. induction l as [|o l IH]; intros v H F; cbn [joined] in H; [congruence|]. inversion F; subst. apply IH; assumption. Qed.
Lemma joined_some {V} (cat : V -> V -> result V) : forall l a v, joined cat a l = Ok v -> (a <> None \/ Exists (fun o => o <> None) l) -> v <> None.
Proof.
  induction l as [|o l IH]; intros a v H E; cbn [joined] in H.
  - destruct E as [E|E]; [congruence|inversion E].
  - destruct o as [x|].
    + destruct a as [a|]; [apply bind_ok in H; destruct H as (w & _ & H)|]; apply (IH _ _ H); left; discriminate.
    + apply (IH _ _ H). destruct E as [E|E]; [left; exact E|]. inversion E as [? ? X|? ? X]; subst; [congruence|right; exact X].
Qed.

(** ** The record *)
Lemma fold_set_lookup {A B} (g : A -> B) : forall l (d0 : dict B) k, NoDup (map fst l) ->
  lookup k (fold_left (fun d kv => set_key (fst kv) (g (snd kv)) d) l d0) =
  match lookup k l with Some v => Some (g v) | None => lookup k d0 end.
Proof.
  induction l as [|[k0 v0] l IH]; intros d0 k N; cbn [fold_left fst snd lookup]; [reflexivity|].
  inversion N as [|? ? N0 N']; subst. rewrite (IH _ _ N'), OutputProofs.set_key_lookup.
  destruct (String.eqb_spec k k0) as [->|D]; [|reflexivity].
  rewrite (proj2 (ConcatProofs.lookup_none _ k0 l) N0). reflexivity.
Qed.
Lemma settle_key kv kv' : settle kv = Ok (Some kv') -> fst kv' = fst kv.
Proof.
  destruct kv as [k v]. unfold settle. destruct (existsb (String.eqb k) constant_keys).
  - intros H. apply bind_ok in H. destruct H as (a & _ & H). destruct (k =? "customer_name")%string; [congruence|].
    assert (kv' = (k, RConst a)) by congruence. subst. reflexivity.
  - intros H. assert (kv' = (k, RHead v)) by congruence. subst. reflexivity.
Qed.
Definition kept {A} (l : list (option A)) : list A := flat_map (fun o => match o with Some x => [x] | None => [] end) l.
Lemma settled_lookup (header : dict xval) k : forall settled, sequence (map settle header) = Ok settled ->
  match lookup k header with
  | None => lookup k (kept settled) = None
  | Some v => match settle (k, v) with
              | Ok (Some kv) => lookup k (kept settled) = Some (snd kv)
              | Ok None => NoDup (map fst header) -> lookup k (kept settled) = None
              | Raise _ => False
              end
  end.
Proof.
  induction header as [|[k0 v0] header IH]; intros settled H.
  - cbn [map sequence] in H. assert (settled = []) by congruence. subst. reflexivity.
  - cbn [map sequence] in H. destruct (settle (k0, v0)) as [o|] eqn:E0; [|discriminate].
    apply bind_ok in H. destruct H as (rest & R & H). assert (settled = o :: rest) by congruence. subst settled. clear H.
    specialize (IH rest R). cbn [lookup]. destruct (String.eqb_spec k k0) as [->|D].
    + rewrite E0. destruct o as [[k1 r1]|].
      * pose proof (settle_key _ _ E0) as Ek. cbn [fst] in Ek. subst k1. cbn [kept flat_map app lookup fst snd].
        rewrite String.eqb_refl. reflexivity.
      * intros N. inversion N as [|? ? N0 _]; subst. rewrite (proj2 (ConcatProofs.lookup_none _ k0 header) N0) in IH. exact IH.
    + assert (S : lookup k (kept (o :: rest)) = lookup k (kept rest)).
      { destruct o as [[k1 r1]|]; [|reflexivity]. pose proof (settle_key _ _ E0) as Ek. cbn [fst] in Ek. subst k1.
        cbn [kept flat_map app lookup fst]. destruct (String.eqb_spec k k0); [contradiction|reflexivity]. }
      destruct (lookup k header) as [v|]; [|rewrite S; exact IH].
      destruct (settle (k, v)) as [[kv|]|]; [rewrite S; exact IH| |exact IH].
      intros N. inversion N; subst. rewrite S. apply IH. assumption.
Qed.
Lemma mask_invalid_lookup k d : lookup k (mask_invalid_data d) =
  option_map (fun v => match v with
                       | D2 n rows => D2 n (map (map mask_entry) rows)
                       | D1 l => if (k =? "air_temperature")%string || (k =? "air_pressure")%string
                                 then D1 (map mask_entry l) else D1 l
                       end) (lookup k d).
Proof.
  unfold mask_invalid_data. rewrite (ConcatProofs.lookup_map _ _ (fun k v => match v with
                       | D2 n rows => D2 n (map (map mask_entry) rows)
                       | D1 l => if (k =? "air_temperature")%string || (k =? "air_pressure")%string
                                 then D1 (map mask_entry l) else D1 l
                       end)). reflexivity.
Qed.
Lemma mask_invalid_names d : map fst (mask_invalid_data d) = map fst d.
Proof. unfold mask_invalid_data. rewrite map_map. reflexivity. Qed.

Definition named (o : rpg_object) : Prop := NoDup (map fst (o_data o)) /\ NoDup (map fst (o_header o)) /\
  forall k, In k (map fst (o_data o)) -> ~ In k (map fst (o_header o)).
(** The record of some objects: data and header of the stacked files. *)
Lemma record_spec objs r : Forall named objs -> one_day_record objs = Ok r ->
  exists data header,
    (forall k, hidden k = false -> joined cat_data None (map (fun o => lookup k (o_data o)) objs) = Ok (lookup k data)) /\
    (forall k, hidden k = false -> joined cat_header None (map (fun o => lookup k (o_header o)) objs) = Ok (lookup k header)) /\
    forall k, hidden k = false ->
      match lookup k data with
      | Some _ => lookup k r = option_map RData (lookup k (mask_invalid_data data))
      | None =>
          match (if (k =? "range")%string then match objs with
                      | o :: _ => match lookup "range" header, lookup "range" (o_header o) with
                                  | Some _, Some r => Some r | h, _ => h end
                      | [] => lookup k header end
                 else lookup k header) with
          | None => lookup k r = None
          | Some v => match settle (k, v) with
                      | Ok (Some kv) => lookup k r = Some (snd kv)
                      | Ok None => lookup k r = None
                      | Raise _ => False
                      end
          end
      end.
Proof.
  intros F H. unfold one_day_record in H. apply bind_ok in H. destruct H as (data & Hd & H).
  apply bind_ok in H. destruct H as (header & Hh & H).
  assert (Fd : Forall (fun d => NoDup (map fst d)) (map o_data objs)).
  { rewrite Forall_map. rewrite Forall_forall in *. intros o I. apply (F o I). }
  assert (Fh : Forall (fun d => NoDup (map fst d)) (map o_header objs)).
  { rewrite Forall_map. rewrite Forall_forall in *. intros o I. apply (F o I). }
  destruct (stack_spec cat_data _ Fd [] data Hd (NoDup_nil _)) as (Nd & Jd & _).
  destruct (stack_spec cat_header _ Fh [] header Hh (NoDup_nil _)) as (Nh & Jh & _).
  exists data, header. split; [intros k Hk; specialize (Jd k Hk); rewrite map_map in Jd; exact Jd|].
  split; [intros k Hk; specialize (Jh k Hk); rewrite map_map in Jh; exact Jh|]. intros k Hk. cbv zeta in H.
  apply bind_ok in H. destruct H as (settled & Hs & H).
  match type of H with Ok ?x = _ => assert (E : r = x) by congruence end. rewrite E. clear E H.
  rewrite fold_set_lookup by (rewrite mask_invalid_names; exact Nd).
  rewrite !mask_invalid_lookup. destruct (lookup k data) as [v|]; cbn [option_map]; [reflexivity|].
  set (header' := match objs with [] => header | o :: _ => match lookup "range" header with
                    | Some _ => match lookup "range" (o_header o) with Some r0 => set_key "range" r0 header | None => header end
                    | None => header end end) in *.
  assert (Nh' : NoDup (map fst header')).
  { unfold header'. destruct objs as [|o ?]; [exact Nh|]. destruct (lookup "range" header); [|exact Nh].
    destruct (lookup "range" (o_header o)); [apply set_key_nodup|]; exact Nh. }
  assert (L : lookup k header' = if (k =? "range")%string then match objs with
                      | o :: _ => match lookup "range" header, lookup "range" (o_header o) with
                                  | Some _, Some r => Some r | h, _ => h end
                      | [] => lookup k header end
                 else lookup k header).
  { unfold header'. destruct objs as [|o ?]; [destruct (k =? "range")%string; reflexivity|].
    destruct (String.eqb_spec k "range") as [->|D].
    - destruct (lookup "range" header) as [h|] eqn:E1; [|exact E1].
      destruct (lookup "range" (o_header o)) as [r0|]; [rewrite OutputProofs.set_key_lookup; reflexivity|exact E1].
    - destruct (lookup "range" header) as [h|]; [|reflexivity].
      destruct (lookup "range" (o_header o)) as [r0|]; [|reflexivity].
      rewrite OutputProofs.set_key_lookup. destruct (String.eqb_spec k "range"); [contradiction|reflexivity]. }
  rewrite <- L. pose proof (settled_lookup header' k settled Hs) as S. fold (@kept (string * rval) settled).
  destruct (lookup k header') as [v|]; [|exact S]. destruct (settle (k, v)) as [[kv|]|]; [exact S|apply S; exact Nh'|exact S].
Qed.

(** ** Heights *)
Lemma range_gates f y : gates f y -> range_of f = Ok y.
Proof.
  unfold gates, range_of, key_of. intros ->. cbn [bind]. f_equal. unfold OutputModel.present.
  induction y as [|a y IH]; [reflexivity|]. cbn [map flat_map app]. rewrite IH. reflexivity.
Qed.
Lemma present_some {A} (y : list A) : present (map Some y) = y.
Proof. unfold OutputModel.present. induction y as [|a y IH]; [reflexivity|]. cbn [map flat_map app]. rewrite IH. reflexivity. Qed.
Lemma array_equal_iff a b : array_equal a b = true <-> Forall2 Qeq a b.
Proof.
  revert b. induction a as [|x a IH]; intros [|y b]; cbn [array_equal].
  - split; [constructor|reflexivity].
  - split; [discriminate|intros H; inversion H].
  - split; [discriminate|intros H; inversion H].
  - rewrite andb_true_iff, IH, Qeq_bool_iff. split.
    + intros (A & B). constructor; assumption.
    + intros H. inversion H; subst. split; assumption.
Qed.
Lemma forall2_qeq_refl a : Forall2 Qeq a a.
Proof. induction a; constructor; [reflexivity|assumption]. Qed.
Lemma forall2_qeq_sym a b : Forall2 Qeq a b -> Forall2 Qeq b a.
Proof. induction 1; constructor; [symmetry|]; assumption. Qed.
Lemma forall2_qeq_trans a b c : Forall2 Qeq a b -> Forall2 Qeq b c -> Forall2 Qeq a c.
Proof.
  intros H. revert c. induction H; intros c G; inversion G; subst; constructor.
  - etransitivity; eassumption.
  - apply IHForall2. assumption.
Qed.
(** Largest gate. *)
Definition top (y : list Q) (t : Q) : Prop := exists r, rev y = t :: r.
Lemma highest_from_spec : forall l best tp out, top best tp -> highest_from best tp l = Ok out ->
  exists t, top out t /\ (tp <= t)%Q /\ (out = best \/ In out l) /\ forall r u, In r l -> top r u -> (u <= t)%Q.
Proof.
  induction l as [|r l IH]; intros best tp out T H; cbn [highest_from] in H.
  - assert (best = out) by congruence. subst out. exists tp. split; [exact T|]. split; [apply Qle_refl|]. split; [left; reflexivity|]. intros r u [].
  - destruct (rev r) as [|t0 r0] eqn:Er; [discriminate|]. destruct (qgt t0 tp) eqn:G.
    + destruct (IH r t0 out (ex_intro _ r0 Er) H) as (t & T1 & L & E & M). exists t. split; [exact T1|].
      apply qgt_iff in G. split; [lra|]. split; [destruct E as [->|E]; right; [left; reflexivity|right; exact E]|].
      intros x u [<-|I] Tx; [|apply (M x u I Tx)]. destruct Tx as (r1 & R1). assert (u = t0) by congruence. subst u. exact L.
    + destruct (IH best tp out T H) as (t & T1 & L & E & M). exists t. split; [exact T1|]. split; [exact L|].
      split; [destruct E as [->|E]; [left; reflexivity|right; right; exact E]|].
      apply qgt_false in G. intros x u [<-|I] Tx; [|apply (M x u I Tx)]. destruct Tx as (r1 & R1). assert (u = t0) by congruence. subst u. lra.
Qed.
Lemma highest_spec l out : highest l = Ok out -> exists t, top out t /\ In out l /\ forall r u, In r l -> top r u -> (u <= t)%Q.
Proof.
  destruct l as [|r l]; cbn [highest]; [discriminate|]. destruct (rev r) as [|t0 r0] eqn:Er; [discriminate|]. intros H.
  destruct (highest_from_spec l r t0 out (ex_intro _ r0 Er) H) as (t & T & L & E & M). exists t. split; [exact T|].
  split; [destruct E as [->|E]; [left; reflexivity|right; exact E]|].
  intros x u [<-|I] Tx; [|apply (M x u I Tx)]. destruct Tx as (r1 & R1). assert (u = t0) by congruence. subst u. exact L.
Qed.
Lemma top_equal a b t u : Forall2 Qeq a b -> top a t -> top b u -> (t == u)%Q.
Proof.
  intros F (ra & A) (rb & B). assert (F' : Forall2 Qeq (rev a) (rev b)).
  { clear - F. induction F as [|x y a b E F IH]; [constructor|]. cbn [rev]. apply Forall2_app; [exact IH|]. constructor; [exact E|constructor]. }
  rewrite A, B in F'. inversion F'; subst. assumption.
Qed.

(** What becomes of one file. *)
Definition interpolated (y target : list Q) (f f' : rpg_file) : Prop :=
  map fst (f_data f') = map fst (f_data f) /\ map fst (f_header f') = map fst (f_header f) /\
  (forall k, match lookup k (f_data f) with
             | Some v => exists v', to_heights y target v = Ok v' /\ lookup k (f_data f') = Some v'
             | None => lookup k (f_data f') = None
             end) /\
  (forall k, k <> "range" -> k <> "chirp_start_indices" -> lookup k (f_header f') = lookup k (f_header f)) /\
  lookup "range" (f_header f') = Some (HVec (map Some target)) /\
  exists s starts starts', lookup "chirp_start_indices" (f_header f) = Some s /\ vector_of s = Ok starts /\
    chirp_starts y target starts = Ok starts' /\
    lookup "chirp_start_indices" (f_header f') = Some (HVec (map Some starts')).
Definition height_step (target : list Q) (f f' : rpg_file) : Prop :=
  exists y, range_of f = Ok y /\
    ((Forall2 Qeq y target /\ f' = f) \/ (~ Forall2 Qeq y target /\ interpolated y target f f')).
Lemma set_key_same_names {A} k (v : A) d : lookup k d <> None -> map fst (set_key k v d) = map fst d.
Proof.
  induction d as [|[k' v'] d IH]; cbn [lookup set_key map fst]; [congruence|].
  destruct (String.eqb_spec k k') as [->|D]; cbn [map fst]; [reflexivity|]. intros N. rewrite (IH N). reflexivity.
Qed.
Lemma common_height_spec target f f' : common_height target f = Ok f' -> height_step target f f'.
Proof.
  unfold common_height. intros H. apply bind_ok in H. destruct H as (y & Y & H). exists y. split; [exact Y|].
  destruct (array_equal y target) eqn:E.
  - left. apply array_equal_iff in E. split; [exact E|congruence].
  - right. split; [intros X; apply array_equal_iff in X; congruence|].
    apply bind_ok in H. destruct H as (data & D & H). apply bind_ok in H. destruct H as (starts & S & H).
    apply bind_ok in S. destruct S as (s & S1 & S2). apply bind_ok in H. destruct H as (starts' & C & H).
    match type of H with Ok ?x = _ => assert (Ef : f' = x) by congruence end. subst f'. clear H. unfold interpolated. cbn [f_data f_header].
    assert (S0 : lookup "chirp_start_indices" (f_header f) = Some s).
    { unfold key_of in S1. destruct (lookup "chirp_start_indices" (f_header f)); congruence. }
    assert (R0 : lookup "range" (f_header f) <> None).
    { unfold range_of, key_of in Y. destruct (lookup "range" (f_header f)); [discriminate|cbn in Y; discriminate]. }
    pose proof (sequence_lookup (fun _ v => to_heights y target v) (f_data f) data D) as L.
    split; [|split; [|split; [|split; [|split]]]].
    + apply sequence_iff in D. clear - D. induction D as [|a b l m R D IH]; [reflexivity|]. cbn [map]. rewrite IH. f_equal.
      apply bind_ok in R. destruct R as (v & _ & R). assert (b = (fst a, v)) by congruence. subst b. reflexivity.
    + rewrite set_key_same_names, set_key_same_names; [reflexivity|congruence|].
      rewrite OutputProofs.set_key_lookup. exact R0.
    + exact L.
    + intros k K1 K2. rewrite !OutputProofs.set_key_lookup. destruct (String.eqb_spec k "range"); [contradiction|].
      destruct (String.eqb_spec k "chirp_start_indices"); [contradiction|reflexivity].
    + rewrite OutputProofs.set_key_lookup. reflexivity.
    + exists s, starts, starts'. split; [exact S0|]. split; [exact S2|]. split; [exact C|].
      rewrite !OutputProofs.set_key_lookup. reflexivity.
Qed.
Lemma to_common_height_spec files files' : to_common_height files = Ok files' ->
  exists target, Forall2 (height_step target) files files' /\
    (exists f y, In f files /\ range_of f = Ok y /\ Forall2 Qeq y target) /\
    (forall f y t u, In f files -> range_of f = Ok y -> top y u -> top target t -> (u <= t)%Q) /\
    (forall f f' r, files = f :: r -> exists y', range_of f = Ok y' /\ (forall r', files' = f' :: r' -> range_of f' = Ok y' \/ range_of f' = Ok target)).
Proof.
  unfold to_common_height. intros H. apply bind_ok in H. destruct H as (ranges & R & H). apply sequence_iff in R.
  destruct ranges as [|r0 rest]; [discriminate|]. destruct (forallb (array_equal r0) rest) eqn:E.
  - assert (files' = files) by congruence. subst files'. exists r0.
    assert (Eq : forall f y, In f files -> range_of f = Ok y -> Forall2 Qeq y r0).
    { intros f y I Y. assert (Iy : In y (r0 :: rest)).
      { clear - R I Y. induction R as [|a b l m A R IH]; [destruct I|]. destruct I as [->|I]; [left; congruence|right; apply IH; exact I]. }
      destruct Iy as [->|Iy]; [apply forall2_qeq_refl|]. rewrite forallb_forall in E. apply forall2_qeq_sym, array_equal_iff, E, Iy. }
    split; [|split; [|split]].
    + assert (G : forall l, (forall f, In f l -> exists y, range_of f = Ok y /\ Forall2 Qeq y r0) -> Forall2 (height_step r0) l l).
      { induction l as [|f l IH]; intros G; [constructor|]. constructor.
        - destruct (G f (or_introl eq_refl)) as (y & Y & F). exists y. split; [exact Y|]. left. split; [exact F|reflexivity].
        - apply IH. intros g I. apply G. right. exact I. }
      apply G. intros f I. assert (X : exists y, range_of f = Ok y).
      { clear - R I. induction R as [|a b l m A R IH]; [destruct I|]. destruct I as [->|I]; [exists b; exact A|apply IH; exact I]. }
      destruct X as (y & Y). exists y. split; [exact Y|]. apply (Eq f y I Y).
    + inversion R as [|f ? l ? A B]; subst. exists f, r0. split; [left; reflexivity|]. split; [exact A|apply forall2_qeq_refl].
    + intros f y t u I Y T U. pose proof (top_equal y r0 u t (Eq f y I Y) T U). lra.
    + intros f f' r ->. inversion R as [|? ? ? ? A B]; subst. exists r0. split; [exact A|]. intros r' X. left. congruence.
  - apply bind_ok in H. destruct H as (target & T & H). apply sequence_iff in H. destruct (highest_spec _ _ T) as (tt & T1 & I & M).
    exists target. split; [|split; [|split]].
    + clear - H. induction H as [|a b l m A B IH]; constructor; [apply common_height_spec; exact A|exact IH].
    + clear - R I. assert (X : exists f, In f files /\ range_of f = Ok target).
      { revert I. induction R as [|a b l m A R IH]; intros I; [destruct I|]. destruct I as [->|I].
        - exists a. split; [left; reflexivity|exact A].
        - destruct (IH I) as (f & F & Y). exists f. split; [right; exact F|exact Y]. }
      destruct X as (f & F & Y). exists f, target. split; [exact F|]. split; [exact Y|apply forall2_qeq_refl].
    + intros f y t u If Y Tu Tt. destruct T1 as (q & Q1). destruct Tt as (q' & Q2). assert (t = tt) by congruence. subst t.
      apply (M y u); [|exact Tu]. clear - R If Y. induction R as [|a b l m A R IH]; [destruct If|].
      destruct If as [->|If]; [left; congruence|right; apply IH; exact If].
    + intros f f' r ->. inversion R as [|? ? ? ? A B]; subst. exists r0. split; [exact A|]. intros r' ->.
      inversion H as [|? ? ? ? C D]; subst. apply common_height_spec in C. destruct C as (y & Y & [(_ & ->)|(_ & P)]).
      * left. exact A.
      * right. apply range_gates. apply P.
Qed.

(** ** Padding *)
Definition pad_step (n_max : nat) (f f' : rpg_file) : Prop :=
  exists n, n_chirps f = Ok n /\ n <= n_max /\
    f_data f' = f_data f /\ map fst (f_header f') = map fst (f_header f) /\
    forall k, lookup k (f_header f') = option_map (fun v => if n =? n_max then v else pad n n_max v) (lookup k (f_header f)).
Lemma fold_max_spec : forall l a, (a <= fold_left Nat.max l a /\ (forall n, In n l -> n <= fold_left Nat.max l a) /\
  (fold_left Nat.max l a = a \/ In (fold_left Nat.max l a) l)).
Proof.
  induction l as [|b l IH]; intros a; cbn [fold_left]; [split; [lia|split; [intros n []|left; reflexivity]]|].
  destruct (IH (Nat.max a b)) as (A & B & C). split; [lia|]. split.
  - intros n [->|I]; [lia|apply B, I].
  - destruct C as [C|C]; [|right; right; exact C]. destruct (Nat.max_spec a b) as [(_ & M)|(_ & M)]; rewrite M in C.
    + right. left. rewrite M. symmetry. exact C.
    + left. rewrite M. exact C.
Qed.
Lemma pad_chirps_spec files files' : pad_chirps files = Ok files' ->
  exists n_max, Forall2 (pad_step n_max) files files' /\ exists f, In f files /\ n_chirps f = Ok n_max.
Proof.
  unfold pad_chirps. intros H. apply bind_ok in H. destruct H as (lens & L & H). apply sequence_iff in L.
  destruct lens as [|n0 rest]; [discriminate|]. destruct (forallb (Nat.eqb n0) rest) eqn:E.
  - assert (files' = files) by congruence. subst files'. exists n0. split.
    + assert (A : Forall (fun n => n = n0) (n0 :: rest)).
      { constructor; [reflexivity|]. rewrite Forall_forall. intros n I. rewrite forallb_forall in E. symmetry. apply Nat.eqb_eq, E, I. }
      clear - L A. induction L as [|f n l m F L IH]; [constructor|]. inversion A; subst. constructor; [|apply IH; assumption].
      exists n0. split; [exact F|]. split; [lia|]. split; [reflexivity|]. split; [reflexivity|]. intros k. rewrite Nat.eqb_refl.
      destruct (lookup k (f_header f)); reflexivity.
    + inversion L as [|f ? ? ? F _]; subst. exists f. split; [left; reflexivity|exact F].
  - set (n_max := fold_left Nat.max rest n0) in *. destruct (fold_max_spec rest n0) as (M0 & M1 & M2). fold n_max in M0, M1, M2.
    exists n_max. split.
    + assert (A : Forall (fun n => n <= n_max) (n0 :: rest)).
      { constructor; [exact M0|]. rewrite Forall_forall. exact M1. }
      match type of H with Ok ?x = _ => assert (Ef : files' = x) by congruence end. subst files'. clear - L A.
      clearbody n_max. induction L as [|f n l m F L IH]; cbn [map2]; [constructor|]. inversion A as [|? ? An Am]; subst. constructor; [|apply IH; exact Am].
      exists n. split; [exact F|]. split; [exact An|]. destruct (n =? n_max) eqn:En.
      * split; [reflexivity|]. split; [reflexivity|]. intros k. destruct (lookup k (f_header f)); reflexivity.
      * cbn [f_data f_header]. split; [reflexivity|]. split; [rewrite map_map; reflexivity|]. intros k.
        rewrite (ConcatProofs.lookup_map _ _ (fun _ v => pad n n_max v)). reflexivity.
    + assert (I : In n_max (n0 :: rest)). { destruct M2 as [->|I]; [left; reflexivity|right; exact I]. }
      clear - L I. induction L as [|f n l m F L IH]; [destruct I|]. destruct I as [->|I].
      * exists f. split; [left; reflexivity|exact F].
      * destruct (IH I) as (g & G & N). exists g. split; [right; exact G|exact N].
Qed.

(** ** From the files to the objects *)
Lemma forall2_trans {A B C} (P : A -> B -> Prop) (Q : B -> C -> Prop) l m n :
  Forall2 P l m -> Forall2 Q m n -> Forall2 (fun x z => exists y, P x y /\ Q y z) l n.
Proof.
  intros F. revert n. induction F as [|x y l m Pxy F IH]; intros n G; inversion G; subst; constructor.
  - exists y. split; assumption.
  - apply IH. assumption.
Qed.
Lemma expand_time_spec f o : expand_time f = Ok o ->
  exists l, stamps f l /\ o_data o = f_data f /\ map fst (o_header o) = map fst (f_header f) /\
    forall k, lookup k (o_header o) = option_map (expand_value (length l) k) (lookup k (f_header f)).
Proof.
  unfold expand_time. intros H. apply bind_ok in H. destruct H as (l & L & H). apply stamps_times in L. exists l. split; [exact L|].
  match type of H with Ok ?x = _ => assert (Ef : o = x) by congruence end. subst o. cbn [o_data o_header]. split; [reflexivity|].
  split; [rewrite map_map; reflexivity|]. intros k. rewrite (ConcatProofs.lookup_map _ _ (expand_value (length l))). reflexivity.
Qed.
(** The whole way of one file. *)
Definition prepared (target : list Q) (n_max : nat) (f : rpg_file) (o : rpg_object) : Prop :=
  exists f1 f2 l, height_step target f f1 /\ pad_step n_max f1 f2 /\ stamps f2 l /\
    o_data o = f_data f2 /\ map fst (o_header o) = map fst (f_header f2) /\
    forall k, lookup k (o_header o) = option_map (expand_value (length l) k) (lookup k (f_header f2)).
Lemma day_record_inv epoch expected files r names : readable files ->
  day_record epoch expected files = Ok (r, names) ->
  exists used target n_max objs, picked (of_day epoch expected) files used /\ used <> [] /\ names = map fst used /\
    Forall2 (prepared target n_max) (map snd used) objs /\ one_day_record objs = Ok r /\
    (exists f y, In f (map snd used) /\ range_of f = Ok y /\ Forall2 Qeq y target) /\
    (forall f y t u, In f (map snd used) -> range_of f = Ok y -> top y u -> top target t -> (u <= t)%Q).
Proof.
  intros R H. unfold day_record in H. destruct (read_files_spec epoch expected files R) as (used & E & P). rewrite E in H. cbn [bind] in H.
  destruct used as [|u0 used0]; [discriminate|]. set (used := u0 :: used0) in *.
  apply bind_ok in H. destruct H as (fs1 & H1 & H). apply bind_ok in H. destruct H as (fs2 & H2 & H).
  apply bind_ok in H. destruct H as (objs & H3 & H). apply bind_ok in H. destruct H as (r' & H4 & H).
  assert (r' = r) by congruence. subst r'. assert (names = map fst used) by congruence. subst names. clear H.
  destruct (to_common_height_spec _ _ H1) as (target & F1 & T1 & T2 & _). destruct (pad_chirps_spec _ _ H2) as (n_max & F2 & _).
  apply sequence_iff in H3. exists used, target, n_max, objs. split; [exact P|]. split; [discriminate|]. split; [reflexivity|].
  split; [|split; [exact H4|split; assumption]].
  assert (F3 : Forall2 (fun f2 o => exists l, stamps f2 l /\ o_data o = f_data f2 /\ map fst (o_header o) = map fst (f_header f2) /\
      forall k, lookup k (o_header o) = option_map (expand_value (length l) k) (lookup k (f_header f2))) fs2 objs).
  { clear - H3. induction H3; constructor; [apply expand_time_spec|]; assumption. }
  pose proof (forall2_trans _ _ _ _ _ F1 (forall2_trans _ _ _ _ _ F2 F3)) as G. clear - G.
  induction G as [|f o l m X G IH]; constructor; [|exact IH].
  destruct X as (f1 & A & f2 & B & ts & C & D). exists f1, f2, ts. split; [exact A|]. split; [exact B|]. split; [exact C|exact D].
Qed.

Lemma prepared_named target n_max f o : prepared target n_max f o -> well_named f -> named o.
Proof.
  intros (f1 & f2 & l & (y & _ & H) & (n & _ & _ & Pd & Pn & _) & _ & Od & On & _) (W1 & W2 & W3).
  assert (Ed : map fst (o_data o) = map fst (f_data f)).
  { rewrite Od, Pd. destruct H as [(_ & ->)|(_ & I)]; [reflexivity|apply I]. }
  assert (Eh : map fst (o_header o) = map fst (f_header f)).
  { rewrite On, Pn. destruct H as [(_ & ->)|(_ & I)]; [reflexivity|apply I]. }
  unfold named. rewrite Ed, Eh. repeat split; assumption.
Qed.
Lemma prepared_series target n_max f o k e : prepared target n_max f o -> series k f e -> lookup k (o_data o) = Some (D1 e).
Proof.
  intros (f1 & f2 & l & (y & _ & H) & (n & _ & _ & Pd & _) & _ & Od & _) S. rewrite Od, Pd.
  destruct H as [(_ & ->)|(_ & I)]; [exact S|]. destruct I as (_ & _ & I & _). specialize (I k). unfold series in S. rewrite S in I.
  destruct I as (v & V & L). cbn [to_heights] in V. congruence.
Qed.
Lemma prepared_stamps target n_max f o ts : prepared target n_max f o -> stamps f ts ->
  exists f1 f2, height_step target f f1 /\ pad_step n_max f1 f2 /\
    forall k, lookup k (o_header o) = option_map (expand_value (length ts) k) (lookup k (f_header f2)).
Proof.
  intros P (e & E & ->). pose proof (prepared_series _ _ _ _ _ _ P E) as S.
  destruct P as (f1 & f2 & l & H & Pd & (e2 & E2 & ->) & Od & _ & L). exists f1, f2. split; [exact H|]. split; [exact Pd|].
  rewrite Od, E2 in S. assert (e2 = e) by congruence. subst e2. exact L.
Qed.
Lemma prepared_scalar target n_max f o ts k v : prepared target n_max f o -> stamps f ts -> plain_value v ->
  k <> "range" -> k <> "chirp_start_indices" -> lookup k (f_header f) = Some v ->
  lookup k (o_header o) = Some (PerTime (repeat v (length ts))).
Proof.
  intros P S V K1 K2 L. destruct (prepared_stamps _ _ _ _ _ P S) as (f1 & f2 & (y & _ & H) & (n & _ & _ & _ & _ & Ph) & E).
  assert (L1 : lookup k (f_header f1) = Some v).
  { destruct H as [(_ & ->)|(_ & I)]; [exact L|]. destruct I as (_ & _ & _ & I & _). rewrite (I k K1 K2). exact L. }
  rewrite E, Ph, L1. cbn [option_map]. destruct v as [s|x|vs]; [| |destruct V]; destruct (n =? n_max); reflexivity.
Qed.
Lemma prepared_no_header target n_max f o k : prepared target n_max f o -> lookup k (f_header f) = None -> lookup k (o_header o) = None.
Proof.
  intros (f1 & f2 & l & (y & _ & H) & (n & _ & _ & _ & Pn & _) & _ & _ & On & _) L. apply ConcatProofs.lookup_none. rewrite On, Pn.
  apply ConcatProofs.lookup_none in L. destruct H as [(_ & ->)|(_ & I)]; [exact L|]. destruct I as (_ & I & _). rewrite I. exact L.
Qed.
Lemma prepared_no_data target n_max f o k : prepared target n_max f o -> lookup k (f_data f) = None -> lookup k (o_data o) = None.
Proof.
  intros (f1 & f2 & l & (y & _ & H) & (n & _ & _ & Pd & _) & _ & Od & _) L. rewrite Od, Pd.
  destruct H as [(_ & ->)|(_ & I)]; [exact L|]. destruct I as (_ & _ & I & _). specialize (I k). rewrite L in I. exact I.
Qed.

Lemma forall2_lookup {A B} (R : A -> B -> Prop) (P : A -> Prop) l m (g : B -> option dval) (h : A -> dval) :
  Forall2 R l m -> Forall P l -> (forall x y, R x y -> P x -> g y = Some (h x)) -> map g m = map (fun x => Some (h x)) l.
Proof.
  intros F. induction F as [|x y l m Rxy F IH]; intros Pl H; [reflexivity|]. inversion Pl; subst. cbn [map].
  rewrite (H x y Rxy) by assumption. rewrite IH by assumption. reflexivity.
Qed.
(** Values of a relation along two lists. *)
Lemma forall2_values {A B C D} (R : A -> B -> Prop) (V : A -> C -> Prop) (g : B -> D) (h : C -> D) :
  forall l m vs, Forall2 R l m -> Forall2 V l vs -> (forall x y v, In x l -> R x y -> V x v -> g y = h v) -> map g m = map h vs.
Proof.
  intros l m vs F. revert vs. induction F as [|x y l m Rxy F IH]; intros vs G H; inversion G; subst; [reflexivity|]. cbn [map].
  rewrite (H x y _ (or_introl eq_refl) Rxy H2). f_equal. apply IH; [assumption|]. intros a b v I. apply H. right. exact I.
Qed.
Lemma forall2_in_left {A B} (R : A -> B -> Prop) l m y : Forall2 R l m -> In y m -> exists x, In x l /\ R x y.
Proof.
  induction 1 as [|a b l m Rab F IH]; intros I; [destruct I|]. destruct I as [->|I].
  - exists a. split; [left; reflexivity|exact Rab].
  - destruct (IH I) as (x & X & Rx). exists x. split; [right|]; assumption.
Qed.
Lemma forall2_in_right {A B} (R : A -> B -> Prop) l m x : Forall2 R l m -> In x l -> exists y, In y m /\ R x y.
Proof.
  induction 1 as [|a b l m Rab F IH]; intros I; [destruct I|]. destruct I as [->|I].
  - exists b. split; [left; reflexivity|exact Rab].
  - destruct (IH I) as (y & Y & Ry). exists y. split; [right|]; assumption.
Qed.
Lemma forall2_nonempty {A B} (R : A -> B -> Prop) l m : Forall2 R l m -> l <> [] -> m <> [].
Proof. destruct 1; congruence. Qed.
Lemma all_named target n_max fs objs : Forall2 (prepared target n_max) fs objs -> Forall well_named fs -> Forall named objs.
Proof.
  intros F W. rewrite Forall_forall in *. intros o I. destruct (forall2_in_left _ _ _ _ F I) as (f & If & P).
  apply (prepared_named _ _ _ _ P). apply W, If.
Qed.

(** ** Missing values *)
Lemma isclose_iff a x v : isclose a x v = true <-> (Qabs (x - v) <= a + (1 # 100000) * Qabs v)%Q.
Proof. unfold isclose. apply Qle_bool_iff. Qed.
Lemma invalid_iff x : invalid x = true <-> missing x.
Proof.
  unfold invalid, missing. cbn [existsb]. rewrite orb_false_r, !orb_true_iff, !isclose_iff, !Qeq_bool_iff.
  assert (A1 : (Qabs (-999) == 999)%Q) by reflexivity. assert (A2 : (Qabs (1 # 10000000000) == 1 # 10000000000)%Q) by reflexivity.
  rewrite A1, A2. assert (E : (Qabs (x - -999) == Qabs (x + 999))%Q). { apply Qabs_wd. ring. } rewrite E. clear A1 A2 E.
  assert (C1 : ((1 # 100000000) + (1 # 100000) * (1 # 10000000000) == (1 # 100000000) + (1 # 1000000000000000))%Q) by reflexivity.
  assert (C2 : ((1 # 100000000) + (1 # 100000) * 999 == (1 # 100000000) + (999 # 100000))%Q) by reflexivity.
  rewrite C1, C2. clear C1 C2. split.
  - intros [Z|[[Z|H]|[Z|H]]].
    + left. setoid_rewrite Z. vm_compute. discriminate.
    + right. rewrite Z. vm_compute. discriminate.
    + right. exact H.
    + left. rewrite Z. vm_compute. discriminate.
    + left. exact H.
  - intros [H|H]; [right; right; right; exact H|right; left; right; exact H].
Qed.
Lemma mask_entry_hides e : hides_if (missing (fst e)) e (mask_entry e).
Proof. split; [reflexivity|]. cbn [snd mask_entry]. unfold mask_entry. cbn [snd]. rewrite orb_true_iff, invalid_iff. reflexivity. Qed.

(** ** Contents of the record *)
Section Record.
Variables (epoch : Z) (expected : option Z) (files : list (string * result rpg_file)).
Variables (r : dict rval) (names : list string) (used : list (string * rpg_file)).
Hypothesis R : readable files.
Hypothesis D : day_record epoch expected files = Ok (r, names).
Hypothesis U : picked (of_day epoch expected) files used.
Hypothesis W : Forall well_named (map snd used).

Lemma record_objects : names = map fst used /\ used <> [] /\ exists target n_max objs,
    Forall2 (prepared target n_max) (map snd used) objs /\ one_day_record objs = Ok r /\ Forall named objs /\
    (exists f y, In f (map snd used) /\ range_of f = Ok y /\ Forall2 Qeq y target) /\
    (forall f y t u, In f (map snd used) -> range_of f = Ok y -> top y u -> top target t -> (u <= t)%Q).
Proof.
  destruct (day_record_inv _ _ _ _ _ R D) as (used' & target & n_max & objs & P & Ne & N & F & O & T1 & T2).
  assert (used' = used) by (apply (picked_fun _ _ _ _ P U)). subst used'. split; [exact N|]. split; [exact Ne|].
  exists target, n_max, objs. split; [exact F|]. split; [exact O|]. split; [apply (all_named _ _ _ _ F W)|]. split; assumption.
Qed.

Lemma record_series k es : ~ internal k -> Forall2 (series k) (map snd used) es ->
  lookup k r = Some (RData (D1 (if (k =? "air_temperature")%string || (k =? "air_pressure")%string
                                then map mask_entry (List.concat es) else List.concat es))).
Proof.
  intros K S. destruct record_objects as (_ & Ne & target & n_max & objs & F & O & Nm & _).
  destruct (record_spec objs r Nm O) as (data & header & Jd & _ & L). specialize (Jd k (hidden_false k K)). specialize (L k (hidden_false k K)).
  assert (E : map (fun o => lookup k (o_data o)) objs = map (fun e => Some (D1 e)) es).
  { apply (forall2_values (prepared target n_max) (series k) _ _ _ _ _ F S). intros f o e _ P Se. apply (prepared_series _ _ _ _ _ _ P Se). }
  rewrite E, joined_d1_all in Jd.
  - assert (Ld : lookup k data = Some (D1 (List.concat es))) by congruence. rewrite Ld in L. rewrite L, mask_invalid_lookup, Ld. cbn [option_map].
    destruct (_ || _)%bool; reflexivity.
  - apply (forall2_nonempty _ _ _ S). destruct used; [congruence|discriminate].
Qed.

Lemma header_values k vs ts : ~ internal k -> k <> "range" -> k <> "chirp_start_indices" ->
  Forall2 (fun f v => lookup k (f_header f) = Some v /\ plain_value v) (map snd used) vs -> Forall2 stamps (map snd used) ts ->
  exists header objs, joined cat_header None (map (fun o => lookup k (o_header o)) objs) = Ok (lookup k header) /\
    lookup k header = Some (PerTime (for_each_profile vs ts)) /\
    match settle (k, PerTime (for_each_profile vs ts)) with
    | Ok (Some kv) => lookup k r = Some (snd kv)
    | Ok None => lookup k r = None
    | Raise _ => False
    end.
Proof.
  intros K K1 K2 V S. destruct record_objects as (_ & Ne & target & n_max & objs & F & O & Nm & _).
  destruct (record_spec objs r Nm O) as (data & header & Jd & Jh & L). specialize (Jd k (hidden_false k K)).
  specialize (Jh k (hidden_false k K)). specialize (L k (hidden_false k K)). exists header, objs. split; [exact Jh|].
  assert (E : exists rows, map (fun o => lookup k (o_header o)) objs = map (fun l => Some (PerTime l)) rows /\
      List.concat rows = for_each_profile vs ts /\ (objs <> [] -> rows <> [])).
  { clear - F V S K1 K2. revert vs ts V S. induction F as [|f o fs objs P F IH]; intros vs ts V S; inversion V; subst; inversion S; subst.
    - exists []. split; [reflexivity|]. split; [reflexivity|congruence].
    - destruct (IH _ _ H3 H5) as (rows & E & C & _). destruct H1 as (Lk & Pv).
      exists (repeat y (length y0) :: rows). cbn [map List.concat for_each_profile]. rewrite E, C.
      rewrite (prepared_scalar _ _ _ _ _ k y P H2 Pv K1 K2 Lk). split; [reflexivity|]. split; [reflexivity|discriminate]. }
  destruct E as (rows & E & C & Nr). rewrite E in Jh. apply joined_time_all in Jh.
  2:{ apply Nr. apply (forall2_nonempty _ _ _ F). destruct used; [congruence|discriminate]. }
  rewrite C in Jh. split; [exact Jh|].
  assert (Ld : lookup k data = None).
  { apply (joined_none _ _ _ Jd). rewrite Forall_map. rewrite Forall_forall. intros o I.
    destruct (forall2_in_left _ _ _ _ F I) as (f & If & P). apply (prepared_no_data _ _ _ _ _ P).
    apply ConcatProofs.lookup_none. intros X. rewrite Forall_forall in W. destruct (W f If) as (_ & _ & W3). apply (W3 k X).
    destruct (forall2_in_right _ _ _ _ V If) as (v & _ & Lv & _). apply (ConcatProofs.lookup_key_in _ _ _ _ Lv). }
  rewrite Ld in L. destruct (String.eqb_spec k "range") as [Er|_]; [contradiction|]. rewrite Jh in L. exact L.
Qed.
End Record.

(** ** Constant values *)
Lemma entries_plain rows : Forall plain_value rows -> flat_map entries rows = rows.
Proof.
  induction 1 as [|v rows V _ IH]; [reflexivity|]. cbn [flat_map]. rewrite IH. destruct v; [reflexivity|reflexivity|destruct V].
Qed.
Lemma same_entry_iff a b : same_entry a b = true <-> same_value a b.
Proof.
  destruct a as [s|x|l], b as [t|y|m]; cbn [same_entry same_value]; try (split; [discriminate|intros []]).
  - apply String.eqb_eq.
  - apply Qeq_bool_iff.
Qed.
Lemma fixed_constant k : In k fixed_names <-> existsb (String.eqb k) constant_keys = true.
Proof.
  rewrite existsb_exists. split.
  - intros I. exists k. split; [|apply String.eqb_refl]. cbn in I |- *. repeat (destruct I as [I|I]; [subst k; tauto|]). destruct I.
  - intros (x & I & E). apply String.eqb_eq in E. subst x. cbn in I |- *. repeat (destruct I as [I|I]; [subst k; tauto|]). destruct I.
Qed.
Lemma profile_values_plain : forall vs ts, Forall plain_value vs -> Forall plain_value (for_each_profile vs ts).
Proof.
  induction vs as [|v vs IH]; intros ts F; [constructor|]. inversion F; subst. destruct ts as [|t ts]; [constructor|]. cbn [for_each_profile].
  apply Forall_app. split; [|apply IH; assumption]. apply Forall_forall. intros x I. apply repeat_spec in I. subst x. assumption.
Qed.
Lemma profile_values_in : forall vs ts i v t, nth_error vs i = Some v -> nth_error ts i = Some t -> t <> [] -> In v (for_each_profile vs ts).
Proof.
  induction vs as [|v0 vs IH]; intros ts i v t V T Ne; [destruct i; discriminate|]. destruct ts as [|t0 ts]; [destruct i; discriminate|].
  cbn [for_each_profile]. apply in_or_app. destruct i as [|i]; cbn in V, T.
  - left. assert (v0 = v) by congruence. assert (t0 = t) by congruence. subst. destruct t; [congruence|]. left. reflexivity.
  - right. apply (IH ts i v t V T Ne).
Qed.
Lemma settle_fixed k vs ts : In k fixed_names -> Forall plain_value vs ->
  match settle (k, PerTime (for_each_profile vs ts)) with
  | Ok o => exists a, (forall i v t, nth_error vs i = Some v -> nth_error ts i = Some t -> t <> [] -> same_value a v) /\
              (k <> "customer_name" -> o = Some (k, RConst a)) /\ (k = "customer_name" -> o = None)
  | Raise _ => True
  end.
Proof.
  intros K P. unfold settle. rewrite (proj1 (fixed_constant k) K). unfold constant. rewrite entries_plain by (apply profile_values_plain; exact P).
  destruct (for_each_profile vs ts) as [|a rest] eqn:E; cbn [bind]; [exact I|]. destruct (forallb (same_entry a) rest) eqn:Fa; cbn [bind]; [|exact I].
  exists a. split.
  - intros i v t V T Ne. pose proof (profile_values_in vs ts i v t V T Ne) as I0. rewrite E in I0. destruct I0 as [<-|I0].
    + assert (Pa : plain_value a). { pose proof (profile_values_plain vs ts P) as X. rewrite E in X. inversion X. assumption. }
      destruct a; cbn in *; [reflexivity|reflexivity|destruct Pa].
    + apply same_entry_iff. rewrite forallb_forall in Fa. apply Fa, I0.
  - split; intros C; destruct (String.eqb_spec k "customer_name"); congruence.
Qed.
Lemma same_value_sym a b : same_value a b -> same_value b a.
Proof. destruct a, b; cbn; try tauto; [congruence|]. intros H. symmetry. exact H. Qed.
Lemma same_value_trans a b c : same_value a b -> same_value b c -> same_value a c.
Proof. destruct a, b, c; cbn; try tauto; [congruence|]. intros H G. rewrite H. exact G. Qed.

(** ** Fields on the common heights *)
Lemma outside_iff y0 y h : (qlt h (list_min y0 y) || qgt h (list_max y0 y))%bool = true <-> outside (y0 :: y) h.
Proof.
  rewrite orb_true_iff, qlt_iff, qgt_iff. destruct (list_min_spec y y0) as (A & B & C). destruct (list_max_spec y y0) as (A' & B' & C').
  unfold outside. split.
  - intros [H|H]; [left|right]; intros x [<-|I].
    + lra.
    + pose proof (B x I). lra.
    + lra.
    + pose proof (B' x I). lra.
  - intros [H|H]; [left|right]; apply H; [destruct C as [->|C]|destruct C' as [->|C']]; (left; reflexivity) || (right; assumption).
Qed.
Lemma nearest_profile_spec y y' row row' : ascending y -> length row = length y -> nearest_profile y y' row = Ok row' ->
  length row' = length y' /\
  forall j h, nth_error y' j = Some h -> exists g e e', is_nearest y h g /\ nth_error row g = Some e /\ nth_error row' j = Some e' /\
    hides_if (outside y h) e e'.
Proof.
  intros A L H. destruct y as [|y0 y]; [destruct y'; discriminate|]. cbn [nearest_profile] in H. apply bind_ok in H. destruct H as (vals & G & H).
  match type of H with Ok ?x = _ => assert (E : row' = x) by congruence end. subst row'. clear H.
  assert (Lv : length vals = length y').
  { pose proof (gather_inv _ _ _ G) as I. destruct (gather_ok _ _ I) as (o & O & Lo & _). assert (o = vals) by congruence. subst o. rewrite Lo. apply map_length. }
  split; [rewrite map2_len; [exact Lv|exact Lv]|]. intros j h J. exists (nearest_gate (y0 :: y) h).
  assert (Ne : is_nearest (y0 :: y) h (nearest_gate (y0 :: y) h)). { apply nearest_gate_nearest; [exact A|discriminate]. }
  pose proof (gather_inv _ _ _ G) as I. destruct (gather_ok _ _ I) as (o & O & Lo & No). assert (o = vals) by congruence. subst o.
  specialize (No j). rewrite nth_error_map', J in No. cbn [option_map] in No.
  destruct Ne as (x & X & Xm). assert (Lt : nearest_gate (y0 :: y) h < length row). { rewrite L. apply nth_error_Some. congruence. }
  destruct (nth_error_lt_Some row _ Lt) as (e & Er). exists e. rewrite Er in No.
  eexists. split; [exists x; split; assumption|]. split; [exact Er|]. split; [rewrite map2_nth, No, J; reflexivity|].
  split; [reflexivity|]. cbn [snd]. rewrite <- outside_iff, (orb_true_iff (snd e)). reflexivity.
Qed.
Lemma is_nearest_self y h g : nth_error y g = Some h -> is_nearest y h g.
Proof.
  intros G. exists h. split; [exact G|]. intros x _. assert (E : (Qabs (h - h) == 0)%Q). { assert (X : (h - h == 0)%Q) by ring. rewrite X. reflexivity. }
  rewrite E. apply Qabs_nonneg.
Qed.
Lemma is_nearest_wd y h h' g : (h == h')%Q -> is_nearest y h g -> is_nearest y h' g.
Proof. intros E (x & X & M). exists x. split; [exact X|]. intros z I. rewrite <- E. apply M, I. Qed.
Lemma is_nearest_equal y y' h g : Forall2 Qeq y y' -> is_nearest y h g -> is_nearest y' h g.
Proof.
  intros F (x & X & M). assert (X' : exists x', nth_error y' g = Some x' /\ (x == x')%Q).
  { clear M. revert g X. induction F as [|a b l m E F IH]; intros [|g] X; cbn in X; try discriminate.
    - exists b. split; [reflexivity|]. assert (a = x) by congruence. subst. exact E.
    - apply (IH g X). }
  destruct X' as (x' & X' & E). exists x'. split; [exact X'|]. intros z I. destruct (forall2_in_left _ _ _ _ F I) as (z0 & I0 & E0).
  rewrite <- E, <- E0. apply M, I0.
Qed.
Lemma forall2_len {A B} (P : A -> B -> Prop) l m : Forall2 P l m -> length l = length m.
Proof. induction 1; cbn [List.length]; congruence. Qed.
Lemma forall2_nth {A B} (P : A -> B -> Prop) l m : Forall2 P l m -> forall i x, nth_error l i = Some x -> exists y, nth_error m i = Some y /\ P x y.
Proof.
  induction 1 as [|a b l m Pab F IH]; intros [|i] x X; cbn in X; try discriminate.
  - exists b. split; [reflexivity|]. congruence.
  - apply (IH i x X).
Qed.
Lemma forall2_nth_r {A B} (P : A -> B -> Prop) l m : Forall2 P l m -> forall i y, nth_error m i = Some y -> exists x, nth_error l i = Some x /\ P x y.
Proof.
  induction 1 as [|a b l m Pab F IH]; intros [|i] x X; cbn in X; try discriminate.
  - exists a. split; [reflexivity|]. congruence.
  - apply (IH i x X).
Qed.
Lemma not_outside y h g x : nth_error y g = Some x -> (x == h)%Q -> ~ outside y h.
Proof. intros G E [O|O]; specialize (O x (nth_error_In _ _ G)); lra. Qed.
(** A field of one file after interpolation, before missing values are masked. *)
Lemma prepared_field target n_max f o k y rows : prepared target n_max f o -> gates f y -> ascending y ->
  field k f (length y) rows -> Forall (fun row => length row = length y) rows ->
  exists rows', lookup k (o_data o) = Some (D2 (length target) rows') /\ resampled y target rows (map (map mask_entry) rows').
Proof.
  intros (f1 & f2 & l & (y1 & Y & H) & (n & _ & _ & Pd & _) & _ & Od & _) G A F Wd.
  rewrite (range_gates _ _ G) in Y. assert (y1 = y) by congruence. subst y1. clear Y. rewrite Od, Pd.
  destruct H as [(E & ->)|(_ & I)].
  - exists rows. rewrite <- (forall2_len _ _ _ E). split; [exact F|]. split; [apply map_length|]. intros i row row' Ri Ri'.
    rewrite nth_error_map', Ri in Ri'. cbn [option_map] in Ri'. assert (row' = map mask_entry row) by congruence. subst row'. clear Ri'.
    assert (Lr : length row = length y). { rewrite Forall_forall in Wd. apply Wd. apply (nth_error_In _ _ Ri). }
    split; [rewrite map_length, Lr; apply (forall2_len _ _ _ E)|]. intros j h J. destruct (forall2_nth_r _ _ _ E j h J) as (x & X & Ex).
    assert (Lt : j < length row). { rewrite Lr. apply nth_error_Some. congruence. } destruct (nth_error_lt_Some row j Lt) as (e & Ee).
    exists j, e, (mask_entry e). split; [apply (is_nearest_wd y x h j Ex), is_nearest_self, X|]. split; [exact Ee|].
    split; [rewrite nth_error_map', Ee; reflexivity|]. destruct (mask_entry_hides e) as (M1 & M2). split; [exact M1|]. rewrite M2.
    pose proof (not_outside y h j x X Ex) as No. split; [intros [S|S]; [left; exact S|right; left; exact S]|].
    intros [S|[S|S]]; [left; exact S|right; exact S|destruct (No S)].
  - destruct I as (_ & _ & I & _). specialize (I k). unfold field in F. rewrite F in I. destruct I as (v & V & Lv). cbn [to_heights] in V.
    rewrite Nat.eqb_refl in V. apply bind_ok in V. destruct V as (rows' & Rs & V). assert (v = D2 (length target) rows') by congruence. subst v.
    exists rows'. split; [exact Lv|]. apply sequence_iff in Rs. split; [rewrite map_length; symmetry; apply (forall2_len _ _ _ Rs)|].
    intros i row row' Ri Ri'. rewrite nth_error_map' in Ri'. destruct (forall2_nth _ _ _ Rs i row Ri) as (row1 & R1 & P1). rewrite R1 in Ri'.
    cbn [option_map] in Ri'. assert (row' = map mask_entry row1) by congruence. subst row'. clear Ri'.
    assert (Lr : length row = length y). { rewrite Forall_forall in Wd. apply Wd. apply (nth_error_In _ _ Ri). }
    destruct (nearest_profile_spec y target row row1 A Lr P1) as (L1 & N1). split; [rewrite map_length; exact L1|]. intros j h J.
    destruct (N1 j h J) as (g & e & e1 & Ng & Eg & Ej & (H1 & H2)). exists g, e, (mask_entry e1). split; [exact Ng|]. split; [exact Eg|].
    split; [rewrite nth_error_map', Ej; reflexivity|]. destruct (mask_entry_hides e1) as (M1 & M2). split; [congruence|]. rewrite M2, H2, H1. tauto.
Qed.

(** ** Chirps *)
Lemma floor_nat i : Z.to_nat (Qfloor (inject_Z (Z.of_nat i))) = i.
Proof. rewrite Qfloor_Z. apply Nat2Z.id. Qed.
Lemma nearest_monotone y' : StronglySorted Qlt y' -> forall v w i j a b, (v <= w)%Q ->
  nth_error y' i = Some a -> nth_error y' j = Some b ->
  (forall k x, nth_error y' k = Some x -> (Qabs (a - v) <= Qabs (x - v))%Q /\ (k < i -> (Qabs (a - v) < Qabs (x - v))%Q)) ->
  (forall k x, nth_error y' k = Some x -> (Qabs (b - w) <= Qabs (x - w))%Q) -> i <= j.
Proof.
  intros S v w i j a b L Ia Jb Ma Mb. destruct (le_lt_dec i j) as [|Lt]; [assumption|exfalso].
  destruct (Ma j b Jb) as (_ & M1). specialize (M1 Lt). specialize (Mb i a Ia).
  assert (Lab : (b < a)%Q).
  { clear - S Lt Ia Jb. revert i j Lt Ia Jb. induction S as [|h t St IH F]; intros i j Lt Ia Jb; [destruct i; discriminate|].
    destruct i as [|i]; [lia|]. destruct j as [|j]; cbn in Ia, Jb.
    - assert (h = b) by congruence. subst h. rewrite Forall_forall in F. apply F. apply (nth_error_In _ _ Ia).
    - apply (IH i j); [lia|assumption|assumption]. }
  clear - L M1 Mb Lab. revert M1 Mb. abs_cases; intros; lra.
Qed.
Lemma index_numbers (l : list nat) : map (fun s => Z.to_nat (Qfloor s)) (map (fun i => inject_Z (Z.of_nat i)) l) = l.
Proof. induction l as [|i l IH]; [reflexivity|]. cbn [map]. rewrite floor_nat, IH. reflexivity. Qed.
Lemma chirp_starts_spec y y' starts res : ascending y -> StronglySorted Qlt y' -> chirps_in_order starts (length y) ->
  chirp_starts y y' (map (fun i => inject_Z (Z.of_nat i)) starts) = Ok res ->
  exists starts', res = map (fun i => inject_Z (Z.of_nat i)) starts' /\ moved y y' starts starts' /\ chirps_in_order starts' (length y').
Proof.
  intros A S (Z0 & So & Bd) H. unfold chirp_starts in H. rewrite index_numbers in H. apply bind_ok in H. destruct H as (vals & G & H).
  apply bind_ok in H. destruct H as (ind & I & H). destruct ind as [|i0 r]; [discriminate|].
  match type of H with Ok ?x = _ => assert (E : res = x) by congruence end. exists (0 :: r). split; [exact E|]. clear E H res.
  pose proof (gather_inv _ _ _ G) as Gi. destruct (gather_ok _ _ Gi) as (o & O & Lo & No). assert (o = vals) by congruence. subst o.
  apply sequence_iff in I. pose proof (forall2_len _ _ _ I) as Li.
  assert (Ny : y' <> []). { intros ->. inversion I as [|? ? ? ? X _]; subst. discriminate. }
  assert (Ch : forall c k, nth_error (i0 :: r) c = Some k -> exists s h a, nth_error starts c = Some s /\ nth_error y s = Some h /\ nth_error vals c = Some h /\
     nth_error y' k = Some a /\ forall m x, nth_error y' m = Some x -> (Qabs (a - h) <= Qabs (x - h))%Q /\ (m < k -> (Qabs (a - h) < Qabs (x - h))%Q)).
  { intros c k C. destruct (forall2_nth_r _ _ _ I c k C) as (h & Hh & Am). pose proof (No c) as Nc. rewrite Hh in Nc.
    destruct (nth_error starts c) as [s|] eqn:Es; [|discriminate]. exists s, h.
    destruct (argmin_first (map (fun t => Qabs (t - h)) y')) as (k' & v & Ak & Vk & M). { destruct y'; [congruence|discriminate]. }
    assert (k' = k) by congruence. subst k'. rewrite nth_error_map' in Vk. destruct (nth_error y' k) as [a|] eqn:Ea; [|discriminate].
    exists a. split; [reflexivity|]. split; [symmetry; exact Nc|]. split; [exact Hh|]. split; [reflexivity|]. cbn [option_map] in Vk. intros m x X.
    assert (v = Qabs (a - h)) by congruence. subst v. apply (M m). rewrite nth_error_map', X. reflexivity. }
  assert (Mono : forall c d i j, c <= d -> nth_error (i0 :: r) c = Some i -> nth_error (i0 :: r) d = Some j -> i <= j).
  { intros c d i j Cd Ci Dj. destruct (Ch c i Ci) as (s & h & a & Sc & Hs & _ & Ea & Ma). destruct (Ch d j Dj) as (s' & h' & b & Sd & Hs' & _ & Eb & Mb).
    assert (Ls : s <= s').
    { destruct (Nat.eq_dec c d) as [->|Nd]; [assert (s = s') by congruence; lia|]. apply (strong_nth_inv _ _ So c d s s'); [lia|exact Sc|exact Sd]. }
    assert (Lh : (h <= h')%Q).
    { destruct (Nat.eq_dec s s') as [->|Nd]; [assert (h = h') by congruence; subst; lra|]. apply (strong_nth_inv _ _ A s s' h h'); [lia|exact Hs|exact Hs']. }
    apply (nearest_monotone y' S h h' i j a b Lh Ea Eb Ma). intros k x X. apply (Mb k x X). }
  split; [|split; [|split]].
  - split; [cbn [List.length] in *; rewrite <- Lo; symmetry; exact Li|]. intros c i i' Ci Ci'. destruct c as [|c].
    + left. split; [reflexivity|]. cbn in Ci'. congruence.
    + right. split; [discriminate|]. cbn in Ci'. destruct (Ch (Datatypes.S c) i' Ci') as (s & h & a & Sc & Hs & _ & Ea & Ma).
      assert (s = i) by congruence. subst s. exists h. split; [exact Hs|]. exists a. split; [exact Ea|]. intros z Iz.
      apply In_nth_error in Iz. destruct Iz as (m & Mz). destruct (Ma m z Mz) as (L & _). rewrite (Qabs_Qminus h a), (Qabs_Qminus h z). exact L.
  - exists r. reflexivity.
  - constructor.
    + assert (X : StronglySorted Nat.le (i0 :: r)). { apply strong_nth. intros c d i j Cd Ci Dj. apply (Mono c d); [lia|exact Ci|exact Dj]. }
      inversion X. assumption.
    + apply Forall_forall. intros; lia.
  - apply Forall_forall. intros k Ik. destruct Ik as [<-|Ik]; [destruct y'; [congruence|cbn; lia]|].
    apply In_nth_error in Ik. destruct Ik as (c & C). destruct (Ch (Datatypes.S c) k C) as (s & h & a & _ & _ & _ & Ea & _). apply nth_error_Some. congruence.
Qed.
(** Chirp starts of a file whose gates are those of the target. *)
Lemma moved_same y y' starts : Forall2 Qeq y y' -> chirps_in_order starts (length y) -> moved y y' starts starts /\ chirps_in_order starts (length y').
Proof.
  intros F C. split; [|rewrite <- (forall2_len _ _ _ F); exact C]. destruct C as ((rest & Z0) & So & Bd). split; [reflexivity|]. intros c i i' Ci Ci'.
  assert (i' = i) by congruence. subst i'. destruct c as [|c].
  - left. split; [reflexivity|]. rewrite Z0 in Ci. cbn in Ci. congruence.
  - right. split; [discriminate|]. rewrite Forall_forall in Bd. specialize (Bd i (nth_error_In _ _ Ci)). destruct (nth_error_lt_Some y i Bd) as (h & Hh).
    exists h. split; [exact Hh|]. apply (is_nearest_equal y y' h i F), is_nearest_self, Hh.
Qed.
Definition padded {A} (n_max : nat) (l : list A) : list (masked A) := map Some l ++ repeat None (n_max - length l).
Lemma pad_vector n n_max (l : list Q) : length l = n -> n <= n_max ->
  (if n =? n_max then HVec (map Some l) else pad n n_max (HVec (map Some l))) = HVec (padded n_max l).
Proof.
  intros L Le. unfold padded. rewrite L. destruct (Nat.eqb_spec n n_max) as [->|D].
  - rewrite Nat.sub_diag, app_nil_r. reflexivity.
  - cbn [pad]. rewrite map_length, L, Nat.eqb_refl. reflexivity.
Qed.
Lemma padded_length {A} n_max (l : list A) : length l <= n_max -> length (padded n_max l) = n_max.
Proof. intros L. unfold padded. rewrite app_length, map_length, repeat_length. lia. Qed.
Lemma present_padded {A} n_max (l : list A) : present (padded n_max l) = l.
Proof.
  unfold padded, OutputModel.present. rewrite flat_map_app. fold (@OutputModel.present A (map Some l)). rewrite present_some.
  assert (E : forall m, flat_map (fun o : option A => match o with Some a => [a] | None => [] end) (repeat None m) = []).
  { induction m as [|m IH]; [reflexivity|]. cbn [repeat flat_map app]. exact IH. }
  rewrite E, app_nil_r. reflexivity.
Qed.
Lemma one_row_long l : 2 <= length l -> one_row (HVec l) = HVec l.
Proof. destruct l as [|[x|] [|b l]]; cbn [List.length one_row]; try reflexivity; lia. Qed.
Lemma prepared_chirps target n_max f o ts y starts v : prepared target n_max f o -> stamps f ts -> gates f y -> ascending y ->
  StronglySorted Qlt target -> chirps f starts v -> chirps_in_order starts (length y) -> 2 <= n_max ->
  exists starts', moved y target starts starts' /\ chirps_in_order starts' (length target) /\ length starts' <= n_max /\
    lookup "chirp_start_indices" (o_header o) =
      Some (PerTime (repeat (HVec (padded n_max (map (fun i => inject_Z (Z.of_nat i)) starts'))) (length ts))) /\
    lookup "nyquist_velocity" (o_header o) = Some (PerTime (repeat (HVec (padded n_max v)) (length ts))) /\
    (length starts < length y -> length starts <> length target ->
     exists rng, lookup "range" (o_header o) = Some (Plain (map Some rng)) /\ length rng = length target).
Proof.
  intros P Sf G A St (C1 & C2 & C3) Co N2. destruct (prepared_stamps _ _ _ _ _ P Sf) as (f1 & f2 & (y1 & Y & H) & (n & Nc & Nle & _ & _ & Ph) & E).
  rewrite (range_gates _ _ G) in Y. assert (y1 = y) by congruence. subst y1. clear Y.
  assert (X : exists starts' rng, moved y target starts starts' /\ chirps_in_order starts' (length target) /\
     lookup "chirp_start_indices" (f_header f1) = Some (HVec (map Some (map (fun i => inject_Z (Z.of_nat i)) starts'))) /\
     lookup "nyquist_velocity" (f_header f1) = Some (HVec (map Some v)) /\ lookup "range" (f_header f1) = Some (HVec (map Some rng)) /\
     length rng = length target /\ (rng = y \/ rng = target)).
  { destruct H as [(F & ->)|(_ & I)].
    - destruct (moved_same y target starts F Co) as (M1 & M2). exists starts, y. split; [exact M1|]. split; [exact M2|].
      split; [rewrite map_map; exact C1|]. split; [exact C2|]. split; [exact G|]. split; [apply (forall2_len _ _ _ F)|left; reflexivity].
    - destruct I as (_ & _ & _ & I1 & I2 & s & st & st' & S1 & S2 & S3 & S4).
      assert (s = HVec (map (fun i => Some (inject_Z (Z.of_nat i))) starts)) by congruence. subst s. cbn [vector_of] in S2.
      assert (Es : st = map (fun i => inject_Z (Z.of_nat i)) starts).
      { rewrite <- (map_map (fun i => inject_Z (Z.of_nat i)) Some), present_some in S2. congruence. }
      subst st. destruct (chirp_starts_spec y target starts st' A St Co S3) as (starts' & -> & M1 & M2). exists starts', target.
      split; [exact M1|]. split; [exact M2|]. split; [exact S4|].
      split; [rewrite (I1 "nyquist_velocity" ltac:(discriminate) ltac:(discriminate)); exact C2|]. split; [exact I2|]. split; [reflexivity|right; reflexivity]. }
  destruct X as (starts' & rng & M1 & M2 & L1 & L2 & L3 & L4 & L5). exists starts'. split; [exact M1|]. split; [exact M2|].
  assert (Ln : length starts' = n).
  { unfold n_chirps, key_of in Nc. rewrite L1 in Nc. cbn [bind] in Nc. rewrite !map_length in Nc. congruence. }
  split; [lia|]. destruct M1 as (M1 & _).
  split; [|split].
  - rewrite E, Ph, L1. cbn [option_map]. rewrite (pad_vector n n_max) by (rewrite ?map_length; assumption).
    unfold expand_value. cbn [String.eqb Ascii.eqb Bool.eqb orb hidden]. rewrite one_row_long; [reflexivity|].
    rewrite padded_length; [exact N2|rewrite map_length; lia].
  - rewrite E, Ph, L2. cbn [option_map]. rewrite (pad_vector n n_max); [|congruence|exact Nle].
    unfold expand_value. cbn [String.eqb Ascii.eqb Bool.eqb orb hidden]. rewrite one_row_long; [reflexivity|].
    rewrite padded_length; [exact N2|congruence].
  - intros K1 K2. exists rng. split; [|exact L4]. rewrite E, Ph, L3. cbn [option_map].
    assert (Ep : (if n =? n_max then HVec (map Some rng) else pad n n_max (HVec (map Some rng))) = HVec (map Some rng)).
    { destruct (n =? n_max); [reflexivity|]. cbn [pad]. rewrite map_length. destruct (Nat.eqb_spec (length rng) n) as [En|_]; [|reflexivity].
      exfalso. destruct L5 as [->| ->]; congruence || lia. }
    rewrite Ep. reflexivity.
Qed.
Lemma chirp_starts_length y y' s s' : chirp_starts y y' s = Ok s' -> length s' = length s.
Proof.
  unfold chirp_starts. intros H. apply bind_ok in H. destruct H as (vals & G & H). apply bind_ok in H. destruct H as (ind & I & H).
  destruct ind as [|i0 ind]; [discriminate|]. match type of H with Ok ?x = _ => assert (E : s' = x) by congruence end. rewrite E, map_length.
  destruct (gather_ok _ _ (gather_inv _ _ _ G)) as (o & O & Lo & _). assert (o = vals) by congruence. subst o. rewrite map_length in Lo.
  apply sequence_iff, forall2_len in I. cbn [List.length] in *. congruence.
Qed.
Lemma prepared_range target n_max f o ts y starts v : prepared target n_max f o -> stamps f ts -> gates f y -> chirps f starts v ->
  length starts <> length target ->
  exists rng, lookup "range" (o_header o) = Some (Plain (map Some rng)) /\ Forall2 Qeq rng target.
Proof.
  intros P Sf G (C1 & C2 & C3) K. destruct (prepared_stamps _ _ _ _ _ P Sf) as (f1 & f2 & (y1 & Y & H) & (n & Nc & Nle & _ & _ & Ph) & E).
  rewrite (range_gates _ _ G) in Y. assert (y1 = y) by congruence. subst y1. clear Y.
  assert (X : exists rng s', lookup "chirp_start_indices" (f_header f1) = Some (HVec (map Some s')) /\ length s' = length starts /\
     lookup "range" (f_header f1) = Some (HVec (map Some rng)) /\ Forall2 Qeq rng target).
  { destruct H as [(F & ->)|(_ & I)].
    - exists y, (map (fun i => inject_Z (Z.of_nat i)) starts). rewrite map_map, map_length. split; [exact C1|]. split; [reflexivity|]. split; [exact G|exact F].
    - destruct I as (_ & _ & _ & I1 & I2 & s & st & st' & S1 & S2 & S3 & S4). exists target, st'. split; [exact S4|].
      split; [|split; [exact I2|apply forall2_qeq_refl]]. rewrite (chirp_starts_length _ _ _ _ S3).
      assert (s = HVec (map (fun i => Some (inject_Z (Z.of_nat i))) starts)) by congruence. subst s. cbn [vector_of] in S2.
      rewrite <- (map_map (fun i => inject_Z (Z.of_nat i)) Some), present_some in S2.
      assert (Es : st = map (fun i => inject_Z (Z.of_nat i)) starts) by congruence. rewrite Es, map_length. reflexivity. }
  destruct X as (rng & s' & L1 & L2 & L3 & L4). exists rng. split; [|exact L4]. rewrite E, Ph, L3. cbn [option_map].
  assert (Ln : n = length starts).
  { unfold n_chirps, key_of in Nc. rewrite L1 in Nc. cbn [bind] in Nc. rewrite map_length in Nc. congruence. }
  assert (Ep : (if n =? n_max then HVec (map Some rng) else pad n n_max (HVec (map Some rng))) = HVec (map Some rng)).
  { destruct (n =? n_max); [reflexivity|]. cbn [pad]. rewrite map_length. destruct (Nat.eqb_spec (length rng) n) as [En|_]; [|reflexivity].
    exfalso. apply K. rewrite <- (forall2_len _ _ _ L4). congruence. }
  rewrite Ep. reflexivity.
Qed.
Lemma forall2_qeq_sorted a b : Forall2 Qeq a b -> StronglySorted Qlt a -> StronglySorted Qlt b.
Proof.
  intros F S. apply strong_nth. intros i j x y L X Y. destruct (forall2_nth_r _ _ _ F i x X) as (x' & X' & Ex).
  destruct (forall2_nth_r _ _ _ F j y Y) as (y' & Y' & Ey). pose proof (strong_nth_inv _ _ S i j x' y' L X' Y') as Z. cbv beta in Z. lra.
Qed.
Lemma top_highest y t : highest_gate y t <-> top y t.
Proof.
  unfold highest_gate, top. induction y as [|a y IH] using rev_ind.
  - split; [intros (_ & X); congruence|intros (r & X); discriminate].
  - rewrite rev_app_distr, app_length. cbn [rev List.length app]. replace (length y + 1 - 1) with (length y) by lia.
    rewrite nth_error_app2 by lia. rewrite Nat.sub_diag. cbn [nth_error]. split.
    + intros (X & _). exists (rev y). congruence.
    + intros (r & X). split; [congruence|]. destruct y; discriminate.
Qed.
Lemma outside_wd y h h' : (h == h')%Q -> outside y h -> outside y h'.
Proof. intros E [H|H]; [left|right]; intros x X; specialize (H x X); lra. Qed.
Lemma resampled_equal y t t' rows rows' : Forall2 Qeq t t' -> resampled y t rows rows' -> resampled y t' rows rows'.
Proof.
  intros F (L & R). split; [exact L|]. intros i row row' A B. destruct (R i row row' A B) as (Lr & X). split; [rewrite <- (forall2_len _ _ _ F); exact Lr|].
  intros j h J. destruct (forall2_nth_r _ _ _ F j h J) as (h0 & J0 & E). destruct (X j h0 J0) as (g & e & e' & N & E1 & E2 & H1 & H2).
  exists g, e, e'. split; [apply (is_nearest_wd y h0 h g E N)|]. split; [exact E1|]. split; [exact E2|]. split; [exact H1|]. rewrite H2.
  split; intros [Z|[Z|Z]]; [left; exact Z|right; left; exact Z|right; right; apply (outside_wd y h0 h E Z)|left; exact Z|right; left; exact Z|].
  right; right. apply (outside_wd y h h0); [symmetry; exact E|exact Z].
Qed.
Lemma moved_equal y t t' s s' : Forall2 Qeq t t' -> moved y t s s' -> moved y t' s s'.
Proof.
  intros F (L & M). split; [exact L|]. intros c i i' A B. destruct (M c i i' A B) as [Z|(Z & h & H & N)]; [left; exact Z|].
  right. split; [exact Z|]. exists h. split; [exact H|]. apply (is_nearest_equal t t' h i' F N).
Qed.
Lemma good_of_order starts n : chirps_in_order starts n -> good_starts (map Z.of_nat starts) 0 n.
Proof.
  intros ((rest & E) & S & B). split; [|split].
  - exists (map Z.of_nat rest). rewrite E. reflexivity.
  - clear - S. induction S as [|a l S IH F]; cbn [map]; constructor; [exact IH|]. rewrite Forall_map. eapply Forall_impl; [|exact F].
    intros x X. cbv beta in X. unfold Nat.le in X. lia.
  - rewrite Forall_map. eapply Forall_impl; [|exact B]. intros x X. cbv beta in X. lia.
Qed.
Lemma compress_map {A B} (g : A -> B) l : compress (map (option_map g) l) = map g (present l).
Proof.
  unfold compress, OutputModel.present. induction l as [|[a|] l IH]; cbn [map flat_map app option_map]; [reflexivity| |exact IH].
  rewrite IH. reflexivity.
Qed.
Lemma floor_indices starts : map Qfloor (map (fun i => inject_Z (Z.of_nat i)) starts) = map Z.of_nat starts.
Proof. rewrite map_map. apply map_ext. intros i. apply Qfloor_Z. Qed.
Lemma map_repeat' {A B} (g : A -> B) x n : map g (repeat x n) = repeat (g x) n.
Proof. induction n as [|n IH]; [reflexivity|]. cbn [repeat map]. rewrite IH. reflexivity. Qed.
Lemma chirp_rows_ok l : sequence (map chirp_row (map HVec l)) = Ok l.
Proof. rewrite map_map. apply sequence_iff. induction l; [apply Forall2_nil|apply Forall2_cons; [reflexivity|assumption]]. Qed.
Lemma expand_nyquist_app {A} n (a b : list (list (masked A))) c d x y : length a = length c ->
  expand_nyquist n a c = Ok x -> expand_nyquist n b d = Ok y -> expand_nyquist n (a ++ b) (c ++ d) = Ok (x ++ y).
Proof.
  revert a x. induction c as [|s c IH]; intros a x L E1 E2; destruct a as [|v a]; try discriminate.
  - cbn in E1. assert (x = []) by congruence. subst x. exact E2.
  - cbn [expand_nyquist app] in *. apply bind_ok in E1. destruct E1 as (row & R & E1). apply bind_ok in E1. destruct E1 as (rows & Rs & E1).
    assert (x = row :: rows) by congruence. subst x. rewrite R. cbn [bind]. rewrite (IH a rows); [reflexivity| |exact Rs|exact E2].
    cbn in L. congruence.
Qed.
Lemma expand_nyquist_repeat {A} n (v : list (masked A)) s row m : expand_profile n v s = Ok row ->
  expand_nyquist n (repeat v m) (repeat s m) = Ok (repeat row m).
Proof. intros E. induction m as [|m IH]; [reflexivity|]. cbn [repeat expand_nyquist]. rewrite E, IH. reflexivity. Qed.
Definition start_row (n_max : nat) (s : list nat) : list (masked Q) := padded n_max (map (fun i => inject_Z (Z.of_nat i)) s).
Lemma speeds_of_blocks target n_max : forall ls sts,
  Forall2 (fun a s => moved (l_gates a) target (l_starts a) s /\ chirps_in_order s (length target) /\ length (l_speeds a) = length (l_starts a)) ls sts ->
  exists outs, Forall2 (chirp_speeds target) ls outs /\
    expand_nyquist (length target)
      (List.concat (map (fun a => repeat (padded n_max (l_speeds a)) (length (l_times a))) ls))
      (map (map (option_map Qfloor)) (List.concat (map2 (fun a s => repeat (start_row n_max s) (length (l_times a))) ls sts))) = Ok (List.concat outs).
Proof.
  intros ls sts F. induction F as [|a s ls sts (M & C & Lv) F IH].
  - exists []. split; [apply Forall2_nil|reflexivity].
  - destruct IH as (outs & Fo & E).
    destruct (expand_profile_spec Q (length target) (padded n_max (l_speeds a)) (map (option_map Qfloor) (start_row n_max s))) as (row & Er & X).
    + unfold start_row. rewrite compress_map. unfold compress. rewrite !present_padded, floor_indices, map_length. rewrite Lv. destruct M as (M & _). congruence.
    + unfold start_row. rewrite compress_map, present_padded, floor_indices. apply good_of_order, C.
    + exists (repeat row (length (l_times a)) :: outs). split.
      * apply Forall2_cons; [|exact Fo]. split; [apply repeat_length|]. exists s. split; [exact M|]. split; [exact C|]. intros row' I.
        apply repeat_spec in I. subst row'. unfold start_row in X. rewrite compress_map in X. unfold compress in X.
        rewrite !present_padded, floor_indices in X. exact X.
      * cbn [map map2 List.concat]. rewrite map_app. apply expand_nyquist_app; [|rewrite map_repeat'; apply expand_nyquist_repeat, Er|exact E].
        rewrite map_length, !repeat_length. reflexivity.
Qed.
Section Layout.
Variables (epoch : Z) (expected : option Z) (files : list (string * result rpg_file)).
Variables (r : dict rval) (names : list string) (used : list (string * rpg_file)).
Hypothesis R : readable files.
Hypothesis D : day_record epoch expected files = Ok (r, names).
Hypothesis U : picked (of_day epoch expected) files used.
Hypothesis W : Forall well_named (map snd used).
Lemma record_rows k objs rowss : (exists target n_max, Forall2 (prepared target n_max) (map snd used) objs /\ one_day_record objs = Ok r) -> ~ internal k -> k <> "range" -> ~ In k fixed_names ->
  (forall f, In f (map snd used) -> lookup k (f_header f) <> None) ->
  map (fun o => lookup k (o_header o)) objs = map (fun l => Some (PerTime l)) rowss ->
  lookup k r = Some (RHead (PerTime (List.concat rowss))).
Proof.
  intros (target & n_max & F & O) K K1 K2 Hd E. pose proof (all_named _ _ _ _ F W) as Nm.
  destruct (record_spec objs r Nm O) as (data & header & Jd & Jh & L). specialize (Jd k (hidden_false k K)).
  specialize (Jh k (hidden_false k K)). specialize (L k (hidden_false k K)).
  assert (Ne : used <> []). { destruct (record_objects _ _ _ _ _ _ R D U W) as (_ & Ne & _). exact Ne. }
  rewrite E in Jh. apply joined_time_all in Jh.
  2:{ intros ->. cbn in E. apply map_eq_nil in E. subst objs. inversion F as [E1 E2|]. apply Ne. symmetry in E1. apply map_eq_nil in E1. exact E1. }
  assert (Ld : lookup k data = None).
  { apply (joined_none _ _ _ Jd). rewrite Forall_map. rewrite Forall_forall. intros o I.
    destruct (forall2_in_left _ _ _ _ F I) as (f & If & P). apply (prepared_no_data _ _ _ _ _ P).
    apply ConcatProofs.lookup_none. intros X. rewrite Forall_forall in W. destruct (W f If) as (_ & _ & W3). apply (W3 k X).
    specialize (Hd f If). destruct (in_dec string_dec k (map fst (f_header f))) as [Y|Y]; [exact Y|]. exfalso. apply Hd, ConcatProofs.lookup_none, Y. }
  rewrite Ld in L. destruct (String.eqb_spec k "range") as [Z|_]; [contradiction|]. rewrite Jh in L. unfold settle in L.
  destruct (existsb (String.eqb k) constant_keys) eqn:Ek; [exfalso; apply K2, fixed_constant, Ek|]. exact L.
Qed.

Variables (N : nat) (ls : list layout).
Hypothesis LO : Forall2 laid_out (map snd used) ls.
Hypothesis SL : Forall (sound_layout N) ls.
Lemma layout_target : exists target n_max objs,
  Forall2 (prepared target n_max) (map snd used) objs /\ one_day_record objs = Ok r /\
  StronglySorted Qlt target /\ N <= length target /\
  (exists a, In a ls /\ Forall2 Qeq (l_gates a) target) /\
  (forall a t u, In a ls -> highest_gate (l_gates a) u -> highest_gate target t -> (u <= t)%Q) /\
  exists rng, lookup "range" r = Some (RHead (Plain (map Some rng))) /\ Forall2 Qeq rng target.
Proof.
  destruct (record_objects _ _ _ _ _ _ R D U W) as (_ & Ne & target & n_max & objs & F & O & Nm & (f & y & If & Y & Fy) & Hi).
  exists target, n_max, objs. split; [exact F|]. split; [exact O|].
  destruct (forall2_in_right _ _ _ _ LO If) as (a & Ia & (Ga & Ca & Ta)). rewrite (range_gates _ _ Ga) in Y. assert (y = l_gates a) by congruence. subst y.
  rewrite Forall_forall in SL. destruct (SL a Ia) as (S1 & S2 & S3 & S4).
  split; [apply (forall2_qeq_sorted _ _ Fy S1)|]. assert (Nt : N <= length target) by (rewrite <- (forall2_len _ _ _ Fy); exact S4). split; [exact Nt|].
  split; [exists a; split; assumption|]. split.
  - intros b t u Ib Hb Ht. destruct (forall2_in_left _ _ _ _ LO Ib) as (fb & Ifb & (Gb & _)).
    apply (Hi fb (l_gates b) t u Ifb (range_gates _ _ Gb)); apply top_highest; assumption.
  - destruct (record_spec objs r Nm O) as (data & header & Jd & Jh & L). specialize (Jd "range" eq_refl). specialize (Jh "range" eq_refl). specialize (L "range" eq_refl).
    assert (Ld : lookup "range" data = None).
    { apply (joined_none _ _ _ Jd). rewrite Forall_map. rewrite Forall_forall. intros o I.
      destruct (forall2_in_left _ _ _ _ F I) as (g & Ig & P). apply (prepared_no_data _ _ _ _ _ P).
      destruct (forall2_in_right _ _ _ _ LO Ig) as (b & _ & (Gb & _)).
      apply ConcatProofs.lookup_none. intros X. rewrite Forall_forall in W. destruct (W g Ig) as (_ & _ & W3). apply (W3 "range" X).
      destruct (in_dec string_dec "range" (map fst (f_header g))) as [Z|Z]; [exact Z|]. apply ConcatProofs.lookup_none in Z. unfold gates in Gb. congruence. }
    rewrite Ld in L. cbn [String.eqb Ascii.eqb Bool.eqb] in L.
    inversion F as [E1 E2|f0 o0 fs os P0 F0 E1 E2].
    { exfalso. symmetry in E1. apply map_eq_nil in E1. contradiction. }
    rewrite <- E2 in L. rewrite <- E1 in LO. inversion LO as [|? a0 ? ls' L0 LO' E3 E4]. destruct L0 as (G0 & C0 & T0').
    destruct (SL a0) as (_ & _ & S3' & _). { rewrite <- E4. left. reflexivity. }
    destruct (prepared_range target n_max f0 o0 (l_times a0) (l_gates a0) (l_starts a0) (l_speeds a0) P0 T0' G0 C0 ltac:(lia)) as (rng & Lr & Fr).
    exists rng. split; [|exact Fr]. rewrite Lr in L.
    assert (Hn : lookup "range" header <> None).
    { apply (joined_some _ _ _ _ Jh). right. rewrite <- E2. cbn [map]. apply Exists_cons_hd. congruence. }
    destruct (lookup "range" header) as [h|]; [|congruence]. exact L.
Qed.
Lemma layout_range : exists rng, lookup "range" r = Some (RHead (Plain (map Some rng))) /\
  (exists a, In a ls /\ Forall2 Qeq (l_gates a) rng) /\
  (forall a t u, In a ls -> highest_gate (l_gates a) u -> highest_gate rng t -> (u <= t)%Q).
Proof.
  destruct layout_target as (target & n_max & objs & F & O & St & Nt & (a & Ia & Fa) & Hi & rng & Lr & Fr). exists rng. split; [exact Lr|].
  split; [exists a; split; [exact Ia|apply (forall2_qeq_trans _ _ _ Fa), forall2_qeq_sym, Fr]|].
  intros b t u Ib Hu Ht. assert (Nz : target <> []). { intros ->. inversion Fr. subst rng. destruct Ht as (_ & Ht). congruence. }
  destruct (nth_error_lt_Some target (length target - 1)) as (t' & T). { destruct target; [congruence|cbn; lia]. }
  assert (Ht' : highest_gate target t') by (split; assumption).
  pose proof (Hi b t' u Ib Hu Ht') as X. apply top_highest in Ht, Ht'. pose proof (top_equal _ _ _ _ Fr Ht Ht') as Y. lra.
Qed.
Lemma layout_fields k imgs rng : ~ internal k -> lookup "range" r = Some (RHead (Plain (map Some rng))) ->
  Forall2 (fun f (p : layout * image entry) => field k f (length (l_gates (fst p))) (snd p) /\
      Forall (fun row => length row = length (l_gates (fst p))) (snd p)) (map snd used) (combine ls imgs) -> length imgs = length ls ->
  exists outs, lookup k r = Some (RData (D2 (length rng) (List.concat outs))) /\
    Forall2 (fun (p : layout * image entry) out => resampled (l_gates (fst p)) rng (snd p) out) (combine ls imgs) outs.
Proof.
  intros K Hr Fi Li. destruct layout_target as (target & n_max & objs & F & O & St & Nt & _ & _ & rng' & Lr & Fr).
  assert (rng' = rng). { assert (E : map Some rng' = map Some rng) by congruence. rewrite <- (present_some rng'), E. apply present_some. } subst rng'.
  pose proof (all_named _ _ _ _ F W) as Nm. destruct (record_spec objs r Nm O) as (data & header & Jd & Jh & L). specialize (Jd k (hidden_false k K)). specialize (L k (hidden_false k K)).
  assert (X : exists raws, map (fun o => lookup k (o_data o)) objs = map (fun l => Some (D2 (length target) l)) raws /\
     Forall2 (fun (p : layout * image entry) out => resampled (l_gates (fst p)) rng (snd p) (map (map mask_entry) out)) (combine ls imgs) raws).
  { clear Jd Jh L O Nm. clear - F Fi LO SL Fr Li. revert F Fi LO SL Li. generalize (map snd used) as fs. intros fs F. revert ls imgs.
    induction F as [|f o fs objs P F IH]; intros ls imgs Fi LO SL Li; inversion LO as [|? a ? ls' La LO' E1 E2]; subst; destruct imgs as [|im imgs]; try discriminate.
    - exists []. split; [reflexivity|apply Forall2_nil].
    - cbn [combine] in Fi |- *. inversion Fi as [|? ? ? ? (F1 & F2) Fi' E1 E2]; subst. inversion SL as [|? ? (S1 & _) SL']; subst. destruct La as (Ga & _).
      destruct (IH ls' imgs Fi' LO' SL' ltac:(cbn in Li; congruence)) as (raws & E & Fo).
      destruct (prepared_field _ _ _ _ _ _ _ P Ga (strict_ascending _ S1) F1 F2) as (rows' & E' & Rs). exists (rows' :: raws).
      split; [cbn [map]; rewrite E, E'; reflexivity|]. apply Forall2_cons; [|exact Fo]. apply (resampled_equal _ _ _ _ _ (forall2_qeq_sym _ _ Fr) Rs). }
  destruct X as (raws & E & Fo). exists (map (map (map mask_entry)) raws). split.
  - rewrite E, joined_d2_all in Jd.
    + assert (Ld : lookup k data = Some (D2 (length target) (List.concat raws))) by congruence. rewrite Ld in L.
      rewrite L, mask_invalid_lookup, Ld. cbn [option_map]. rewrite concat_map, (forall2_len _ _ _ Fr). reflexivity.
    + intros ->. cbn in E. apply map_eq_nil in E. subst objs. inversion F as [E1 E2|].
      destruct (record_objects _ _ _ _ _ _ R D U W) as (_ & Ne & _). apply Ne. symmetry in E1. apply map_eq_nil in E1. exact E1.
  - clear - Fo. induction Fo; cbn [map]; [apply Forall2_nil|apply Forall2_cons; assumption].
Qed.
Lemma layout_speeds rng : lookup "range" r = Some (RHead (Plain (map Some rng))) -> Exists (fun a => 2 <= length (l_starts a)) ls ->
  exists outs, record_nyquist r = Ok (List.concat outs) /\ Forall2 (chirp_speeds rng) ls outs.
Proof.
  intros Hr N2. destruct layout_target as (target & n_max & objs & F & O & St & Nt & _ & _ & rng' & Lr & Fr).
  assert (rng' = rng). { assert (E : map Some rng' = map Some rng) by congruence. rewrite <- (present_some rng'), E. apply present_some. } subst rng'.
  assert (Nm : 2 <= n_max).
  { apply Exists_exists in N2. destruct N2 as (a & Ia & N2). destruct (forall2_in_left _ _ _ _ LO Ia) as (f & If & (Ga & (C1 & _) & Ta)).
    destruct (forall2_in_right _ _ _ _ F If) as (o & _ & P). destruct (prepared_stamps _ _ _ _ _ P Ta) as (f1 & f2 & (y & Y & H) & (n & Nc & Nle & _) & _).
    enough (n = length (l_starts a)) by lia. unfold n_chirps, key_of in Nc. destruct H as [(_ & ->)|(_ & I)].
    - rewrite C1 in Nc. cbn [bind] in Nc. rewrite map_length in Nc. congruence.
    - destruct I as (_ & _ & _ & _ & _ & s & st & st' & S1 & S2 & S3 & S4). rewrite S4 in Nc. cbn [bind] in Nc. rewrite map_length in Nc.
      apply chirp_starts_length in S3. assert (s = HVec (map (fun i => Some (inject_Z (Z.of_nat i))) (l_starts a))) by congruence. subst s. cbn [vector_of] in S2.
      rewrite <- (map_map (fun i => inject_Z (Z.of_nat i)) Some), present_some in S2.
      assert (Es : st = map (fun i => inject_Z (Z.of_nat i)) (l_starts a)) by congruence. rewrite Es, map_length in S3. congruence. }
  assert (X : exists sts, Forall2 (fun a s => moved (l_gates a) rng (l_starts a) s /\ chirps_in_order s (length rng) /\ length (l_speeds a) = length (l_starts a)) ls sts /\
     map (fun o => lookup "chirp_start_indices" (o_header o)) objs =
       map (fun l => Some (PerTime l)) (map2 (fun a s => repeat (HVec (start_row n_max s)) (length (l_times a))) ls sts) /\
     map (fun o => lookup "nyquist_velocity" (o_header o)) objs =
       map (fun l => Some (PerTime l)) (map (fun a => repeat (HVec (padded n_max (l_speeds a))) (length (l_times a))) ls)).
  { clear - F LO SL Fr St Nm. revert F LO SL. generalize (map snd used) as fs. intros fs F. revert ls.
    induction F as [|f o fs objs P F IH]; intros ls LO SL; inversion LO as [|? a ? ls' La LO' E1 E2]; subst.
    - exists []. split; [apply Forall2_nil|]. split; reflexivity.
    - inversion SL as [|? ? (S1 & S2 & _) SL']; subst. destruct La as (Ga & Ca & Ta). destruct (IH ls' LO' SL') as (sts & F1 & F2 & F3).
      destruct (prepared_chirps _ _ _ _ _ _ _ _ P Ta Ga (strict_ascending _ S1) St Ca S2 Nm) as (s' & M & C & _ & L1 & L2 & _).
      exists (s' :: sts). split; [|split].
      + apply Forall2_cons; [|exact F1]. split; [apply (moved_equal _ _ _ _ _ (forall2_qeq_sym _ _ Fr) M)|].
        split; [rewrite (forall2_len _ _ _ Fr); exact C|]. destruct Ca as (_ & _ & Ca). exact Ca.
      + cbn [map map2]. rewrite F2, L1. reflexivity.
      + cbn [map]. rewrite F3, L2. reflexivity. }
  destruct X as (sts & F1 & F2 & F3).
  assert (Hh : forall k, k = "chirp_start_indices" \/ k = "nyquist_velocity" -> forall f, In f (map snd used) -> lookup k (f_header f) <> None).
  { intros k Hk f If. destruct (forall2_in_right _ _ _ _ LO If) as (a & _ & (_ & (C1 & C2 & _) & _)). destruct Hk as [-> | ->]; congruence. }
  assert (Ob : exists target n_max, Forall2 (prepared target n_max) (map snd used) objs /\ one_day_record objs = Ok r) by (exists target, n_max; split; assumption).
  assert (K1 : ~ internal "chirp_start_indices") by (intros (s & Z); discriminate).
  assert (K2 : ~ internal "nyquist_velocity") by (intros (s & Z); discriminate).
  assert (K3 : forall k, existsb (String.eqb k) fixed_names = false -> ~ In k fixed_names).
  { intros k Hk I. assert (T : existsb (String.eqb k) fixed_names = true) by (apply existsb_exists; exists k; split; [exact I|apply String.eqb_refl]). congruence. }
  pose proof (record_rows "chirp_start_indices" objs _ Ob K1 ltac:(discriminate) (K3 "chirp_start_indices" eq_refl) (Hh _ (or_introl eq_refl)) F2) as L1.
  pose proof (record_rows "nyquist_velocity" objs _ Ob K2 ltac:(discriminate) (K3 "nyquist_velocity" eq_refl) (Hh _ (or_intror eq_refl)) F3) as L2.
  destruct (speeds_of_blocks rng n_max ls sts F1) as (outs & Fo & E). exists outs. split; [|exact Fo].
  unfold record_nyquist, key_of. rewrite L1, L2, Hr. cbn [bind time_rows].
  assert (E1 : List.concat (map2 (fun a s => repeat (HVec (start_row n_max s)) (length (l_times a))) ls sts) =
     map HVec (List.concat (map2 (fun a s => repeat (start_row n_max s) (length (l_times a))) ls sts))).
  { clear. revert sts. induction ls as [|a l IH]; intros [|s sts]; try reflexivity. cbn [map2 List.concat]. rewrite map_app, map_repeat', IH. reflexivity. }
  assert (E2 : List.concat (map (fun a => repeat (HVec (padded n_max (l_speeds a))) (length (l_times a))) ls) =
     map HVec (List.concat (map (fun a => repeat (padded n_max (l_speeds a)) (length (l_times a))) ls))).
  { clear. induction ls as [|a l IH]; [reflexivity|]. cbn [map List.concat]. rewrite map_app, map_repeat', IH. reflexivity. }
  rewrite E1, E2, !chirp_rows_ok. cbn [bind]. rewrite map_length. exact E.
Qed.
End Layout.
(** ** Screening *)
Lemma option_map_comp {A B C} (f : B -> C) (g : A -> B) o : option_map f (option_map g o) = option_map (fun x => f (g x)) o.
Proof. destruct o; reflexivity. Qed.
Lemma pixel_map {A B} (f : A -> B) m i j : pixel (map (map f) m) i j = option_map f (pixel m i j).
Proof. unfold pixel. rewrite nth_error_map'. destruct (nth_error m i) as [row|]; [|reflexivity]. cbn [option_map]. apply nth_error_map'. Qed.
Lemma pixel_map2' {A B C} (f : A -> B -> C) m1 m2 i j : pixel (map2 (map2 f) m1 m2) i j =
  match pixel m1 i j, pixel m2 i j with Some x, Some y => Some (f x y) | _, _ => None end.
Proof.
  unfold pixel. rewrite map2_nth. destruct (nth_error m1 i) as [r1|]; [|reflexivity]. destruct (nth_error m2 i) as [r2|]; [apply map2_nth|].
  destruct (nth_error r1 j); reflexivity.
Qed.
Lemma screen_fields_spec d k img w : lookup k d = Some img -> lookup "width" d = Some w ->
  exists out img', screen_fields d = Ok out /\ lookup k out = Some img' /\
    forall i j e u, pixel img i j = Some e -> pixel w i j = Some u ->
      exists e', pixel img' i j = Some e' /\
        hides_if (missing (fst e) \/ no_depolarisation k (fst e) \/ (spectral k /\ (fst u < 5 # 1000)%Q)) e e'.
Proof.
  intros Lk Lw. unfold screen_fields, mask_invalid_width, key_of.
  assert (Lm : forall k', lookup k' (mask_invalid_ldr (map (fun kv => (fst kv, map (map mask_entry) (snd kv))) d)) =
    option_map (fun im => let im := map (map mask_entry) im in
       if (k' =? "ldr")%string then map (map (mask_low (-35))) im
       else if (k' =? "sldr")%string then map (map (mask_low (-40))) im else im) (lookup k' d)).
  { intros k'. unfold mask_invalid_ldr.
    rewrite (ConcatProofs.lookup_map _ _ (fun k'' im => if (k'' =? "ldr")%string then map (map (mask_low (-35))) im
       else if (k'' =? "sldr")%string then map (map (mask_low (-40))) im else im) k').
    rewrite (ConcatProofs.lookup_map _ _ (fun _ im => map (map mask_entry) im) k'). apply option_map_comp. }
  rewrite (Lm "width"), Lw. cbn [option_map bind String.eqb Ascii.eqb Bool.eqb]. cbv zeta.
  eexists. exists (if existsb (String.eqb k) ["Zh"; "v"; "ldr"; "width"; "sldr"]
     then map2 (map2 (fun (e w : entry) => (fst e, (snd e || qlt (fst w) (5 # 1000))%bool)))
       (if (k =? "ldr")%string then map (map (mask_low (-35))) (map (map mask_entry) img)
       else if (k =? "sldr")%string then map (map (mask_low (-40))) (map (map mask_entry) img) else map (map mask_entry) img) (map (map mask_entry) w)
     else if (k =? "ldr")%string then map (map (mask_low (-35))) (map (map mask_entry) img)
       else if (k =? "sldr")%string then map (map (mask_low (-40))) (map (map mask_entry) img) else map (map mask_entry) img).
  split; [reflexivity|]. split.
  { etransitivity; [apply (ConcatProofs.lookup_map _ _ (fun k'' im => if existsb (String.eqb k'') ["Zh"; "v"; "ldr"; "width"; "sldr"]
      then map2 (map2 (fun (e w : entry) => (fst e, (snd e || qlt (fst w) (5 # 1000))%bool))) im (map (map mask_entry) w) else im) k)|].
    rewrite Lm, Lk. cbn [option_map fst snd]. cbv zeta. reflexivity. }
  intros i j e u E Eu.
  set (im1 := if (k =? "ldr")%string then _ else _).
  assert (P1 : exists e1, pixel im1 i j = Some e1 /\ hides_if (missing (fst e) \/ no_depolarisation k (fst e)) e e1).
  { subst im1. destruct (mask_entry_hides e) as (M1 & M2). unfold no_depolarisation. destruct (String.eqb_spec k "ldr") as [->|D1].
    - exists (mask_low (-35) (mask_entry e)). rewrite !pixel_map, E. split; [reflexivity|]. split; [reflexivity|].
      unfold mask_low. cbn [fst snd]. rewrite orb_true_iff, M2, Qle_bool_iff. cbn [mask_entry fst]. split.
      + intros [[X|X]|X]; [left; exact X|right; left; exact X|right; right; left; split; [reflexivity|exact X]].
      + intros [X|[X|[(_ & X)|(X & _)]]]; [left; left; exact X|left; right; exact X|right; exact X|discriminate X].
    - destruct (String.eqb_spec k "sldr") as [->|D2].
      + exists (mask_low (-40) (mask_entry e)). rewrite !pixel_map, E. split; [reflexivity|]. split; [reflexivity|].
        unfold mask_low. cbn [fst snd]. rewrite orb_true_iff, M2, Qle_bool_iff. cbn [mask_entry fst]. split.
        * intros [[X|X]|X]; [left; exact X|right; left; exact X|right; right; right; split; [reflexivity|exact X]].
        * intros [X|[X|[(X & _)|(_ & X)]]]; [left; left; exact X|left; right; exact X|discriminate X|right; exact X].
      + exists (mask_entry e). rewrite pixel_map, E. split; [reflexivity|]. split; [reflexivity|]. rewrite M2. split.
        * intros [X|X]; [left; exact X|right; left; exact X].
        * intros [X|[X|[(X & _)|(X & _)]]]; [left; exact X|right; exact X|contradiction|contradiction]. }
  destruct P1 as (e1 & P1 & H1 & H2).
  assert (Sp : existsb (String.eqb k) ["Zh"; "v"; "ldr"; "width"; "sldr"] = true <-> spectral k).
  { rewrite existsb_exists. unfold spectral. split.
    - intros (x & I & X). apply String.eqb_eq in X. subst x. cbn in I |- *. intuition.
    - intros I. exists k. split; [cbn in I |- *; intuition|apply String.eqb_refl]. }
  destruct (existsb (String.eqb k) ["Zh"; "v"; "ldr"; "width"; "sldr"]) eqn:Ex.
  - rewrite pixel_map2', P1, pixel_map, Eu. cbn [option_map]. eexists. split; [reflexivity|]. split; [cbn [fst]; exact H1|].
    cbn [snd]. rewrite orb_true_iff, H2, qlt_iff. cbn [mask_entry fst]. assert (Sk : spectral k) by (apply Sp; reflexivity). split.
    + intros [[X|[X|X]]|X]; [left; exact X|right; left; exact X|right; right; left; exact X|right; right; right; split; [exact Sk|exact X]].
    + intros [X|[X|[X|(_ & X)]]]; [left; left; exact X|left; right; left; exact X|left; right; right; exact X|right; exact X].
  - exists e1. split; [exact P1|]. split; [exact H1|]. rewrite H2. split.
    + intros [X|[X|X]]; [left; exact X|right; left; exact X|right; right; left; exact X].
    + intros [X|[X|[X|(X & _)]]]; [left; exact X|right; left; exact X|right; right; exact X|]. apply Sp in X. discriminate.
Qed.
Lemma screen_fields_no_width d : lookup "width" d = None -> screen_fields d = Raise KeyError.
Proof.
  intros L. unfold screen_fields, mask_invalid_width, key_of, mask_invalid_ldr.
  rewrite (ConcatProofs.lookup_map _ _ (fun k'' im => if (k'' =? "ldr")%string then map (map (mask_low (-35))) im
       else if (k'' =? "sldr")%string then map (map (mask_low (-40))) im else im)).
  rewrite (ConcatProofs.lookup_map _ _ (fun _ im => map (map mask_entry) im)).
  match goal with |- context [option_map _ (option_map _ ?o)] => change o with (@lookup (image entry) "width" d) end. rewrite L. reflexivity.
Qed.

(** ** Zenith *)
Fixpoint sel_from (i : nat) (z : list (masked Q)) : list (nat * Q) :=
  match z with
  | [] => []
  | Some x :: z' => if near_zenith x then (i, x) :: sel_from (Datatypes.S i) z' else sel_from (Datatypes.S i) z'
  | None :: z' => sel_from (Datatypes.S i) z'
  end.
Lemma sel_from_values : forall z i, map snd (sel_from i z) = filter near_zenith (present z).
Proof.
  induction z as [|[x|] z IH]; intros i; [reflexivity| |exact (IH (Datatypes.S i))].
  cbn [sel_from]. change (present (Some x :: z)) with (x :: present z). cbn [filter]. destruct (near_zenith x); [cbn [map snd]; rewrite IH; reflexivity|apply IH].
Qed.
Lemma sel_from_in : forall z i k x, In (k, x) (sel_from i z) <-> i <= k /\ nth_error z (k - i) = Some (Some x) /\ near_zenith x = true.
Proof.
  induction z as [|o z IH]; intros i k x; [cbn; split; [contradiction|intros (_ & X & _); destruct (k - i); discriminate]|].
  assert (Sh : In (k, x) (sel_from (Datatypes.S i) z) <-> Datatypes.S i <= k /\ nth_error (o :: z) (k - i) = Some (Some x) /\ near_zenith x = true).
  { rewrite IH. split; intros (L & N & Z); (split; [exact L|]); (split; [|exact Z]); revert N; replace (k - i) with (Datatypes.S (k - Datatypes.S i)) by lia; trivial. }
  assert (Hd : k = i -> nth_error (o :: z) (k - i) = Some o) by (intros ->; rewrite Nat.sub_diag; reflexivity).
  assert (Cs : i <= k -> k = i \/ Datatypes.S i <= k) by lia.
  cbn [sel_from]. destruct o as [y|].
  - destruct (near_zenith y) eqn:Ny.
    + cbn [In]. rewrite Sh. split.
      * intros [X|(L & X)]; [|split; [lia|exact X]]. assert (k = i) by congruence. assert (x = y) by congruence. subst x. split; [lia|]. split; [apply Hd; assumption|exact Ny].
      * intros (L & N & Z). destruct (Cs L) as [E|E]; [left|right; split; [exact E|split; assumption]]. rewrite (Hd E) in N. congruence.
    + rewrite Sh. split; [intros (L & X); split; [lia|exact X]|]. intros (L & N & Z). destruct (Cs L) as [E|E]; [|split; [exact E|split; assumption]].
      rewrite (Hd E) in N. congruence.
  - rewrite Sh. split; [intros (L & X); split; [lia|exact X]|]. intros (L & N & Z). destruct (Cs L) as [E|E]; [|split; [exact E|split; assumption]].
    rewrite (Hd E) in N. congruence.
Qed.
Lemma sel_from_nodup : forall z i, NoDup (map fst (sel_from i z)).
Proof.
  induction z as [|[x|] z IH]; intros i; cbn [sel_from map]; [constructor| |apply IH]. destruct (near_zenith x); [|apply IH].
  cbn [map fst]. constructor; [|apply IH]. intros I. apply in_map_iff in I. destruct I as ([k y] & E & I). cbn [fst] in E. subst k.
  apply sel_from_in in I. lia.
Qed.
Lemma near_zenith_iff x : near_zenith x = true <-> (-5 < x /\ x < 15)%Q.
Proof. unfold near_zenith. rewrite andb_true_iff, qgt_iff, qlt_iff. reflexivity. Qed.
Lemma near_angles_filter z : near_angles z (filter near_zenith (present z)).
Proof.
  exists (sel_from 0 z). split; [symmetry; apply sel_from_values|]. split; [apply sel_from_nodup|]. intros i x. rewrite sel_from_in, near_zenith_iff, Nat.sub_0_r.
  split; [intros (_ & N & Z); split; assumption|intros (N & Z); split; [lia|split; assumption]].
Qed.

Lemma zenith_filter z : exists near, near_angles z near /\
  match filter_zenith z with
  | valid => length valid = length z /\
     forall i, nth_error valid i = Some true <-> exists m x, is_median near m /\ nth_error z i = Some (Some x) /\ stable m x
  end.
Proof.
  exists (filter near_zenith (present z)). split; [apply near_angles_filter|]. unfold filter_zenith.
  pose proof (median_iff (filter near_zenith (present z))) as M. destruct (median (filter near_zenith (present z))) as [m|].
  - split; [apply map_length|]. intros i. rewrite nth_error_map'. split.
    + destruct (nth_error z i) as [[x|]|] eqn:E; cbn [option_map]; intros X; try discriminate. exists m, x. split; [exact M|]. split; [reflexivity|].
      apply isclose_iff. congruence.
    + intros (m' & x & M' & N & S). rewrite N. cbn [option_map]. f_equal. apply isclose_iff. pose proof (FreezeProofs.median_unique _ _ _ M M') as Em.
      unfold stable in S. rewrite Em. exact S.
  - split; [apply map_length|]. intros i. rewrite nth_error_map'. split.
    + destruct (nth_error z i); discriminate.
    + intros (m & x & M' & _). apply FreezeProofs.median_nonempty in M'. contradiction.
Qed.
Lemma count_true (l : list bool) : length l - length (filter (fun b => b) l) = length l <-> forall i, nth_error l i <> Some true.
Proof.
  assert (Le : length (filter (fun b : bool => b) l) <= length l). { clear. induction l as [|[|] l IH]; cbn in *; lia. }
  assert (Z : length (filter (fun b : bool => b) l) = 0 <-> forall i, nth_error l i <> Some true).
  { clear. induction l as [|b l IH]; [cbn; split; [intros _ [|i]; discriminate|reflexivity]|]. destruct b; cbn.
    - split; [discriminate|]. intros H. specialize (H 0). cbn in H. congruence.
    - rewrite IH. split; intros H i; [destruct i; [discriminate|apply H]|apply (H (Datatypes.S i))]. }
  rewrite <- Z. destruct l as [|b l]; [cbn; split; reflexivity|]. cbn [List.length] in *. split; intros; lia.
Qed.
Lemma kept_from {A} : forall (l : list A) valid s, length valid = length l ->
  StronglySorted lt (map fst (map fst (filter snd (combine (enumerate_from s l) valid)))) /\
  forall i x, In (i, x) (map fst (filter snd (combine (enumerate_from s l) valid))) <->
    s <= i /\ nth_error l (i - s) = Some x /\ nth_error valid (i - s) = Some true.
Proof.
  induction l as [|a l IH]; intros [|b valid] s L; try discriminate.
  - cbn. split; [constructor|]. intros i x. split; [contradiction|]. intros (_ & X & _). destruct (i - s); discriminate.
  - destruct (IH valid (Datatypes.S s) ltac:(cbn in L; congruence)) as (So & I). cbn [enumerate_from combine filter].
    assert (Sh : forall i x, Datatypes.S s <= i -> (nth_error (a :: l) (i - s) = Some x /\ nth_error (b :: valid) (i - s) = Some true) <->
       (nth_error l (i - Datatypes.S s) = Some x /\ nth_error valid (i - Datatypes.S s) = Some true)).
    { intros i x Li. replace (i - s) with (Datatypes.S (i - Datatypes.S s)) by lia. reflexivity. }
    assert (H0 : forall i x, i = s -> (nth_error (a :: l) (i - s) = Some x /\ nth_error (b :: valid) (i - s) = Some true) <-> x = a /\ b = true).
    { intros i x ->. rewrite Nat.sub_diag. cbn. split; intros (X & Y); split; congruence. }
    assert (Tl : forall i x, In (i, x) (map fst (filter snd (combine (enumerate_from (Datatypes.S s) l) valid))) <->
       Datatypes.S s <= i /\ nth_error (a :: l) (i - s) = Some x /\ nth_error (b :: valid) (i - s) = Some true).
    { intros i x. rewrite I. split; intros (Li & X); (split; [exact Li|]); apply (Sh i x Li); exact X. }
    destruct b; cbn [snd map fst].
    + split.
      * constructor; [exact So|]. rewrite Forall_forall. intros i Hi. apply in_map_iff in Hi. destruct Hi as ([j x] & E & Hi). cbn [fst] in E. subst j.
        apply I in Hi. lia.
      * intros i x. cbn [In]. rewrite Tl. split.
        -- intros [X|(Li & X)]; [|split; [lia|exact X]]. assert (Ei : i = s) by congruence. split; [lia|]. apply (H0 i x Ei). split; [congruence|reflexivity].
        -- intros (Li & X). destruct (Nat.eq_dec i s) as [Ei|Ei]; [left|right; split; [lia|exact X]]. apply (H0 i x Ei) in X. destruct X as (X & _). congruence.
    + split; [exact So|]. intros i x. rewrite Tl. split; intros (Li & X); (split; [|exact X]); [lia|].
      destruct (Nat.eq_dec i s) as [Ei|Ei]; [|lia]. apply (H0 i x Ei) in X. destruct X; discriminate.
Qed.
Lemma zenith_spec elevation : exists near, near_angles (map (option_map (fun e => (90 - e)%Q)) elevation) near /\
  match zenith_profiles elevation with
  | Ok kept => kept <> [] /\ StronglySorted lt (map fst kept) /\ exists m, is_median near m /\
      forall i z, In (i, z) kept <-> exists e, nth_error elevation i = Some (Some e) /\ z = Some (90 - e)%Q /\ stable m (90 - e)
  | Raise e => e = ValidTimeStampError /\
      forall m i e, is_median near m -> nth_error elevation i = Some (Some e) -> ~ stable m (90 - e)
  end.
Proof.
  set (z := map (option_map (fun e => (90 - e)%Q)) elevation). destruct (zenith_filter z) as (near & Na & Lv & V). exists near. split; [exact Na|].
  assert (Nz : forall i x, nth_error z i = Some (Some x) <-> exists e, nth_error elevation i = Some (Some e) /\ x = (90 - e)%Q).
  { intros i x. subst z. rewrite nth_error_map'. destruct (nth_error elevation i) as [[e|]|]; cbn [option_map]; split.
    - intros E. exists e. split; [reflexivity|congruence].
    - intros (e' & E & ->). congruence.
    - discriminate.
    - intros (e' & E & _). discriminate.
    - discriminate.
    - intros (e' & E & _). discriminate. }
  unfold zenith_profiles. cbv zeta. fold z. rewrite <- Lv. destruct (Nat.eqb_spec (length (filter_zenith z) - length (filter (fun b : bool => b) (filter_zenith z))) (length (filter_zenith z))) as [E|E].
  - split; [reflexivity|]. apply (proj1 (count_true (filter_zenith z))) with (i := 0) in E as E0. clear E0. intros m i e M N S.
    apply (proj1 (count_true (filter_zenith z)) E i). apply V. exists m, (90 - e)%Q. split; [exact M|]. split; [|exact S]. apply Nz. exists e. split; [exact N|reflexivity].
  - destruct (kept_from z (filter_zenith z) 0 Lv) as (So & I). fold (enumerate z) in So, I.
    assert (X : exists i, nth_error (filter_zenith z) i = Some true).
    { destruct (in_dec bool_dec true (filter_zenith z)) as [Y|Y]; [apply In_nth_error, Y|]. exfalso. apply E, count_true. intros i Hi. apply Y. apply (nth_error_In _ i), Hi. }
    destruct X as (i0 & X). apply V in X as X'. destruct X' as (m & x & M & N & S). split; [|split; [exact So|]].
    + intros Ee. specialize (I i0 (Some x)). rewrite Ee in I. cbn [In] in I. apply I. rewrite Nat.sub_0_r. split; [lia|split; assumption].
    + exists m. split; [exact M|]. intros i zz. rewrite I, Nat.sub_0_r. split.
      * intros (_ & A & B). apply V in B. destruct B as (m' & y & M' & N' & S'). pose proof (FreezeProofs.median_unique _ _ _ M M') as Em.
        apply Nz in N' as N''. destruct N'' as (e & Ne & ->). exists e. split; [exact Ne|]. split; [congruence|]. unfold stable in *. rewrite Em. exact S'.
      * intros (e & Ne & -> & S'). assert (A : nth_error z i = Some (Some (90 - e)%Q)) by (apply Nz; exists e; split; [exact Ne|reflexivity]).
        split; [lia|]. split; [exact A|]. apply V. exists m, (90 - e)%Q. split; [exact M|split; assumption].
Qed.

(** ** Units and instrument *)
Lemma convert_all_spec : forall factors d out, NoDup (map fst factors) -> convert_all factors d = Ok out ->
  forall k, match lookup k factors with
            | Some c => exists l, lookup k d = Some l /\ lookup k out = Some (map (option_map (fun x => (x * c)%Q)) l)
            | None => lookup k out = lookup k d
            end.
Proof.
  induction factors as [|[k0 c0] factors IH]; intros d out Nd E k; [cbn in E |- *; congruence|].
  cbn [convert_all] in E. apply bind_ok in E. destruct E as (l & Kl & E). unfold key_of in Kl. destruct (lookup k0 d) as [l'|] eqn:L0; [|discriminate].
  assert (l' = l) by congruence. subst l'. cbn [map fst] in Nd. inversion Nd as [|? ? N1 N2]; subst.
  pose proof (IH _ _ N2 E k) as H. cbn [lookup]. destruct (String.eqb_spec k k0) as [Ek|Dk].
  - subst k0. rewrite (proj2 (ConcatProofs.lookup_none _ _ _) N1) in H. exists l. split; [exact L0|]. rewrite H, OutputProofs.set_key_lookup, String.eqb_refl. reflexivity.
  - rewrite OutputProofs.set_key_lookup in H. destruct (String.eqb_spec k k0) as [Ek|_]; [contradiction|]. exact H.
Qed.
Lemma convert_all_ok : forall factors d, (forall k, In k (map fst factors) -> lookup k d <> None) -> exists out, convert_all factors d = Ok out.
Proof.
  induction factors as [|[k0 c0] factors IH]; intros d H; [exists d; reflexivity|]. cbn [convert_all]. unfold key_of.
  destruct (lookup k0 d) as [l|] eqn:L0; [|exfalso; apply (H k0); [left; reflexivity|exact L0]]. cbn [bind]. apply IH. intros k I.
  rewrite OutputProofs.set_key_lookup. destruct (k =? k0)%string; [discriminate|]. apply H. right. exact I.
Qed.
Lemma convert_all_missing : forall factors d k, In k (map fst factors) -> lookup k d = None -> convert_all factors d = Raise KeyError.
Proof.
  induction factors as [|[k0 c0] factors IH]; intros d k I N; [contradiction|]. cbn [convert_all]. unfold key_of.
  destruct (lookup k0 d) as [l|] eqn:L0; [|reflexivity]. cbn [bind]. destruct I as [I|I]; [cbn [fst] in I; congruence|]. apply (IH _ k I).
  rewrite OutputProofs.set_key_lookup. destruct (String.eqb_spec k k0) as [Ek|_]; [congruence|exact N].
Qed.
Lemma unit_factor k c : lookup k unit_factors = Some c -> si_unit k c.
Proof.
  unfold unit_factors, si_unit. cbn [lookup]. repeat match goal with |- context [String.eqb k ?s] => destruct (String.eqb_spec k s) as [Ek|_] end;
    intros E; try discriminate; match type of E with Some ?x = _ => assert (Ec : c = x) by congruence end; rewrite Ec.
  - left. split; [exact Ek|reflexivity].
  - right; left. split; [exact Ek|reflexivity].
  - right; right; left. split; [exact Ek|reflexivity].
  - right; right; right; left. split; [exact Ek|reflexivity].
  - right; right; right; right. split; [exact Ek|reflexivity].
Qed.
Lemma unit_listed k : (exists c, si_unit k c) -> In k (map fst unit_factors).
Proof. intros (c & [(-> & _)|[(-> & _)|[(-> & _)|[(-> & _)|(-> & _)]]]]); cbn; intuition. Qed.
Lemma convert_units_spec d : (forall k c, si_unit k c -> lookup k d <> None) ->
  exists out, convert_units d = Ok out /\
    forall k l, lookup k d = Some l ->
      (forall c, si_unit k c -> exists l', lookup k out = Some l' /\ length l' = length l /\
         forall i, match nth_error l i, nth_error l' i with
                   | Some (Some x), Some (Some y) => (y == x * c)%Q
                   | Some None, Some None => True
                   | None, None => True
                   | _, _ => False
                   end) /\
      ((forall c, ~ si_unit k c) -> lookup k out = Some l).
Proof.
  intros H. destruct (convert_all_ok unit_factors d) as (out & E).
  { intros k I. cbn in I. destruct I as [<-|[<-|[<-|[<-|[<-|[]]]]]]; eapply H; unfold si_unit.
    - left. split; [reflexivity|]. instantiate (1 := 1 # 3600000). reflexivity.
    - right; left. split; [reflexivity|]. instantiate (1 := 1 # 1000). reflexivity.
    - right; right; left. split; [reflexivity|]. instantiate (1 := 1 # 100). reflexivity.
    - right; right; right; left. split; [reflexivity|]. instantiate (1 := 100%Q). reflexivity.
    - right; right; right; right. split; [reflexivity|]. instantiate (1 := 1000 # 3600). reflexivity. }
  exists out. split; [exact E|]. intros k l L.
  assert (Nd : NoDup (map fst unit_factors)).
  { cbn. repeat (constructor; [cbn; intros X; repeat (destruct X as [X|X]; [discriminate|]); exact X|]). constructor. }
  pose proof (convert_all_spec unit_factors d out Nd E k) as S. split.
  - intros c C. destruct (lookup k unit_factors) as [c'|] eqn:Lc.
    + destruct S as (l0 & L0 & Lo). assert (l0 = l) by congruence. subst l0. eexists. split; [exact Lo|]. split; [apply map_length|]. intros i.
      rewrite nth_error_map'. destruct (nth_error l i) as [[x|]|]; cbn [option_map]; [|exact I|exact I].
      apply unit_factor in Lc. assert (Ec : (c' == c)%Q); [|rewrite Ec; reflexivity].
      unfold si_unit in C, Lc. clear - C Lc. destruct C as [(K & C)|[(K & C)|[(K & C)|[(K & C)|(K & C)]]]]; subst k;
        destruct Lc as [(K & D)|[(K & D)|[(K & D)|[(K & D)|(K & D)]]]]; try discriminate; lra.
    + exfalso. assert (X : In k (map fst unit_factors)) by (apply unit_listed; exists c; exact C). apply ConcatProofs.lookup_none in Lc. contradiction.
  - intros C. destruct (lookup k unit_factors) as [c'|] eqn:Lc; [exfalso; apply (C c'), unit_factor, Lc|]. rewrite S. exact L.
Qed.
Lemma near_frequency_iff x y : (y == 35 \/ y == 94)%Q -> (near_frequency x y = true <-> (y - (1 # 10) <= x /\ x <= y + (1 # 10))%Q).
Proof.
  intros Y. unfold near_frequency. rewrite Qle_bool_iff. assert (B : (Qabs (x - y) <= (1 # 10) <-> y - (1 # 10) <= x /\ x <= y + (1 # 10))%Q).
  { rewrite Qabs_Qle_condition. split; intros (A & B); split; lra. }
  rewrite <- B. unfold qmax. split.
  - intros H. destruct (Qle_bool ((1 # 1000000000) * (if Qle_bool (Qabs x) (Qabs y) then Qabs y else Qabs x)) (1 # 10)) eqn:Em; [exact H|].
    exfalso. revert H Em. rewrite <- not_true_iff_false, Qle_bool_iff. destruct (Qle_bool (Qabs x) (Qabs y)) eqn:Ex.
    + intros _ N. apply N. revert Y. abs_cases; intros; lra.
    + revert Ex Y. rewrite <- not_true_iff_false, Qle_bool_iff. abs_cases; intros; lra.
  - intros H. destruct (Qle_bool ((1 # 1000000000) * (if Qle_bool (Qabs x) (Qabs y) then Qabs y else Qabs x)) (1 # 10)) eqn:Em; [exact H|].
    apply not_true_iff_false in Em. rewrite Qle_bool_iff in Em. clear B. lra.
Qed.
Lemma rpg_model_spec f : match rpg_model f with
  | Ok s => (s = "RPG-FMCW-35" /\ 35 - (1 # 10) <= f /\ f <= 35 + (1 # 10))%Q \/ (s = "RPG-FMCW-94" /\ 94 - (1 # 10) <= f /\ f <= 94 + (1 # 10))%Q
  | Raise e => e = RuntimeError /\ (~ (35 - (1 # 10) <= f /\ f <= 35 + (1 # 10)) /\ ~ (94 - (1 # 10) <= f /\ f <= 94 + (1 # 10)))%Q
  end.
Proof.
  unfold rpg_model. pose proof (near_frequency_iff f 35 ltac:(left; reflexivity)) as A. pose proof (near_frequency_iff f 94 ltac:(right; reflexivity)) as B.
  destruct (near_frequency f 35); [left; split; [reflexivity|apply A; reflexivity]|]. destruct (near_frequency f 94); [right; split; [reflexivity|apply B; reflexivity]|].
  split; [reflexivity|]. split; intros X; [apply A in X|apply B in X]; discriminate.
Qed.
