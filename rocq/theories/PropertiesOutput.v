(** Properties C36-C40, C59-C61: text attributes, copying, concatenation. *)
From Verif Require Import Base OutputModel OutputSpec OutputProofs
  ConcatModel ConcatSpec ConcatProofs.
Open Scope nat_scope.

(** ** C36: history. *)
(** [ls] are the lines the inputs contribute.  The history consists of the new
    record and a list [l] of lines which has each of them exactly once, newest
    first; lines of equal time, and lines without a readable time, keep the order
    of their first occurrence; lines without a readable time come last. *)
Theorem C36_history : forall strptime tmin now file_type sources ls,
  Forall2 source_lines sources ls -> one_line now -> one_line file_type ->
  exists l,
    lines_of (merge_history strptime tmin now file_type sources)
      ((now ++ " - " ++ file_type ++ " file created")%string :: l) /\
    NoDup l /\ (forall line, In line l <-> In line (List.concat ls)) /\
    (forall a b ta tb, before l a b -> stamped strptime a ta -> stamped strptime b tb ->
       (tb <= ta)%Z) /\
    (forall a b t, a <> b -> In b l -> stamped strptime a t -> stamped strptime b t ->
       first_before (List.concat ls) a b -> before l a b) /\
    ((forall s t, strptime s = Some t -> (tmin < t)%Z) ->
     forall a b, In a l -> In b l ->
       (exists t, stamped strptime a t) -> ~ (exists t, stamped strptime b t) -> before l a b) /\
    (forall a b, a <> b -> In b l ->
       ~ (exists t, stamped strptime a t) -> ~ (exists t, stamped strptime b t) ->
       first_before (List.concat ls) a b -> before l a b).
Proof. exact merge_history_spec. Qed.
(** Every input has such lines, so the theorem applies to all inputs. *)
Theorem C36_lines_exist : forall sources, exists ls, Forall2 source_lines sources ls.
Proof. exact source_lines_exist. Qed.
(** The time stamp of a line is unique. *)
Theorem C36_stamp_unique : forall strptime line t t',
  stamped strptime line t -> stamped strptime line t' -> t = t'.
Proof.
  intros f line t t' H H'. rewrite <- (parse_stamped f 0%Z _ _ H). apply parse_stamped, H'.
Qed.
Print Assumptions C36_history.
Print Assumptions C36_lines_exist.
Print Assumptions C36_stamp_unique.
Definition ex_strptime (s : string) : option Z :=
  if String.eqb s "3" then Some 3%Z else if String.eqb s "5" then Some 5%Z else None.
Example C36_nonvacuous :
  merge_history ex_strptime 0%Z "9" "lwc"
    [{| hs_history := Some (" 3 - a" ++ nl ++ "x" ++ nl ++ "5 - b")%string; hs_model := false |};
     {| hs_history := Some ("5 - z" ++ nl ++ "5 - c")%string; hs_model := true |};
     {| hs_history := Some "5 - b"%string; hs_model := false |}]
  = ("9 - lwc file created" ++ nl ++ "5 - b" ++ nl ++ "5 - c" ++ nl ++ " 3 - a" ++ nl ++ "x")%string
  /\ stamped ex_strptime " 3 - a" 3%Z.
Proof.
  split; [reflexivity|]. exists " 3"%string, "3"%string. split; [|split].
  - exact (before_dash_head " 3 - a").
  - exact (strip_stripped " 3").
  - reflexivity.
Qed.

(** ** C37: source UUIDs. *)
Theorem C37_uuids : forall us, exists l,
  get_source_uuids us = String.concat ", " l /\
  StronglySorted str_lt l /\ forall u, In u l <-> In (Some u) us.
Proof. exact uuids_spec. Qed.
Theorem C37_canonical : forall us vs,
  (forall u, In (Some u) us <-> In (Some u) vs) -> get_source_uuids us = get_source_uuids vs.
Proof. exact uuids_canonical. Qed.
(** The order is a strict one, so a sorted list has no duplicates. *)
Theorem C37_order_strict : forall s, ~ str_lt s s.
Proof. exact str_lt_irrefl. Qed.
Print Assumptions C37_uuids.
Print Assumptions C37_canonical.
Print Assumptions C37_order_strict.
Example C37_nonvacuous :
  get_source_uuids [Some "b"; None; Some "ab"; Some "b"; Some "a"]%string = "a, ab, b"%string.
Proof. reflexivity. Qed.

(** ** C38: copying. *)
Theorem C38_copy_variables : forall V D (source : ncfile V D) keys target t,
  copy_variables source keys target = Ok t ->
  nf_dims t = nf_dims target /\ nf_attrs t = nf_attrs target /\
  exists added, nf_vars t = nf_vars target ++ added /\ NoDup (map fst added) /\
    (forall k, In k (map fst added) <->
       In k keys /\ lookup k (nf_vars source) <> None /\ lookup k (nf_vars target) = None) /\
    forall k v, In (k, v) added ->
      exists w, lookup k (nf_vars source) = Some w /\ same_variable v w.
Proof. intros V D. exact copy_variables_ok. Qed.
(** It fails exactly if a variable to be copied has a dimension that the target
    lacks. *)
Theorem C38_copy_fails : forall V D (source : ncfile V D) keys target e,
  copy_variables source keys target = Raise e <->
  e = KeyError /\ exists k v, In k keys /\ lookup k (nf_vars source) = Some v /\
    lookup k (nf_vars target) = None /\ ~ incl (nv_dims v) (nf_dims target).
Proof. intros V D. exact copy_variables_raise. Qed.
Theorem C38_copy_global : forall V D (source : ncfile V D) attrs target,
  let t := copy_global source attrs target in
  nf_dims t = nf_dims target /\ nf_vars t = nf_vars target /\
  forall a, (forall v, In a attrs -> lookup a (nf_attrs source) = Some v -> lookup a (nf_attrs t) = Some v) /\
            (~ In a attrs \/ lookup a (nf_attrs source) = None ->
             lookup a (nf_attrs t) = lookup a (nf_attrs target)).
Proof. intros V D. exact copy_global_spec. Qed.
Print Assumptions C38_copy_variables.
Print Assumptions C38_copy_fails.
Print Assumptions C38_copy_global.
Definition ex_source : ncfile nat (list nat) := {|
  nf_dims := ["time"]%string;
  nf_vars := [("time"%string, {| nv_dims := ["time"]%string; nv_attrs := [("units"%string, 1); ("_FillValue"%string, 2)]; nv_data := [1; 2] |});
              ("altitude"%string, {| nv_dims := []; nv_attrs := []; nv_data := [7] |})];
  nf_attrs := [("day"%string, 5)] |}.
Definition ex_target : ncfile nat (list nat) := {|
  nf_dims := ["time"]%string;
  nf_vars := [("altitude"%string, {| nv_dims := []; nv_attrs := []; nv_data := [8] |})];
  nf_attrs := [("day"%string, 4); ("x"%string, 0)] |}.
Example C38_nonvacuous :
  (exists t, copy_variables ex_source ["altitude"; "time"; "height"]%string ex_target = Ok t /\
             map fst (nf_vars t) = ["altitude"; "time"]%string) /\
  nf_attrs (copy_global ex_source ["day"; "year"]%string ex_target) = [("day"%string, 5); ("x"%string, 0)].
Proof. split; [eexists; split; reflexivity|reflexivity]. Qed.

(** ** C59: source attribute. *)
Theorem C59_source_names : forall sources text,
  source_names sources = Some text ->
  exists l, lines_of text l /\ StronglySorted str_lt l /\
    forall line, In line l <-> exists h ls, In (Some h) sources /\ lines_of h ls /\ In line ls.
Proof. exact source_names_spec. Qed.
Theorem C59_no_source : forall sources,
  source_names sources = None <-> forall s, ~ In (Some s) sources.
Proof. exact source_names_none. Qed.
Theorem C59_canonical : forall us vs,
  (forall u, In (Some u) us <-> In (Some u) vs) -> source_names us = source_names vs.
Proof. exact source_names_canonical. Qed.
Theorem C59_pids : forall pids,
  match source_pids pids with
  | None => forall p, In (Some p) pids -> p = ""%string
  | Some text => exists l, l <> [] /\ text = unlines l /\ StronglySorted str_lt l /\
      forall p, In p l <-> In (Some p) pids /\ p <> ""%string
  end.
Proof. exact source_pids_spec. Qed.
(** Product files with extra inputs: full statement as long as every extra input
    has a one-line source.  Missing: extra inputs with several lines. *)
Theorem C59_extra_sources_partial : forall existing extras text,
  Forall one_line extras -> append_extra_sources existing extras = Some text -> extras <> [] ->
  forall old, match existing with None => old = [] | Some s => lines_of s old end ->
  exists l, lines_of text l /\ NoDup l /\
    (forall x, In x l <-> In x old \/ (In x extras /\ x <> ""%string)) /\
    (forall a b, a <> b -> In b l ->
       first_before (old ++ filter (fun s => negb (String.eqb s "")) extras) a b -> before l a b).
Proof. exact append_extra_spec. Qed.
(** An extra input with a two-line source repeats a name already listed. *)
Theorem C59_each_source_once_refuted : exists existing extras text l,
  append_extra_sources existing extras = Some text /\ lines_of text l /\ ~ NoDup l.
Proof.
  exists (Some "A"%string), ["A" ++ nl ++ "B"]%string, ("A" ++ nl ++ "A" ++ nl ++ "B")%string,
    ["A"; "A"; "B"]%string.
  split; [reflexivity|]. split; [exact (split_nl_lines ("A" ++ nl ++ "A" ++ nl ++ "B"))|].
  intros N. inversion N as [|? ? H _]. apply H. left. reflexivity.
Qed.
Print Assumptions C59_source_names.
Print Assumptions C59_no_source.
Print Assumptions C59_canonical.
Print Assumptions C59_pids.
Print Assumptions C59_extra_sources_partial.
Print Assumptions C59_each_source_once_refuted.
Example C59_nonvacuous :
  source_names [Some ("M" ++ nl ++ "C"); None; Some "M"]%string = Some ("C" ++ nl ++ "M")%string /\
  append_extra_sources (Some "C"%string) ["ECMWF"; "C"; ""]%string = Some ("C" ++ nl ++ "ECMWF")%string.
Proof. split; reflexivity. Qed.

(** ** C39: concatenation. *)
(** All files readable: the files taking part, in name order; every variable of
    the first file (as selected) has, file by file, the profiles of that file, or
    as many masked profiles if the file lacks the variable. *)
Theorem C39_rows : forall files keep ignore lst out,
  Forall file_ok files -> Forall (fun f => cf_broken f = []) files ->
  (forall l, ignore = Some l -> ~ In "time"%string l) ->
  concatenate_files files keep ignore = Ok (lst, out) ->
  exists first rest xt sizes,
    lst = first :: rest /\ in_name_order files lst /\ cf_range first = Some xt /\
    Forall2 steps lst sizes /\ co_n out = list_sum sizes /\
    (forall k, (exists v, In (k, v) (cf_vars first) /\ selected keep ignore k v) ->
       exists blocks, read_var out k = Some (List.concat blocks) /\
         Forall2 (fun fs b => contributes xt (fst fs) (snd fs) k b) (combine lst sizes) blocks) /\
    (forall k, ~ (exists v, In (k, v) (cf_vars first) /\ selected keep ignore k v) ->
       read_var out k = None).
Proof. exact concat_rows. Qed.
Theorem C39_succeeds : forall files keep ignore,
  Forall file_ok files ->
  (forall f, In f files -> exists x, cf_range f = Some x /\ x <> []) ->
  Forall (fun f => cf_broken f = []) files ->
  (forall l, ignore = Some l -> ~ In "time"%string l) ->
  (exists f, In f files /\ takes_part f) ->
  exists r, concatenate_files files keep ignore = Ok r.
Proof. exact concat_total. Qed.
Theorem C39_none_takes_part : forall files keep ignore,
  Forall file_ok files -> (forall f, In f files -> cf_range f <> None) ->
  (forall f, In f files -> ~ takes_part f) ->
  concatenate_files files keep ignore = Raise ValidTimeStampError.
Proof. exact concat_none_valid. Qed.
(** A file with profiles but without a range variable makes the call fail. *)
Theorem C39_missing_range : forall files keep ignore f,
  Forall file_ok files -> In f files -> (exists n, steps f n /\ 0 < n) -> cf_range f = None ->
  concatenate_files files keep ignore = Raise IndexError.
Proof. exact concat_missing_range. Qed.
Print Assumptions C39_rows.
Print Assumptions C39_succeeds.
Print Assumptions C39_none_takes_part.
Print Assumptions C39_missing_range.
Definition one (q : Q) : list (masked Q) := [Some q].
Definition ex_a : cfile := {| cf_name := "a"; cf_range := Some [1; 2]%Q; cf_broken := [];
  cf_vars := [("time", Series false [one 0; one 1]);
              ("v", Series true [[Some 5; None]; [Some 6; Some 7]]);
              ("lat", Static false (one 60)); ("w", Series false [one 8; one 9])]%Q%string |}.
Definition ex_b : cfile := {| cf_name := "b"; cf_range := Some [1; 3; 4]%Q; cf_broken := [];
  cf_vars := [("time", Series false [one 2]); ("v", Series true [[Some 1; Some 2; Some 3]]);
              ("lat", Static false (one 61))]%Q%string |}.
Definition ex_empty : cfile := {| cf_name := "0"; cf_range := Some [1]%Q; cf_broken := [];
  cf_vars := [("time", Series false [])]%string |}.
Example C39_nonvacuous :
  exists out, concatenate_files [ex_b; ex_empty; ex_a] None None = Ok ([ex_a; ex_b], out) /\
    co_n out = 3 /\
    read_var out "v" = Some [Some [Some 5; None]; Some [Some 6; Some 7]; Some [Some 1; Some 1]]%Q /\
    read_var out "lat" = Some [Some (one 60); Some (one 60); Some (one 61)] /\
    read_var out "w" = Some [Some (one 8); Some (one 9); None] /\
    Forall file_ok [ex_b; ex_empty; ex_a].
Proof.
  eexists. split; [reflexivity|]. split; [reflexivity|]. split; [reflexivity|].
  split; [reflexivity|]. split; [reflexivity|].
  assert (D : forall a b : string, a <> b -> ~ (a = b)) by auto.
  repeat constructor; simpl; try (intros H; repeat (destruct H as [H|H]; [discriminate|]); exact H);
    (eexists _, _; split; [left; reflexivity|]); intros k r rows H;
    repeat (destruct H as [H|H]; [(discriminate H || injection H as <- <- <-; reflexivity)|]); destruct H.
Qed.

(** ** C60: files with read errors. *)
(** For any files: variables stay aligned.  Every file occupies the same time
    steps in all variables, either none or as many as it has; readable files
    contribute their profiles, and the returned list names exactly them. *)
Theorem C60_alignment : forall files keep ignore lst out,
  Forall file_ok files -> concatenate_files files keep ignore = Ok (lst, out) ->
  exists first rest xt keys sizes flags,
    let order := first :: rest in
    in_name_order files order /\ cf_range first = Some xt /\
    (forall k, In k keys <-> exists v, In (k, v) (cf_vars first) /\ selected keep ignore k v) /\
    Forall2 (fun f b => b = true <-> readable keys f) order flags /\ readable keys first /\
    lst = map fst (filter snd (combine order flags)) /\
    Forall2 (fun f s => (s = 0 \/ steps f s) /\ (readable keys f -> keys <> [] -> steps f s)) order sizes /\
    co_n out = list_sum sizes /\
    (forall k, ~ In k keys -> read_var out k = None) /\
    forall k, In k keys -> exists blocks,
      read_var out k = Some (List.concat blocks) /\
      Forall2 (fun fs b => List.length b = snd fs /\
                 (readable keys (fst fs) -> contributes xt (fst fs) (snd fs) k b))
        (combine order sizes) blocks.
Proof. exact concat_spec. Qed.
(** A file that is left out of the returned list can leave time steps in the
    output. *)
Definition ex_bad : cfile := {| cf_name := "b"; cf_range := Some [1; 2]%Q; cf_broken := ["v"]%string;
  cf_vars := [("time", Series false [one 2]); ("v", Series true [[Some 1; Some 2]])]%Q%string |}.
Theorem C60_skipped_file_leaves_nothing_refuted : exists files lst out f t,
  concatenate_files files None None = Ok (lst, out) /\
  In f files /\ ~ In f lst /\
  In ("time"%string, Series false [t]) (cf_vars f) /\
  (forall g r rows, In g lst -> In ("time"%string, Series r rows) (cf_vars g) -> ~ In t rows) /\
  exists rows, read_var out "time" = Some rows /\ In (Some t) rows.
Proof.
  exists [ex_a; ex_bad], [ex_a]. eexists. exists ex_bad, (one 2).
  split; [reflexivity|]. split; [right; left; reflexivity|].
  split; [intros [H|[]]; discriminate|]. split; [left; reflexivity|]. split.
  - intros g r rows [<-|[]] H. simpl in H.
    repeat (destruct H as [H|H]; [(discriminate H || injection H as <- <-)|]); [|destruct H].
    intros [H|[H|[]]]; discriminate.
  - eexists. split; [reflexivity|]. simpl. auto.
Qed.
Print Assumptions C60_alignment.
Print Assumptions C60_skipped_file_leaves_nothing_refuted.
Example C60_nonvacuous :
  exists out, concatenate_files [ex_a; ex_bad] None None = Ok ([ex_a], out) /\
    co_n out = 3 /\ read_var out "w" = Some [Some (one 8); Some (one 9); None] /\
    read_var out "v" = Some [Some [Some 5; None]; Some [Some 6; Some 7]; None]%Q.
Proof. eexists. repeat split; reflexivity. Qed.

(** ** C40: appending to an existing file. *)
Theorem C40_return_value : forall o n,
  match update_nc (Some o) (Some n) with
  | Ok (r, u) => uf_time o <> [] /\
      ((r = 1 /\ u <> None /\ exists t, In t (uf_time n) /\ newer (uf_time o) t) \/
       (r = 0 /\ u = None /\ forall t, In t (uf_time n) -> ~ newer (uf_time o) t))
  | Raise e => e = IndexError /\ uf_time o = []
  end.
Proof. exact update_nc_return. Qed.
Theorem C40_unreadable_file : forall f, update_nc None f = Ok (0, None) /\ update_nc f None = Ok (0, None).
Proof. intros f. split; [reflexivity|destruct f; reflexivity]. Qed.
(** What the file contains afterwards: the old profiles unchanged, then the new
    file's profiles up to its last newer one, with the newer ones in place and
    masked profiles instead of the others.  Variables the new file lacks, and
    those with three or more dimensions, get masked profiles only. *)
Theorem C40_content : forall o n u,
  aligned o -> aligned n -> update_nc (Some o) (Some n) = Ok (1, Some u) ->
  exists m tail,
    un_time u = map Some (uf_time o) ++ tail /\
    newer_in_place (uf_time o) (uf_time n) (uf_time n) m tail /\
    (forall k, In (k, Other) (uf_vars o) -> lookup k (un_vars u) = Some None) /\
    forall k rows, In (k, Profiles rows) (uf_vars o) \/ In (k, Deep rows) (uf_vars o) ->
      exists tail', lookup k (un_vars u) = Some (Some (map Some rows ++ tail')) /\
        List.length tail' = m /\
        (forall data, In (k, Profiles data) (uf_vars n) ->
           newer_in_place (uf_time o) (uf_time n) data m tail') /\
        ((forall data, ~ In (k, Profiles data) (uf_vars n)) -> Forall (eq None) tail').
Proof. exact update_nc_content. Qed.
(** The full claim if all profiles of the new file are newer.  Missing: new files
    that overlap the old one. *)
Theorem C40_directly_follows_partial : forall o n u,
  aligned o -> aligned n -> update_nc (Some o) (Some n) = Ok (1, Some u) ->
  (forall t, In t (uf_time n) -> newer (uf_time o) t) ->
  un_time u = map Some (uf_time o ++ uf_time n) /\
  forall k rows data,
    In (k, Profiles rows) (uf_vars o) -> In (k, Profiles data) (uf_vars n) ->
    lookup k (un_vars u) = Some (Some (map Some (rows ++ data))).
Proof.
  intros o n u Ho Hn H Hall.
  destruct (update_nc_content o n u Ho Hn H) as (m & tail & E & P & _ & R). split.
  - rewrite E, (in_place_all _ _ _ _ _ _ P eq_refl Hall), map_app. reflexivity.
  - intros k rows data I J. destruct (R k rows (or_introl I)) as (tail' & L & _ & Q & _).
    rewrite L, map_app. do 3 f_equal.
    apply (in_place_all _ _ _ _ _ _ (Q data J)); [|exact Hall].
    apply (proj2 Hn k data). left. exact J.
Qed.
(** With an overlap there are gap profiles. *)
Definition ex_old : ufile := {| uf_time := [0; 1; 2]%Q;
  uf_vars := [("v", Profiles [one 5; one 6; one 7]); ("d", Deep [one 1; one 1; one 1])]%Q%string |}.
Definition ex_new : ufile := {| uf_time := [1; 2; 3]%Q;
  uf_vars := [("v", Profiles [one 6; one 7; one 8]); ("d", Deep [one 1; one 1; one 1])]%Q%string |}.
Definition ex_next : ufile := {| uf_time := [3; 4]%Q;
  uf_vars := [("v", Profiles [one 8; one 9]); ("d", Deep [one 1; one 1])]%Q%string |}.
Theorem C40_no_gap_refuted : exists o n u,
  aligned o /\ aligned n /\ update_nc (Some o) (Some n) = Ok (1, Some u) /\
  un_time u = [Some 0; Some 1; Some 2; None; None; Some 3]%Q /\
  lookup "v" (un_vars u) =
    Some (Some [Some (one 5); Some (one 6); Some (one 7); None; None; Some (one 8)]).
Proof.
  exists ex_old, ex_new. eexists.
  assert (A : aligned ex_old /\ aligned ex_new).
  { split; (split; [repeat constructor; simpl; intros H; repeat (destruct H as [H|H]; [discriminate|]); exact H|]);
      intros k rows [H|H]; simpl in H;
      repeat (destruct H as [H|H]; [(discriminate H || injection H as <- <-; reflexivity)|]); destruct H. }
  split; [apply A|]. split; [apply A|]. repeat split; reflexivity.
Qed.
(** Profiles of variables with three or more dimensions are lost, even without an
    overlap. *)
Theorem C40_deep_variables_appended_refuted : exists o n u data,
  update_nc (Some o) (Some n) = Ok (1, Some u) /\
  (forall t, In t (uf_time n) -> newer (uf_time o) t) /\
  In ("d"%string, Deep data) (uf_vars n) /\ data <> [] /\
  lookup "d" (un_vars u) = Some (Some [Some (one 1); Some (one 1); Some (one 1); None; None]).
Proof.
  exists ex_old, ex_next. eexists. exists [one 1; one 1].
  split; [reflexivity|]. split.
  - intros t I. exists [0; 1]%Q, 2%Q. split; [reflexivity|].
    destruct I as [<-|[<-|[]]]; reflexivity.
  - split; [right; left; reflexivity|]. split; [discriminate|reflexivity].
Qed.
Print Assumptions C40_return_value.
Print Assumptions C40_unreadable_file.
Print Assumptions C40_content.
Print Assumptions C40_directly_follows_partial.
Print Assumptions C40_no_gap_refuted.
Print Assumptions C40_deep_variables_appended_refuted.
Example C40_nonvacuous :
  exists u, update_nc (Some ex_old) (Some ex_next) = Ok (1, Some u) /\
    un_time u = map Some [0; 1; 2; 3; 4]%Q /\
    lookup "v" (un_vars u) = Some (Some (map Some [one 5; one 6; one 7; one 8; one 9])).
Proof. eexists. repeat split; reflexivity. Qed.

(** ** C61: nearest gates. *)
(** A profile is put on other gates by taking the value of a nearest gate (the
    first of equally near ones), masked outside the file's range. *)
Theorem C61_nearest : forall x xt row, x <> [] -> List.length row = List.length x ->
  resampled x xt row (interpolate_profile x xt row).
Proof. exact interpolate_resampled. Qed.
(** Gates that the two files have in common keep their value. *)
Theorem C61_common_gates : forall x xt row i j t, NoDup x ->
  List.length row = List.length x -> (forall a b, In a x -> In b x -> a == b -> a = b)%Q ->
  nth_error x i = Some t -> nth_error xt j = Some t ->
  nth_error (interpolate_profile x xt row) j = nth_error row i.
Proof.
  intros x xt row i j t N El Hq Ei Ej.
  assert (It : In t x) by (apply (nth_error_In _ _ Ei)).
  assert (Nx : x <> []) by (intros ->; destruct It).
  destruct (interpolate_resampled x xt row Nx El) as [_ R]. destruct (R j t Ej) as [_ R2].
  destruct R2 as (i' & a & Ea & Er & Hmin & _).
  { exists t, t. split; [exact It|]. split; [exact It|]. split; apply Qle_refl. }
  specialize (Hmin t It).
  assert (Z : (a == t)%Q).
  { assert (T0 : (Qabs (t - t) == 0)%Q).
    { assert (E0 : (t - t == 0)%Q) by ring. rewrite E0. reflexivity. }
    rewrite T0 in Hmin. apply Qabs_Qle_condition in Hmin. destruct Hmin as [H1 H2].
    assert (E : (a - t == 0)%Q) by (apply Qle_antisym; [exact H2|exact H1]).
    transitivity ((a - t) + t)%Q; [ring|]. rewrite E. ring. }
  assert (a = t) by (apply Hq; [apply (nth_error_In _ _ Ea)|exact It|exact Z]). subst a.
  assert (i' = i).
  { apply (proj1 (NoDup_nth_error x) N); [apply (nth_error_Some_lt _ _ _ Ea)|congruence]. }
  subst i'. exact Er.
Qed.
Print Assumptions C61_nearest.
Print Assumptions C61_common_gates.
Example C61_nonvacuous :
  interpolate_profile [1; 3; 4]%Q [0; 1; 2; 3; 5]%Q [Some 10; Some 30; None]%Q
  = [None; Some 10; Some 10; Some 30; None]%Q.
Proof. reflexivity. Qed.
