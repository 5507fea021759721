(** Properties of the input files of the categorize product (C102 to C106). *)
From Verif Require Import Base ArrayModel FillModel FillProofs TimeModel GridModel GridSpec GridProofs ImageModel ImageProofs OutputModel TelegramModel
  MpProofs SourceModel SourceSpec SourceProofs.
From Coq Require Import Qabs String Lqa.
Open Scope string_scope.
Open Scope nat_scope.
Open Scope list_scope.
Local Notation length := List.length (only parsing).
Local Notation dict := OutputModel.dict (only parsing).

(** ** C102: times and heights of an input file *)
(** Times of at most 25 are hours and unchanged.  Any later time makes all of them
    seconds, which become hours of the day. *)
Theorem C102_time : forall s o, open_source s = Ok o ->
  s_time s <> [] /\
  ((forall t, In t (s_time s) -> t <= 25)%Q -> o_time o = s_time s) /\
  ((exists t, In t (s_time s) /\ 25 < t)%Q -> clock (s_time s) (o_time o)).
Proof.
  intros s o H. unfold open_source in H. apply bind_ok in H as (time & T & H). apply bind_ok in H as (a & _ & H). apply bind_ok in H as (h & _ & H).
  assert (Eo : o_time o = time) by (injection H as <-; reflexivity). rewrite Eo. clear H Eo a h.
  destruct (init_time_spec (s_time s)) as (A & B & C). split; [|split].
  - intros E. rewrite (A E) in T. discriminate.
  - intros L. destruct (s_time s) as [|t r] eqn:E; [cbn in T; discriminate|]. rewrite (B ltac:(discriminate) L) in T. congruence.
  - intros L. destruct (C L) as (out & Eo & K). assert (out = time) by congruence. subst. exact K.
Qed.

(** The altitude is the mean of the visible values in metres; there is none exactly if
    no value is visible. *)
Theorem C102_altitude : forall s o, open_source s = Ok o ->
  match s_altitude s with
  | None => o_altitude o = None
  | Some (units, l) =>
      (visible_values l = [] /\ o_altitude o = None) \/
      (exists f a, metres units f /\ o_altitude o = Some a /\ is_mean a (map (fun x => x * f)%Q (visible_values l)))
  end.
Proof.
  intros s o H. unfold open_source in H. apply bind_ok in H as (time & T & H). apply bind_ok in H as (a & A & H). apply bind_ok in H as (h & _ & H).
  assert (Eo : o_altitude o = a) by (injection H as <-; reflexivity). rewrite Eo. clear H Eo h T.
  pose proof (init_altitude_spec (s_altitude s)) as S. destruct (s_altitude s) as [[units l]|]; [|congruence].
  destruct S as (S1 & S2 & S3). destruct (visible_values l) as [|v r] eqn:E; [left; split; [reflexivity|rewrite S1 in A by reflexivity; congruence]|].
  right. destruct (metres_dec units) as [[f F]|F].
  - destruct (S2 ltac:(discriminate) f F) as (m & M & K). exists f, m. split; [exact F|]. split; [congruence|exact K].
  - rewrite (S3 ltac:(discriminate) F) in A. discriminate.
Qed.

(** The heights are those of the file, in metres; without them they are the range plus
    the altitude, and the height above the ground is then the range. *)
Theorem C102_height : forall s o, open_source s = Ok o ->
  (match s_height s with
   | Some v => exists f, metres (fst v) f /\ o_height o = Some (map (fun x => x * f)%Q (snd v))
   | None =>
       match s_range s, o_altitude o with
       | Some v, Some a => exists f agl, metres (fst v) f /\ o_height o = Some (map (fun x => x * f + a)%Q (snd v)) /\
           o_height_agl o = Some agl /\ Forall2 (fun x y => x * f == y)%Q (snd v) agl
       | _, _ => o_height o = None
       end
   end) /\
  (forall h a, o_height o = Some h -> o_altitude o = Some a ->
     exists agl, o_height_agl o = Some agl /\ Forall2 (fun x y => x == y + a)%Q h agl) /\
  (o_height o = None \/ o_altitude o = None -> o_height_agl o = None).
Proof.
  intros s o H. unfold open_source in H. apply bind_ok in H as (time & T & H). apply bind_ok in H as (a & A & H). apply bind_ok in H as (h & Hh & H).
  assert (Eo : o = {| o_time := time; o_altitude := a; o_height := h; o_height_agl := match h, a with Some h, Some a => Some (map (fun x => (x - a)%Q) h) | _, _ => None end |}) by congruence.
  clear H. subst o. cbn [o_time o_altitude o_height o_height_agl]. clear T A time. split; [|split].
  - unfold init_height in Hh. destruct (s_height s) as [v|].
    + destruct (to_m_spec v) as [M1 M2]. destruct (metres_dec (fst v)) as [[f F]|F]; [|rewrite (M2 F) in Hh; discriminate].
      rewrite (M1 f F) in Hh. cbn [bind] in Hh. exists f. split; [exact F|congruence].
    + destruct (s_range s) as [v|]; [|destruct a; congruence]. destruct a as [a|]; [|congruence].
      destruct (to_m_spec v) as [M1 M2]. destruct (metres_dec (fst v)) as [[f F]|F]; [|rewrite (M2 F) in Hh; discriminate].
      rewrite (M1 f F) in Hh. cbn [bind] in Hh. rewrite map_map in Hh. assert (h = Some (map (fun x => (x * f + a)%Q) (snd v))) by congruence. subst h.
      exists f. eexists. split; [exact F|]. split; [reflexivity|]. split; [reflexivity|]. rewrite map_map.
      clear. induction (snd v) as [|x l IH]; [apply Forall2_nil|apply Forall2_cons; [ring|exact IH]].
  - intros h' a' -> ->. eexists. split; [reflexivity|]. clear. induction h' as [|x l IH]; [apply Forall2_nil|apply Forall2_cons; [ring|exact IH]].
  - intros [->| ->]; [reflexivity|destruct h; reflexivity].
Qed.

(** A file is read exactly if it has times and known units wherever they are needed. *)
Theorem C102_succeeds_iff : forall s, (exists o, open_source s = Ok o) <->
  s_time s <> [] /\
  (forall units l, s_altitude s = Some (units, l) -> visible_values l <> [] -> exists f, metres units f) /\
  (forall v, s_height s = Some v -> exists f, metres (fst v) f) /\
  (forall v units l, s_height s = None -> s_range s = Some v -> s_altitude s = Some (units, l) -> visible_values l <> [] ->
     exists f, metres (fst v) f).
Proof.
  intros s. split.
  - intros [o H]. pose proof (C102_time s o H) as (T & _). pose proof (C102_altitude s o H) as A. pose proof (C102_height s o H) as (Hh & _).
    split; [exact T|]. split; [|split].
    + intros units l E N. rewrite E in A. destruct A as [[A _]|(f & a & F & _)]; [contradiction|exists f; exact F].
    + intros v E. rewrite E in Hh. destruct Hh as (f & F & _). exists f. exact F.
    + intros v units l E R Al N. rewrite E, R in Hh. rewrite Al in A. destruct A as [[A _]|(f & a & F & Ea & _)]; [contradiction|].
      rewrite Ea in Hh. destruct Hh as (g & agl & G & _). exists g. exact G.
  - intros (T & A & Hh & R). unfold open_source. destruct (init_time_spec (s_time s)) as (_ & T1 & T2).
    assert (Et : exists time, init_time (s_time s) = Ok time).
    { destruct (some_above (s_time s)) as [Y|N]; [destruct (T2 Y) as (o & O & _); exists o; exact O|]. exists (s_time s). apply T1; [exact T|exact N]. }
    destruct Et as [time Et]. rewrite Et. cbn [bind]. clear T T1 T2 Et.
    pose proof (init_altitude_spec (s_altitude s)) as S.
    assert (Ea : exists a, init_altitude (s_altitude s) = Ok a /\
      (a <> None -> exists units l, s_altitude s = Some (units, l) /\ visible_values l <> [])).
    { destruct (s_altitude s) as [[units l]|]; [|exists None; split; [exact S|congruence]]. destruct S as (S1 & S2 & _).
      destruct (visible_values l) as [|x r] eqn:V; [exists None; split; [apply S1; reflexivity|congruence]|].
      destruct (A units l eq_refl ltac:(congruence)) as [f F]. destruct (S2 ltac:(discriminate) f F) as (a & E & _). exists (Some a). split; [exact E|].
      intros _. exists units, l. split; [reflexivity|congruence]. }
    destruct Ea as (a & Ea & Na). rewrite Ea. cbn [bind].
    assert (Eh : exists h, init_height s a = Ok h).
    { unfold init_height. destruct (s_height s) as [v|].
      - destruct (Hh v eq_refl) as [f F]. rewrite (proj1 (to_m_spec v) f F). cbn [bind]. eexists. reflexivity.
      - destruct (s_range s) as [v|]; [|eexists; reflexivity]. destruct a as [a|]; [|eexists; reflexivity].
        destruct (Na ltac:(discriminate)) as (units & l & E & N). destruct (R v units l eq_refl eq_refl E N) as [f F].
        rewrite (proj1 (to_m_spec v) f F). cbn [bind]. eexists. reflexivity. }
    destruct Eh as [h Eh]. rewrite Eh. cbn [bind]. eexists. reflexivity.
Qed.

(** The only errors: a file without times, and unknown units. *)
Theorem C102_errors : forall s e, open_source s = Raise e ->
  (s_time s = [] /\ e = ValidTimeStampError) \/ (s_time s <> [] /\ e = ValueError).
Proof.
  intros s e H. destruct (s_time s) as [|t r] eqn:E; [left; unfold open_source in H; rewrite E in H; cbn [init_time bind] in H; split; congruence|right].
  split; [discriminate|]. unfold open_source in H. rewrite E in H. destruct (init_time_spec (t :: r)) as (_ & T1 & T2).
  assert (Et : exists time, init_time (t :: r) = Ok time).
  { destruct (some_above (t :: r)) as [Y|N]; [destruct (T2 Y) as (o & O & _); exists o; exact O|]. exists (t :: r). apply T1; [discriminate|exact N]. }
  destruct Et as [time Et]. rewrite Et in H. cbn [bind] in H.
  pose proof (init_altitude_spec (s_altitude s)) as S. destruct (init_altitude (s_altitude s)) as [a|e'] eqn:Ea.
  - cbn [bind] in H. destruct (init_height s a) as [h|e'] eqn:Eh; cbn [bind] in H; [discriminate|]. assert (e' = e) by congruence. subst e'.
    unfold init_height in Eh. destruct (s_height s) as [v|].
    + destruct (to_m_spec v) as [M1 M2]. destruct (metres_dec (fst v)) as [[f F]|F]; [rewrite (M1 f F) in Eh; cbn [bind] in Eh; congruence|rewrite (M2 F) in Eh; cbn [bind] in Eh; congruence].
    + destruct (s_range s) as [v|]; [|destruct a; discriminate]. destruct a as [a|]; [|discriminate].
      destruct (to_m_spec v) as [M1 M2]. destruct (metres_dec (fst v)) as [[f F]|F]; [rewrite (M1 f F) in Eh; cbn [bind] in Eh; congruence|rewrite (M2 F) in Eh; cbn [bind] in Eh; congruence].
  - cbn [bind] in H. assert (e' = e) by congruence. subst e'. destruct (s_altitude s) as [[units l]|]; [|congruence]. destruct S as (S1 & S2 & S3).
    destruct (visible_values l) as [|x q] eqn:V; [specialize (S1 eq_refl); discriminate|].
    destruct (metres_dec units) as [[f F]|F]; [destruct (S2 ltac:(discriminate) f F) as (m & M & _); discriminate|pose proof (S3 ltac:(discriminate) F); congruence].
Qed.

(** "A time keeps its meaning when the file gets longer" fails: the times 10 s and 20 s
    of a file that ends within 25 s after midnight are read as 10 h and 20 h. *)
Theorem C102_prefix_refuted : exists time more out out' t t',
  init_time time = Ok out /\ init_time (time ++ more) = Ok out' /\
  nth_error out 0 = Some t /\ nth_error out' 0 = Some t' /\ ~ (t == t')%Q.
Proof.
  exists [10; 20]%Q, [30]%Q. do 4 eexists. split; [vm_compute; reflexivity|]. split; [vm_compute; reflexivity|].
  split; [reflexivity|]. split; [reflexivity|]. intros E. apply Qeq_bool_iff in E. discriminate.
Qed.

(** A file with range in kilometres and altitude in metres. *)
Example C102_nonvacuous :
  match open_source {| s_time := [86400; 90000; 172800]%Q; s_altitude := Some ("m", [Some 10%Q; None; Some 20%Q]); s_height := None; s_range := Some ("km", [0; 1]%Q) |} with
  | Ok o => andb (forallb (fun p => Qeq_bool (fst p) (snd p)) (combine (o_time o) [0; 1; 24]%Q))
      match o_altitude o, o_height o, o_height_agl o with
      | Some a, Some h, Some g => Qeq_bool a 15 && forallb (fun p => Qeq_bool (fst p) (snd p)) (combine (h ++ g) [15; 1015; 0; 1000]%Q)
      | _, _, _ => false
      end = true
  | Raise _ => False
  end.
Proof. vm_compute. reflexivity. Qed.
Print Assumptions C102_time.
Print Assumptions C102_altitude.
Print Assumptions C102_height.
Print Assumptions C102_succeeds_iff.
Print Assumptions C102_errors.
Print Assumptions C102_prefix_refuted.

(** ** C103: lidar on the grid of the radar *)
(** Every pixel gets the value of the nearest lidar profile that has data, at the
    nearest gate, if it is within the lidar data and near enough; otherwise it is masked.
    The reported gaps are the time steps without such a profile within a minute. *)
Theorem C103_pixels : forall time h beta time_new height_new,
  length time = length beta -> h <> [] -> StronglySorted Qlt h -> (forall row, In row beta -> length row = length h) ->
  (forall i j t u, i < j -> usable time beta i t -> usable time beta j u -> (t < u)%Q) -> (exists i t, usable time beta i t) ->
  exists out gaps, interpolate_lidar time (Some h) beta time_new height_new = Ok (out, gaps) /\
    length out = length time_new /\ (forall row, In row out -> length row = length height_new) /\
    StronglySorted lt gaps /\
    (forall i, In i gaps <-> exists x, nth_error time_new i = Some x /\ ~ within (1 # 60) (usable time beta) x) /\
    forall i j x y, nth_error time_new i = Some x -> nth_error height_new j = Some y ->
      exists p g v w, nearest_of (usable time beta) x p /\ nearest_of (point h) y g /\
        pixel beta p g = Some v /\ pixel out i j = Some w /\
        (lidar_visible time h beta x y -> w = v) /\ (~ lidar_visible time h beta x y -> w = None).
Proof. exact lidar_ok. Qed.

(** A lidar file without heights or without any data is refused. *)
Theorem C103_errors : forall time beta time_new height_new,
  interpolate_lidar time None beta time_new height_new = Raise RuntimeError /\
  (forall h, (forall row v, In row beta -> In v row -> v = None) -> StronglySorted Qlt h ->
     interpolate_lidar time (Some h) beta time_new height_new = Raise IndexError).
Proof.
  intros time beta time_new height_new. split; [reflexivity|]. intros h N S. cbn [interpolate_lidar].
  assert (E : where1 (map has_data beta) = []).
  { destruct (where1 (map has_data beta)) as [|i r] eqn:W; [reflexivity|exfalso]. assert (I : In i (where1 (map has_data beta))) by (rewrite W; left; reflexivity).
    apply where1_in in I. rewrite nth_error_map' in I. destruct (nth_error beta i) as [row|] eqn:R; [|discriminate]. cbn [option_map] in I. injection I as I.
    unfold has_data in I. apply existsb_exists in I as (v & V & M). rewrite (N row v (nth_error_In _ _ R) V) in M. discriminate. }
  rewrite E. cbn [gather map sequence bind]. unfold interpolate_2d_nearest.
  assert (U : strictly_up h = true) by (apply strictly_up_iff; exact S). rewrite U. reflexivity.
Qed.

(** "A time step that is not reported as a gap has lidar data" fails: just before the
    first profile everything is masked, although the profile is within a minute. *)
Theorem C103_edges_refuted : exists time h beta time_new height_new out,
  (forall row v, In row beta -> In v row -> v <> None) /\
  interpolate_lidar time (Some h) beta time_new height_new = Ok (out, []) /\
  exists row, nth_error out 0 = Some row /\ row <> [] /\ forall v, In v row -> v = None.
Proof.
  exists [1 # 100; 1 # 50]%Q, [0; 100]%Q, [[Some 1%Q; Some 2%Q]; [Some 3%Q; Some 4%Q]], [1 # 200; 1 # 100]%Q, [0; 50]%Q. eexists. split; [|split].
  - intros row v [<-|[<-|[]]] [<-|[<-|[]]]; discriminate.
  - vm_compute. reflexivity.
  - eexists. split; [reflexivity|]. split; [discriminate|]. intros v [<-|[<-|[]]]; reflexivity.
Qed.

(** The second profile has no data; the third new time is in a gap. *)
Example C103_nonvacuous :
  interpolate_lidar [1 # 100; 1 # 60; 1 # 50; 1]%Q (Some [0; 100; 150]%Q)
    [[Some 1%Q; None; Some 2%Q]; [None; None; None]; [Some 3%Q; Some 4%Q; Some 5%Q]; [Some 6%Q; Some 7%Q; Some 8%Q]]
    [1 # 90; 1 # 55; 1 # 2]%Q [40; 130]%Q
  = Ok ([[Some 1%Q; Some 2%Q]; [Some 3%Q; Some 5%Q]; [None; None]], [2]).
Proof. vm_compute. reflexivity. Qed.
Print Assumptions C103_pixels.
Print Assumptions C103_errors.
Print Assumptions C103_edges_refuted.

(** ** C104: liquid water path on the time grid *)
(** The liquid water path and its error are interpolated linearly from the samples with
    quality flag zero, and masked where none is within [max_time] minutes. *)
Theorem C104_on_grid : forall sqrt time lwp flag time_grid max_time,
  length time = length lwp -> (forall f, flag = Some f -> length f = length lwp) -> time <> [] -> (forall t, In t time -> 0 <= t /\ t <= 24)%Q ->
  exists a b, mwr_to_grid sqrt time lwp flag time_grid max_time = Ok [("lwp", a); ("lwp_error", b)] /\
    on_grid linear_value (good_lwp time lwp flag) max_time time_grid a /\
    on_grid linear_value
      (fun i t e => exists x, good_lwp time lwp flag i t x /\ e = sqrt (x * (1 # 4) * (x * (1 # 4)) + (20 * (1 # 1000)) * (20 * (1 # 1000)))%Q)
      max_time time_grid b.
Proof. exact mwr_ok. Qed.

(** Both are masked at the same time steps. *)
Theorem C104_same_gaps : forall sqrt time lwp flag time_grid max_time a b,
  length time = length lwp -> (forall f, flag = Some f -> length f = length lwp) -> time <> [] -> (forall t, In t time -> 0 <= t /\ t <= 24)%Q ->
  mwr_to_grid sqrt time lwp flag time_grid max_time = Ok [("lwp", a); ("lwp_error", b)] ->
  forall j, nth_error a j = Some None <-> nth_error b j = Some None.
Proof.
  intros sqrt time lwp flag time_grid max_time a b L Lf N D H j. destruct (mwr_ok sqrt time lwp flag time_grid max_time L Lf N D) as (a' & b' & E & [La A] & [Lb B]).
  rewrite E in H. assert (a' = a) by congruence. assert (b' = b) by congruence. subst a' b'. clear E H.
  destruct (nth_error time_grid j) as [t|] eqn:T.
  - destruct (A j t T) as (wa & Wa & Na & _). destruct (B j t T) as (wb & Wb & Nb & _). rewrite Wa, Wb.
    assert (X : wa = None <-> wb = None).
    { rewrite Na, Nb. split; [intros F i ts v (x & X & _); exact (F i ts x X)|intros F i ts v X]. eapply F. exists v. split; [exact X|reflexivity]. }
    split; intros Y; f_equal; apply X; congruence.
  - apply nth_error_None in T. split; intros X; exfalso; assert (Y : j < length time_grid); try lia; [rewrite <- La|rewrite <- Lb]; apply nth_error_Some; congruence.
Qed.

(** The error is nowhere below 20 g m-2. *)
Theorem C104_error_floor : forall sqrt time lwp flag time_grid max_time a b,
  (forall x, 1 # 2500 <= x -> 1 # 50 <= sqrt x)%Q ->
  mwr_to_grid sqrt time lwp flag time_grid max_time = Ok [("lwp", a); ("lwp_error", b)] ->
  forall e, In (Some e) b -> (1 # 50 <= e)%Q.
Proof.
  intros sqrt time lwp flag time_grid max_time a b R H e I. unfold mwr_to_grid in H. apply bind_ok in H as (l & El & H). apply bind_ok in H as (a' & Ea & H).
  apply bind_ok in H as (b' & Eb & H). assert (b' = b) by congruence. subst b'. clear H Ea El.
  assert (Pre : length time = length (lwp_error sqrt l) /\ time <> [] /\ forall t, In t time -> (0 <= t /\ t <= 24)%Q).
  { unfold interpolate_1d in Eb. destruct (Nat.eqb_spec (length time) (length (lwp_error sqrt l))) as [L|L]; cbn [negb] in Eb; [|discriminate].
    split; [exact L|]. destruct time as [|t0 r]; [discriminate|]. split; [discriminate|].
    destruct (qgt (list_max t0 r) 24 || qlt (list_min t0 r) 0) eqn:E; [discriminate|]. apply orb_false_iff in E as [E1 E2].
    apply qgt_false in E1. apply qlt_false in E2. destruct (list_min_spec r t0) as (M0 & M1 & _). destruct (list_max_spec r t0) as (X0 & X1 & _).
    intros t [<-|T]; [lra|]. specialize (M1 t T). specialize (X1 t T). lra. }
  destruct Pre as (L & N & D). destruct (interpolate_1d_ok time (lwp_error sqrt l) time_grid max_time L N D) as (out & Eo & Lo & H).
  assert (out = b) by congruence. subst out. apply In_nth_error in I as [j J].
  destruct (nth_error_lt_Some time_grid j) as [t T]; [rewrite <- Lo; apply nth_error_Some; congruence|].
  destruct (H j t T) as (w & W & _ & V). destruct (V e ltac:(congruence)) as ((i & t1 & v1 & _ & _ & _ & S & _ & Le & _) & _).
  apply lwp_error_samples in S as (x & _ & ->). eapply Qle_trans; [|exact Le]. apply R.
  assert (X : (0 <= x * (1 # 4) * (x * (1 # 4)))%Q) by (set (q := (x * (1 # 4))%Q); clearbody q; destruct (Qlt_le_dec q 0); nra).
  set (q := (x * (1 # 4) * (x * (1 # 4)))%Q) in *. clearbody q. assert (Y : (20 * (1 # 1000) * (20 * (1 # 1000)) == 1 # 2500)%Q) by reflexivity. rewrite Y. lra.
Qed.

(** Quality flags that do not belong to the samples are refused. *)
Theorem C104_flags : forall sqrt time lwp f time_grid max_time, length f <> length lwp ->
  mwr_to_grid sqrt time lwp (Some f) time_grid max_time = Raise IndexError.
Proof.
  intros sqrt time lwp f time_grid max_time N. unfold mwr_to_grid, init_lwp. apply Nat.eqb_neq in N. rewrite N. reflexivity.
Qed.

(** The flagged sample is not used. *)
Example C104_nonvacuous :
  match mwr_to_grid (fun x => x) [0; 1 # 60; 1 # 30; 2]%Q [Some 0%Q; Some 9%Q; Some 4%Q; Some 6%Q] (Some [Some 0%Z; Some 1%Z; Some 0%Z; Some 0%Z]) [1 # 60; 1; 2]%Q 5 with
  | Ok [(_, [Some x; None; Some y]); (_, [Some e; None; Some e'])] =>
      Qeq_bool x 2 && Qeq_bool y 6 && Qeq_bool e (1251 # 2500) && Qeq_bool e' (9 / 4 + (1 # 2500))
  | _ => false
  end = true.
Proof. vm_compute. reflexivity. Qed.
Print Assumptions C104_on_grid.
Print Assumptions C104_same_gaps.
Print Assumptions C104_error_floor.
Print Assumptions C104_flags.

(** ** C105: disdrometer on the time grid *)
(** A file is read exactly if it has rainfall rate and particle number; otherwise the
    error says that the disdrometer data is not usable. *)
Theorem C105_read : forall variables,
  ((exists data, init_disdrometer variables = Ok data) <-> lookup "rainfall_rate" variables <> None /\ lookup "n_particles" variables <> None) /\
  (forall e, init_disdrometer variables = Raise e -> e = DisdrometerDataError).
Proof.
  intros variables. unfold init_disdrometer. cbn [map].
  destruct (lookup "rainfall_rate" variables) as [r|]; destruct (lookup "n_particles" variables) as [n|]; destruct (lookup "synop_WaWa" variables) as [w|];
    cbn [String.eqb Ascii.eqb Bool.eqb sequence bind];
    (split; [split; [intros [data H]; first [discriminate|split; discriminate]|intros [A B]; first [congruence|eexists; reflexivity]]|intros e H; first [discriminate|congruence]]).
Qed.

(** Each of the three variables is on the time grid: the weather code is the one of the
    nearest sample, the others are interpolated; all are masked where no sample is
    within a minute.  There are no other variables. *)
Theorem C105_on_grid : forall variables data time time_grid,
  init_disdrometer variables = Ok data -> (forall k y, lookup k variables = Some y -> length time = length y) ->
  time <> [] -> (forall t, In t time -> 0 <= t /\ t <= 24)%Q ->
  exists out, disdrometer_to_grid time data time_grid = Ok out /\
    (forall k y, lookup k variables = Some y -> k = "rainfall_rate" \/ k = "n_particles" ->
       exists z, lookup k out = Some z /\ on_grid linear_value (visible_sample time y) 1 time_grid z) /\
    (forall y, lookup "synop_WaWa" variables = Some y ->
       exists z, lookup "synop_WaWa" out = Some z /\ on_grid nearest_sample (visible_sample time y) 1 time_grid z) /\
    (forall k z, lookup k out = Some z -> (k = "rainfall_rate" \/ k = "n_particles" \/ k = "synop_WaWa") /\ lookup k variables <> None).
Proof.
  intros variables data time time_grid H L N D.
  assert (K : forall k, lookup k data = if mem_str k ["rainfall_rate"; "n_particles"; "synop_WaWa"] then lookup k variables else None).
  { intros k. unfold init_disdrometer in H. cbn [map] in H. unfold mem_str. cbn [existsb].
    destruct (String.eqb_spec k "rainfall_rate") as [->|N1]; [|destruct (String.eqb_spec k "n_particles") as [->|N2]; [|destruct (String.eqb_spec k "synop_WaWa") as [->|N3]]];
    destruct (lookup "rainfall_rate" variables) as [r|]; destruct (lookup "n_particles" variables) as [n|]; destruct (lookup "synop_WaWa" variables) as [w|];
      cbn [String.eqb Ascii.eqb Bool.eqb sequence bind] in H; try discriminate; injection H as <-; try reflexivity;
      cbn [List.concat app lookup orb]; repeat match goal with |- context[String.eqb k ?s] => destruct (String.eqb_spec k s); [contradiction|] end; reflexivity. }
  assert (I : forall k y, In (k, y) data -> length time = length y).
  { intros k y I. unfold init_disdrometer in H. cbn [map] in H.
    destruct (lookup "rainfall_rate" variables) as [r|] eqn:E1; destruct (lookup "n_particles" variables) as [n|] eqn:E2; destruct (lookup "synop_WaWa" variables) as [w|] eqn:E3;
      cbn [String.eqb Ascii.eqb Bool.eqb sequence bind] in H; try discriminate; injection H as <-; cbn [List.concat app In] in I;
      repeat (destruct I as [I|I]; [first [apply (L "rainfall_rate"); congruence|apply (L "n_particles"); congruence|apply (L "synop_WaWa"); congruence]|]); destruct I. }
  unfold disdrometer_to_grid.
  set (g := fun (k : string) (y : list (masked Q)) => if String.eqb k "synop_WaWa" then interpolate_1d_nearest time y time_grid 1 else interpolate_1d time y time_grid 1).
  destruct (sequence_ok_map (fun kv : string * list (masked Q) => bind (g (fst kv) (snd kv)) (fun y => Ok (fst kv, y))) data) as [out E].
  { intros [k y] Iy. specialize (I k y Iy). unfold g. cbn [fst snd]. destruct (String.eqb k "synop_WaWa").
    - destruct (nearest_on_grid time y time_grid 1 I N D) as (z & -> & _). eexists. reflexivity.
    - destruct (linear_on_grid time y time_grid 1 I N D) as (z & -> & _). eexists. reflexivity. }
  exists out. split; [exact E|]. pose proof (sequence_lookup g data out E) as S. split; [|split].
  - intros k y Y Kk. specialize (S k). rewrite K in S. assert (M : mem_str k ["rainfall_rate"; "n_particles"; "synop_WaWa"] = true) by (destruct Kk as [-> | ->]; reflexivity).
    rewrite M, Y in S. destruct S as (z & Z & Lz). exists z. split; [exact Lz|]. unfold g in Z. assert (W : String.eqb k "synop_WaWa" = false) by (destruct Kk as [-> | ->]; reflexivity).
    rewrite W in Z. destruct (linear_on_grid time y time_grid 1 (L k y Y) N D) as (z' & Z' & G). assert (z' = z) by congruence. subst. exact G.
  - intros y Y. specialize (S "synop_WaWa"). rewrite K in S. change (mem_str "synop_WaWa" ["rainfall_rate"; "n_particles"; "synop_WaWa"]) with true in S. cbn match in S. rewrite Y in S.
    destruct S as (z & Z & Lz). exists z. split; [exact Lz|]. unfold g in Z. rewrite String.eqb_refl in Z.
    destruct (nearest_on_grid time y time_grid 1 (L _ y Y) N D) as (z' & Z' & G). assert (z' = z) by congruence. subst. exact G.
  - intros k z Z. specialize (S k). rewrite K in S. unfold mem_str in S. cbn [existsb] in S.
    assert (X : lookup k variables <> None \/ lookup k variables = None) by (destruct (lookup k variables); [left; discriminate|right; reflexivity]).
    destruct (String.eqb_spec k "rainfall_rate") as [E1|N1]; [|destruct (String.eqb_spec k "n_particles") as [E1|N2]; [|destruct (String.eqb_spec k "synop_WaWa") as [E1|N3]]];
      cbn [orb] in S; [| | |congruence]; (split; [auto|]); destruct X as [X|X]; try exact X; rewrite X in S; congruence.
Qed.

(** The weather code is not interpolated; the rain rate is. *)
Example C105_nonvacuous :
  match init_disdrometer [("rainfall_rate", [Some 1%Q; Some 3%Q; None]); ("synop_WaWa", [Some 61%Q; Some 71%Q; Some 0%Q]); ("n_particles", [Some 0%Q; Some 0%Q; Some 0%Q]); ("other", [])] with
  | Ok data =>
      match disdrometer_to_grid [0; 1 # 60; 2]%Q data [1 # 240; 1 # 120; 1; 2]%Q with
      | Ok [(_, [Some a; Some b; None; None]); (_, [Some n; Some n'; None; Some n'']); (k, [Some w; Some w'; None; Some w''])] =>
          Qeq_bool a (3 # 2) && Qeq_bool b 2 && Qeq_bool w 61 && Qeq_bool w' 61 && Qeq_bool w'' 0 && String.eqb k "synop_WaWa"
      | _ => false
      end
  | _ => false
  end = true.
Proof. vm_compute. reflexivity. Qed.
Print Assumptions C105_read.
Print Assumptions C105_on_grid.

(** ** C106: means over new time steps *)
(** Each bin gets the mean of the visible values in it and is masked without any, unless
    all visible values are zero. *)
Theorem C106_means : forall x_in array x_new, 2 <= length x_new -> length x_in = length array ->
  exists lo hi out, outer_edges x_new lo hi /\ rebin_1d x_in array x_new = Ok out /\ length out = length x_new /\
    ((forall v, In (Some v) array -> (v == 0)%Q) -> forall k, k < length x_new -> nth_error out k = Some (Some 0%Q)) /\
    ((exists v, In (Some v) array /\ ~ (v == 0)%Q) -> forall k, k < length x_new ->
       exists vals w, collected (in_closed_bin lo hi (length x_new) k) x_in array vals /\ nth_error out k = Some w /\
         (vals = [] -> w = None) /\ (vals <> [] -> exists m, w = Some m /\ is_mean m vals)).
Proof. exact rebin_1d_ok. Qed.

Theorem C106_errors : forall x_in array x_new, length x_new < 2 \/ length x_in <> length array ->
  rebin_1d x_in array x_new = Raise IndexError.
Proof.
  intros x_in array x_new H. unfold rebin_1d. destruct (Nat.lt_ge_cases (length x_new) 2) as [L|L]; [rewrite (binvec_short _ L); reflexivity|].
  destruct (binvec_ok x_new L) as (lo & hi & _ & E). rewrite E. cbn [bind]. destruct H as [H|H]; [lia|]. apply Nat.eqb_neq in H. rewrite H. reflexivity.
Qed.

(** The reported time steps are exactly the masked ones, in order. *)
Theorem C106_gaps : forall time data time_new out gaps, rebin_data_1d time data time_new = Ok (out, gaps) ->
  StronglySorted lt gaps /\ forall k, In k gaps <-> nth_error out k = Some None.
Proof.
  intros time data time_new out gaps H. unfold rebin_data_1d in H. apply bind_ok in H as (o & E & H).
  assert (o = out) by congruence. subst o. assert (G : gaps = where1 (map is_masked out)) by congruence. subst gaps. clear H E. split; [apply where1_sorted|].
  intros k. rewrite where1_in, nth_error_map'. destruct (nth_error out k) as [[v|]|]; cbn [option_map is_masked]; split; intros X; congruence.
Qed.

(** "A time step without data is masked and reported" fails: a day of zeros that ends
    early gives zeros to the end. *)
Theorem C106_gap_refuted : exists time data time_new out k w,
  rebin_data_1d time data time_new = Ok (out, []) /\ nth_error out k = Some (Some w) /\
  exists lo hi, outer_edges time_new lo hi /\ collected (in_closed_bin lo hi (length time_new) k) time data [].
Proof.
  exists [1; 2]%Q, [Some 0%Q; Some 0%Q], [1; 2; 3]%Q. do 3 eexists. split; [vm_compute; reflexivity|]. split; [instantiate (2 := 2); reflexivity|].
  exists (1 # 2)%Q, (7 # 2)%Q. split.
  - exists 1%Q, 2%Q, 2%Q, 3%Q. repeat split.
  - unfold in_closed_bin. cbn [length]. constructor; [intros [X _]; apply Qle_bool_iff in X; discriminate|]. constructor; [intros [X _]; apply Qle_bool_iff in X; discriminate|]. constructor.
Qed.

(** "Variables with and without a height dimension use the same bins" fails at the end of
    the last bin. *)
Theorem C106_last_edge_refuted : exists time data time_new out out2 empty,
  rebin_1d time data time_new = Ok out /\ rebin_2d mean 1 false 1 time (map (fun v => [v]) data) time_new = Ok (out2, empty) /\
  exists v, nth_error out 1 = Some (Some v) /\ nth_error out2 1 = Some [None].
Proof.
  exists [1; 5 # 2]%Q, [Some 1%Q; Some 2%Q], [1; 2]%Q. do 3 eexists. split; [vm_compute; reflexivity|]. split; [vm_compute; reflexivity|].
  eexists. split; reflexivity.
Qed.

(** The third bin has no data. *)
Example C106_nonvacuous :
  match rebin_data_1d [1 # 2; 1; 2; 3]%Q [Some 1%Q; Some 4%Q; Some 5%Q; None] [1; 2; 3]%Q with
  | Ok ([Some a; Some b; None], [2]) => Qeq_bool a (5 # 2) && Qeq_bool b 5
  | _ => false
  end = true.
Proof. vm_compute. reflexivity. Qed.
Print Assumptions C106_means.
Print Assumptions C106_errors.
Print Assumptions C106_gaps.
Print Assumptions C106_gap_refuted.
Print Assumptions C106_last_edge_refuted.
