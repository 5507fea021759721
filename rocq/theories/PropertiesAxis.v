(** Property C192: the axes of level 3 figures. *)
From Verif Require Import Base GridModel AxisModel AxisSpec.
Open Scope nat_scope.
Open Scope list_scope.
Local Notation length := List.length (only parsing).

Lemma reshape_ok : forall (data : image (masked Q)) time n w, rectangular (S n) (S w) data -> length time = S n ->
  reshape_1d2nd time data = Ok (map (fun t => repeat t (S w)) time).
Proof.
  intros data time n w [L R] T. unfold reshape_1d2nd. destruct data as [|row r]; [discriminate|]. rewrite (R row) by (left; reflexivity).
  change (S w =? 0) with false. cbv iota. rewrite L, T, Nat.eqb_refl. reflexivity.
Qed.
Lemma masked_iff : forall m, existsb (existsb (@is_masked Q)) m = true <-> some_masked m.
Proof.
  intros m. unfold some_masked, pixel. rewrite existsb_exists. split.
  - intros (row & I & E). apply existsb_exists in E as (x & J & X). destruct x; [discriminate|].
    apply In_nth_error in I as (i & I). apply In_nth_error in J as (j & J). exists i, j. rewrite I. exact J.
  - intros (i & j & P). destruct (nth_error m i) as [row|] eqn:E; [|discriminate]. exists row. split; [eapply nth_error_In, E|].
    apply existsb_exists. exists None. split; [eapply nth_error_In, P|reflexivity].
Qed.
Lemma km_iff : forall a b, option_map (fun v => v / 1000)%Q a = b <-> km a b.
Proof.
  intros a b. unfold km. destruct a as [v|]; cbn; split.
  - intros <-. right. eauto.
  - intros [[H _]|(u & H & ->)]; congruence.
  - intros <-. left. auto.
  - intros [[_ ->]|(u & H & _)]; [reflexivity|discriminate].
Qed.
Lemma pixel_km : forall (h : image (masked Q)) i j, pixel (imap (option_map (fun v => v / 1000)%Q) h) i j = option_map (option_map (fun v => v / 1000)%Q) (pixel h i j).
Proof.
  intros h i j. unfold pixel, imap. rewrite nth_error_map. destruct (nth_error h i) as [row|]; [|reflexivity]. cbn. apply nth_error_map.
Qed.
Lemma some_masked_km : forall h : image (masked Q), some_masked (imap (option_map (fun v => v / 1000)%Q) h) <-> some_masked h.
Proof.
  intros h. unfold some_masked. split; intros (i & j & P); exists i, j; rewrite pixel_km in *.
  - destruct (pixel h i j) as [[v|]|]; [discriminate|reflexivity|discriminate].
  - rewrite P. reflexivity.
Qed.
Lemma all_masked_iff : forall row : list (masked Q), forallb is_masked row = true <-> all_masked row.
Proof.
  intros row. unfold all_masked. rewrite forallb_forall. split.
  - intros H v I. specialize (H _ I). discriminate.
  - intros H x I. destruct x as [v|]; [exfalso; exact (H v I)|reflexivity].
Qed.
Lemma first_iff : forall m first, (exists rest, filter (fun row => negb (forallb is_masked row)) m = first :: rest) <-> first_valid m first.
Proof.
  intros m first. unfold first_valid. split.
  - intros (rest & H). revert H. induction m as [|row m IH]; [discriminate|]. cbn. destruct (forallb is_masked row) eqn:E; cbn [negb].
    + intros H. destruct (IH H) as (b & a & -> & N & F). exists (row :: b), a. split; [reflexivity|]. split; [exact N|].
      intros r [<-|I]; [apply all_masked_iff, E|apply F, I].
    + intros H. assert (row = first) by congruence. subst. exists [], m. split; [reflexivity|]. split; [|intros r []].
      intros A. apply all_masked_iff in A. congruence.
  - intros (b & a & -> & N & F). induction b as [|x b IH].
    + cbn. destruct (forallb is_masked first) eqn:E; [exfalso; apply N, all_masked_iff, E|]. cbn. eauto.
    + cbn. assert (E : forallb is_masked x = true) by (apply all_masked_iff, F; left; reflexivity). rewrite E. cbn [negb].
      apply IH. intros r I. apply F. right. exact I.
Qed.

(** ** C192 *)

(** No height is masked: every gate has the time of its profile and its own height. *)
Theorem C192_two_axes : forall data time h n w, rectangular (S n) (S w) data -> length time = S n -> ~ some_masked h ->
  exists x y, read_data_characters data time (Some h) = Ok (TwoD data x y) /\
  rectangular (S n) (S w) x /\
  (forall i j, j < S w -> pixel x i j = nth_error time i) /\
  length y = length h /\
  forall i j, (pixel y i j = None <-> pixel h i j = None) /\ forall a b, pixel h i j = Some a -> pixel y i j = Some b -> km a b.
Proof.
  intros data time h n w R T M. exists (map (fun t => repeat t (S w)) time), (imap (option_map (fun v => v / 1000)%Q) h).
  unfold read_data_characters. rewrite (reshape_ok _ _ _ _ R T). cbn [bind]. repeat split.
  - destruct (existsb _ _) eqn:E; [|reflexivity]. exfalso. apply M, some_masked_km, masked_iff, E.
  - rewrite map_length. exact T.
  - intros row I. apply in_map_iff in I as (t & <- & _). apply repeat_length.
  - intros i j J. unfold pixel. rewrite nth_error_map. destruct (nth_error time i) as [t|]; [|reflexivity]. cbn [option_map].
    destruct (nth_error (repeat t (S w)) j) as [u|] eqn:E.
    + f_equal. apply nth_error_In, repeat_spec in E. congruence.
    + apply nth_error_None in E. rewrite repeat_length in E. lia.
  - unfold imap. apply map_length.
  - rewrite pixel_km. destruct (pixel h i j); [discriminate|reflexivity].
  - rewrite pixel_km. intros ->. reflexivity.
  - intros a b A B. rewrite pixel_km, A in B. cbn in B. apply km_iff. congruence.
Qed.
Print Assumptions C192_two_axes.

(** Some height is masked: the axes are the times and the heights of the first profile that
    is not masked completely, and the data have heights before times. *)
Theorem C192_one_axis : forall data time h n w first, rectangular (S n) (S w) data -> length time = S n ->
  some_masked h -> first_valid h first ->
  exists d y, read_data_characters data time (Some h) = Ok (OneD d time y) /\
  Forall2 km first y /\
  length d = S w /\ forall i j, j < S w -> pixel d j i = pixel data i j.
Proof.
  intros data time h n w first R T M F. exists (transposed data), (map (option_map (fun v => v / 1000)%Q) first).
  unfold read_data_characters. rewrite (reshape_ok _ _ _ _ R T). cbn [bind].
  assert (E : existsb (existsb is_masked) (imap (option_map (fun v => v / 1000)%Q) h) = true) by (apply masked_iff, some_masked_km, M).
  rewrite E. unfold change2one_dim_axes. rewrite E.
  assert (F' : first_valid (imap (option_map (fun v => v / 1000)%Q) h) (map (option_map (fun v => v / 1000)%Q) first)).
  { destruct F as (b & a & -> & N & G). exists (imap (option_map (fun v => v / 1000)%Q) b), (imap (option_map (fun v => v / 1000)%Q) a).
    assert (A : forall row : list (masked Q), all_masked (map (option_map (fun v => v / 1000)%Q) row) <-> all_masked row).
    { intros row. unfold all_masked. split; intros H v I.
      - apply (H (v / 1000)%Q). apply in_map_iff. exists (Some v). auto.
      - apply in_map_iff in I as ([u|] & X & I); [|discriminate]. exact (H u I). }
    split; [unfold imap; rewrite map_app; reflexivity|]. split; [rewrite A; exact N|].
    intros r I. unfold imap in I. apply in_map_iff in I as (s & <- & I). apply A, G, I. }
  apply first_iff in F' as (rest & ->). destruct time as [|t0 ts]; [discriminate|].
  split; [|split; [|split]].
  - cbn [map repeat]. do 2 f_equal. cbn [hd]. f_equal. rewrite map_map. cbn [repeat hd]. apply map_id.
  - clear. induction first as [|a l IH]; constructor; [apply km_iff; reflexivity|exact IH].
  - destruct R as [L R]. unfold transposed. destruct data as [|row r]; [discriminate|]. rewrite map_length, seq_length. apply R. left. reflexivity.
  - intros i j J. destruct R as [L R]. unfold transposed. destruct data as [|row r]; [discriminate|].
    rewrite (R row) by (left; reflexivity). unfold pixel at 1. rewrite nth_error_map.
    assert (Sq : nth_error (seq 0 (S w)) j = Some j).
    { rewrite (nth_error_nth' _ 0) by (rewrite seq_length; exact J). rewrite seq_nth by exact J. reflexivity. }
    rewrite Sq. cbn [option_map]. unfold column. rewrite nth_error_map. unfold pixel. destruct (nth_error (row :: r) i) as [q|] eqn:Q; [|reflexivity].
    cbn [option_map]. destruct (nth_error q j) as [v|] eqn:V; [reflexivity|]. apply nth_error_None in V.
    rewrite (R q) in V by (eapply nth_error_In, Q). lia.
Qed.
Print Assumptions C192_one_axis.

(** All heights are masked: there is no axis. *)
Theorem C192_no_height : forall data time h n w, rectangular (S n) (S w) data -> length time = S n ->
  some_masked h -> (forall row, In row h -> all_masked row) -> read_data_characters data time (Some h) = Raise IndexError.
Proof.
  intros data time h n w R T M A. unfold read_data_characters. rewrite (reshape_ok _ _ _ _ R T). cbn [bind].
  assert (E : existsb (existsb is_masked) (imap (option_map (fun v => v / 1000)%Q) h) = true) by (apply masked_iff, some_masked_km, M).
  rewrite E. unfold change2one_dim_axes. rewrite E. destruct time as [|t ts]; [discriminate|]. cbn [map repeat].
  destruct (filter _ (imap _ h)) as [|first rest] eqn:F; [reflexivity|]. exfalso.
  assert (I : In first (filter (fun row => negb (forallb is_masked row)) (imap (option_map (fun v => v / 1000)%Q) h))) by (rewrite F; left; reflexivity).
  apply filter_In in I as [I N]. unfold imap in I. apply in_map_iff in I as (row & <- & I). specialize (A row I).
  assert (X : forallb is_masked (map (option_map (fun v => v / 1000)%Q) row) = true); [|rewrite X in N; discriminate].
  apply all_masked_iff. intros v J. apply in_map_iff in J as ([u|] & Y & J); [|discriminate]. exact (A u J).
Qed.
Print Assumptions C192_no_height.

Theorem C192_missing_height : forall data time n w, rectangular (S n) (S w) data -> length time = S n ->
  read_data_characters data time None = Raise RuntimeError.
Proof.
  intros data time n w R T. unfold read_data_characters. rewrite (reshape_ok _ _ _ _ R T). reflexivity.
Qed.
Print Assumptions C192_missing_height.

Theorem C192_other_times : forall (data : image (masked Q)) time h n w, rectangular (S n) (S w) data -> length time <> S n -> length time <> 1 ->
  read_data_characters data time h = Raise ValueError.
Proof.
  intros data time h n w [L R] T1 T2. unfold read_data_characters, reshape_1d2nd. destruct data as [|row r]; [discriminate|].
  rewrite (R row) by (left; reflexivity). change (S w =? 0) with false. cbv iota.
  assert (E : (length time =? length (row :: r)) = false) by (apply Nat.eqb_neq; congruence). rewrite E.
  destruct time as [|t [|u s]]; [reflexivity|contradiction|reflexivity].
Qed.
Print Assumptions C192_other_times.

(** A single time is the time of all profiles; without profiles there are no axes. *)
Theorem C192_single_time : forall (data : image (masked Q)) t h n w, rectangular (S n) (S w) data ->
  read_data_characters data [t] h = read_data_characters data (repeat t (S n)) h.
Proof.
  intros data t h n w R. unfold read_data_characters. rewrite (reshape_ok _ (repeat t (S n)) _ _ R) by apply repeat_length.
  assert (E : reshape_1d2nd [t] data = Ok (map (fun u => repeat u (S w)) (repeat t (S n)))); [|rewrite E; reflexivity].
  destruct n as [|n]; [apply (reshape_ok _ _ _ _ R); reflexivity|].
  destruct R as [L R]. unfold reshape_1d2nd. destruct data as [|row r]; [discriminate|]. rewrite (R row) by (left; reflexivity).
  change (S w =? 0) with false. cbv iota. rewrite L. change (length [t] =? S (S n)) with false. cbv iota. f_equal. rewrite <- L. clear.
  induction (row :: r) as [|a l IH]; [reflexivity|]. cbn [map length repeat] in *. rewrite IH. reflexivity.
Qed.
Print Assumptions C192_single_time.

Theorem C192_no_profiles : forall time h, read_data_characters [] time h = Raise IndexError.
Proof.
  reflexivity.
Qed.
Print Assumptions C192_no_profiles.

(** With one masked height the heights of one profile are shown for all of them: a gate at
    2 km is drawn at 1 km, and the axis itself may have masked heights. *)
Theorem C192_own_height_refuted : exists data time h d y,
  rectangular 2 2 data /\ rectangular 2 2 h /\
  pixel data 1 0 = Some (Some 5%Q) /\ pixel h 1 0 = Some (Some 2000%Q) /\
  read_data_characters data time (Some h) = Ok (OneD d time y) /\
  pixel d 0 1 = Some (Some 5%Q) /\ (exists a, nth_error y 0 = Some (Some a) /\ (a == 1)%Q) /\ nth_error y 1 = Some None.
Proof.
  exists [[Some 1%Q; Some 2%Q]; [Some 5%Q; Some 6%Q]], [0%Q; 1%Q], [[Some 1000%Q; None]; [Some 2000%Q; Some 3000%Q]].
  eexists. eexists. split; [split; [reflexivity|intros row [<-|[<-|[]]]; reflexivity]|].
  split; [split; [reflexivity|intros row [<-|[<-|[]]]; reflexivity]|].
  split; [reflexivity|]. split; [reflexivity|]. split; [reflexivity|]. split; [reflexivity|].
  split; [eexists; split; [reflexivity|reflexivity]|reflexivity].
Qed.
Print Assumptions C192_own_height_refuted.

Example C192_nonvacuous :
  rectangular 2 1 [[Some 1%Q]; [None]] /\
  read_data_characters [[Some 1%Q]; [None]] [0%Q; 1%Q] (Some [[Some 500%Q]; [Some 600%Q]]) =
    Ok (TwoD [[Some 1%Q]; [None]] [[0%Q]; [1%Q]] [[Some (500 / 1000)%Q]; [Some (600 / 1000)%Q]]) /\
  first_valid [[None]; [Some 600%Q]] [Some 600%Q] /\
  read_data_characters [[Some 1%Q]; [None]] [0%Q; 1%Q] (Some [[None]; [Some 600%Q]]) =
    Ok (OneD [[Some 1%Q; None]] [0%Q; 1%Q] [Some (600 / 1000)%Q]).
Proof.
  split; [split; [reflexivity|intros row [<-|[<-|[]]]; reflexivity]|]. split; [reflexivity|]. split; [|reflexivity].
  exists [[None]], []. split; [reflexivity|]. split; [intros H; apply (H 600%Q); left; reflexivity|].
  intros r [<-|[]] v [H|[]]. discriminate.
Qed.
