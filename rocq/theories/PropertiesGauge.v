(** Properties C159 to C164: the rain gauge, the RD-80 and the MRR-PRO. *)
From Coq Require Import List Bool Arith ZArith QArith Qround String Ascii Sorted Permutation Lia Lqa.
From Verif Require Import Base ArrayModel GridModel TimeModel OutputModel InstrumentModel SiteModel ReaderModel TelegramModel StationModel.
From Verif Require Import TimeSpec OutputSpec InstrumentSpec SiteSpec ReaderSpec StationSpec TelegramSpec CliSpec.
From Verif Require Import GridProofs TimeProofs OutputProofs InstrumentProofs SiteProofs ReaderProofs StationProofs TelegramProofs CliProofs.
From Verif Require Import WsModel WsSpec WsProofs GaugeModel GaugeSpec GaugeProofs.
Import ListNotations.
Open Scope string_scope. Open Scope nat_scope. Open Scope list_scope.
Local Notation length := List.length (only parsing).

(** For the concrete cases: some numbers, the hours of two days as stamps. *)
Definition num_of (w : string) : option (masked Q) :=
  if String.eqb w "1.5" then Some (Some (3 # 2)%Q) else if String.eqb w "3" then Some (Some 3%Q)
  else if String.eqb w "5" then Some (Some 5%Q) else if String.eqb w "nan" then Some None else None.
Definition stamp_of (w : string) : option stamp :=
  if String.eqb w "17.05. 10:00" then Some (19860, 36000000000)%Z else if String.eqb w "17.05. 11:00" then Some (19860, 39600000000)%Z
  else if String.eqb w "18.05. 10:00" then Some (19861, 36000000000)%Z else None.
Definition int_of (w : string) : option Z :=
  if String.eqb w "0" then Some 0%Z else if String.eqb w "7" then Some 7%Z else if String.eqb w "60" then Some 60%Z else None.
Definition row16 (a b x y : string) : list string := [a; b; x; y] ++ repeat "-" 12.
Definition row22 (a x y serial : string) : list string := [a; "-"; "-"; x; y] ++ repeat "-" 13 ++ [serial; "-"; "-"; "-"].

(* ------------------------------------------------------------------ *)
(** ** C159: the rows of the rain gauge *)

(** Rows with 22 columns. *)
Theorem C159_rows22 to_num f16 f22 date data g : whole_median (lengths data) 22 ->
  (parse_gauge to_num f16 f22 date data = Ok g <->
   exists ks, gauge_rows to_num (used22 f22 date) 3 4 data ks g /\ g_serial g = nth_error (last ks []) 18).
Proof.
  intros M. assert (NE : lengths data <> []) by (intros E; rewrite E in M; destruct M as (s & P & _ & H); apply Permutation_nil in P; subst s; destruct H as [(k & H & _)|(k & x & y & H & _)]; cbn in H; lia).
  apply median_iff in M; [|exact NE]. unfold parse_gauge. unfold lengths in M. rewrite M. cbn [Nat.eqb]. rewrite talker22_eq.
  rewrite (gauge_spec to_num (pick22 f22 date) (used22 f22 date) 22 3 4 _ (pick22_iff f22 date)) by (lia || (intros row t U; exact (proj1 U))).
  assert (X : forall ks, gauge_rows to_num (used22 f22 date) 3 4 data ks g -> Some (nth 18 (last ks []) "") = nth_error (last ks []) 18).
  { intros ks (N & K & F & _). symmetry. apply nth_error_nth'. destruct (exists_last N) as (ks' & row & ->). rewrite last_last.
    apply forall2_nth in F. destruct F as [L F]. destruct (nth_error (g_time g) (length ks')) as [t|] eqn:T;
      [|apply nth_error_None in T; rewrite app_length in L; cbn in L; lia].
    assert (U := F (length ks') row t). destruct U as (U & _); [rewrite nth_error_app2, Nat.sub_diag by lia; reflexivity|exact T|]. rewrite U. lia. }
  split; intros (ks & G & S); exists ks; (split; [exact G|]); [rewrite <- (X ks G), S|rewrite S, <- (X ks G); symmetry]; apply serial_last; exact (proj1 G).
Qed.
Print Assumptions C159_rows22.

(** Rows with 16 columns; they have no serial number. *)
Theorem C159_rows16 to_num f16 f22 date data g : whole_median (lengths data) 16 ->
  (parse_gauge to_num f16 f22 date data = Ok g <->
   exists ks, gauge_rows to_num (used16 f16 date) 2 3 data ks g /\ g_serial g = None).
Proof.
  intros M. assert (NE : lengths data <> []) by (intros E; rewrite E in M; destruct M as (s & P & _ & H); apply Permutation_nil in P; subst s; destruct H as [(k & H & _)|(k & x & y & H & _)]; cbn in H; lia).
  apply median_iff in M; [|exact NE]. unfold parse_gauge. unfold lengths in M. rewrite M. cbn [Nat.eqb]. rewrite talker16_eq.
  rewrite (gauge_spec to_num (pick16 f16 date) (used16 f16 date) 16 2 3 _ (pick16_iff f16 date)) by (lia || (intros row t U; exact (proj1 U))).
  split; intros (ks & G & S); exists ks; (split; [exact G|]); rewrite serial_none in *; exact S.
Qed.
Print Assumptions C159_rows16.

(** What is refused, and how. *)
Theorem C159_refused to_num f16 f22 date data e :
  (whole_median (lengths data) 22 ->
     (parse_gauge to_num f16 f22 date data = Raise e <->
      (e = ValueError /\ unreadable to_num (used22 f22 date) 3 4 data) \/ (e = ValidTimeStampError /\ forall row t, In row data -> ~ used22 f22 date row t))) /\
  (whole_median (lengths data) 16 ->
     (parse_gauge to_num f16 f22 date data = Raise e <->
      (e = ValueError /\ unreadable to_num (used16 f16 date) 2 3 data) \/ (e = ValidTimeStampError /\ forall row t, In row data -> ~ used16 f16 date row t))).
Proof.
  assert (NE : forall m, whole_median (lengths data) m -> lengths data <> []) by (intros m M E; rewrite E in M; destruct M as (s & P & _ & H); apply Permutation_nil in P; subst s; destruct H as [(k & H & _)|(k & x & y & H & _)]; cbn in H; lia).
  split; intros M; assert (N := NE _ M); apply median_iff in M; try exact N; unfold parse_gauge; unfold lengths in M; rewrite M; cbn [Nat.eqb].
  - rewrite talker22_eq. apply (gauge_errors to_num (pick22 f22 date) (used22 f22 date) 22 3 4 _ (pick22_iff f22 date)); try lia. intros row t U. exact (proj1 U).
  - rewrite talker16_eq. apply (gauge_errors to_num (pick16 f16 date) (used16 f16 date) 16 2 3 _ (pick16_iff f16 date)); try lia. intros row t U. exact (proj1 U).
Qed.
Print Assumptions C159_refused.

(** Files with other rows, or without rows, are not supported. *)
Theorem C159_format to_num f16 f22 date data : ~ whole_median (lengths data) 22 -> ~ whole_median (lengths data) 16 ->
  parse_gauge to_num f16 f22 date data = Raise NotImplementedError.
Proof.
  intros A B. unfold parse_gauge. destruct data as [|row data]; [reflexivity|].
  destruct (Nat.eqb_spec (median_int (map (@List.length string) (row :: data))) 22) as [E|E]; [exfalso; apply A, median_iff; [discriminate|exact E]|].
  destruct (Nat.eqb_spec (median_int (map (@List.length string) (row :: data))) 16) as [E'|E']; [exfalso; apply B, median_iff; [discriminate|exact E']|]. reflexivity.
Qed.
Print Assumptions C159_format.

Definition log22 := [row22 "17.05. 10:00" "1.5" "3" "A1"; ["junk"]; row22 "18.05. 10:00" "junk" "3" "A2"; row22 "17.05. 11:00" "nan" "5" "A3"; row22 "?" "1" "2" "A4"].
Definition log16 := [row16 "17.05." "10:00" "1.5" "3"; ["junk"]; row16 "17.05." "11:00" "nan" "5"].
Example C159_nonvacuous :
  whole_median (lengths log22) 22 /\ whole_median (lengths log16) 16 /\
  parse_gauge num_of stamp_of stamp_of (Some 19860%Z) log22 =
    Ok {| g_time := [(19860, 36000000000); (19860, 39600000000)]%Z; g_rate := [Some (3 # 2); None]%Q; g_amount := [Some 3; Some 5]%Q; g_serial := Some "A3" |} /\
  parse_gauge num_of stamp_of stamp_of (Some 19860%Z) log16 =
    Ok {| g_time := [(19860, 36000000000); (19860, 39600000000)]%Z; g_rate := [Some (3 # 2); None]%Q; g_amount := [Some 3; Some 5]%Q; g_serial := None |} /\
  parse_gauge num_of stamp_of stamp_of None log22 = Raise ValueError /\
  parse_gauge num_of stamp_of stamp_of (Some 19862%Z) log22 = Raise ValidTimeStampError /\
  parse_gauge num_of stamp_of stamp_of None [["junk"]] = Raise NotImplementedError.
Proof.
  split; [apply median_iff; [discriminate|reflexivity]|]. split; [apply median_iff; [discriminate|reflexivity]|]. repeat split; vm_compute; reflexivity.
Qed.

(* ------------------------------------------------------------------ *)
(** ** C160: the output of the rain gauge *)

(** The output has the hour of every row once, in increasing order, with the rate of
    such a row in m/s; the date is that of the first row. *)
Theorem C160_output to_num f16 f22 argsort date data g : parse_gauge to_num f16 f22 date data = Ok g -> (forall l, is_argsort l (argsort l)) ->
  (forall t, In t (g_time g) -> whole_second t) ->
  exists o ind, rain_e_h3 to_num f16 f22 argsort date data = Ok o /\ strictly_increasing (go_hours o) /\
    (forall t, In t (g_time g) -> exists h, In h (go_hours o) /\ hours t h) /\
    Forall2 (fun i h => exists t, nth_error (g_time g) i = Some t /\ hours t h) ind (go_hours o) /\
    Forall2 (fun i y => exists x, nth_error (g_rate g) i = Some x /\ values_as mmh_ms x y) ind (go_rate o) /\
    length (go_amount o) = length (go_hours o) /\
    (exists t0, hd_error (g_time g) = Some t0 /\ go_day o = fst t0 /\ forall d, date = Some d -> go_day o = d) /\ go_serial o = g_serial g.
Proof.
  intros PG HA W. destruct (parse_lengths _ _ _ _ _ _ PG) as (LR & LA & NE & AS).
  destruct (rain_eq _ _ _ _ _ _ _ PG HA) as (J & am & o & t0 & R & H0 & HD & HJ & N & HH & HR & HM & HS & SI & ALL & _).
  assert (I0 : In t0 (g_time g)) by (destruct (g_time g); [discriminate|injection H0 as ->; left; reflexivity]).
  exists o, J. split; [exact R|]. split; [exact SI|]. split; [|split; [|split; [|split; [|split]]]].
  - intros t I. destruct (ALL t I) as (y & Y & E). exists y. split; [exact Y|]. assert (X := hours_whole t (W t I)). unfold hours in *. rewrite E. exact X.
  - rewrite HH. assert (P := take_picks _ (g_time g) J HJ). unfold picks in P. clear - P W.
    induction P as [|i x ind out X P IH]; cbn [map]; constructor; [|exact IH]. exists x. split; [exact X|]. apply hours_whole, W. eapply nth_error_In; exact X.
  - rewrite HR, <- take_map. apply forall2_take; [intros i I; rewrite LR; apply HJ; exact I|]. intros [x|]; cbn [option_map]; constructor. unfold mmh_ms, gauge_rate. field.
  - rewrite HM, HH, map_length. assert (L : length am = length (g_time g)).
    { destruct (g_amount g) as [|[x|] rest] eqn:E; [cbn in LA; destruct (g_time g); [congruence|discriminate]| |].
      - cbn [map option_map] in N. rewrite (proj1 (amount_shape _ _ _ N)). cbn [length]. rewrite map_length. exact LA.
      - cbn [map option_map] in N. rewrite (proj1 (amount_leading_gap _ _ N)), map_length. exact LA. }
    rewrite !take_length; [reflexivity|exact HJ|]. intros i I. rewrite L. apply HJ. exact I.
  - exists t0. split; [exact H0|]. split; [exact HD|]. intros d E. rewrite HD. apply (AS t0 I0). exact E.
  - exact HS.
Qed.
Print Assumptions C160_output.

(** Rows of one day in order: they are all written, the amounts start at zero and,
    as the gauge gives no negative amounts, never decrease, also if the counter of the gauge starts again. *)
Theorem C160_amount to_num f16 f22 argsort d data g : parse_gauge to_num f16 f22 (Some d) data = Ok g -> (forall l, is_argsort l (argsort l)) ->
  in_order (g_time g) -> (forall t, In t (g_time g) -> whole_second t) -> (forall x, In (Some x) (g_amount g) -> (0 <= x)%Q) ->
  exists o, rain_e_h3 to_num f16 f22 argsort (Some d) data = Ok o /\ Forall2 hours (g_time g) (go_hours o) /\
    Forall2 (values_as mmh_ms) (g_rate g) (go_rate o) /\ never_decreases (go_amount o) /\ length (go_amount o) = length (g_amount g) /\
    (forall x, hd_error (g_amount g) = Some (Some x) -> (exists z, hd_error (go_amount o) = Some (Some z) /\ (z == 0)%Q) /\
       (forall i, nth_error (go_amount o) i = Some None <-> nth_error (g_amount g) i = Some None)) /\
    (hd_error (g_amount g) = Some None -> forall y, In y (go_amount o) -> y = None).
Proof.
  intros PG HA O W POS. destruct (parse_lengths _ _ _ _ _ _ PG) as (LR & LA & NE & AS).
  assert (SI : strictly_increasing (map hours_of (g_time g))).
  { apply hours_increasing; [exact O|exact W|]. intros a b A B. rewrite (proj2 (AS a A) d eq_refl), (proj2 (AS b B) d eq_refl). reflexivity. }
  destruct (gauge_in_order _ _ _ _ _ _ _ PG HA SI) as (am & o & R & HH & HR & HM & N). exists o. split; [exact R|].
  split; [rewrite HH; apply forall2_map; intros t I; apply hours_whole, W, I|].
  split; [rewrite HR; apply forall2_map; intros [x|] _; cbn [option_map]; constructor; unfold mmh_ms, gauge_rate; field|].
  rewrite HM. destruct (g_amount g) as [|[x|] rest] eqn:E; [cbn in LA; destruct (g_time g); [congruence|discriminate]| |]; cbn [map option_map] in N.
  - split.
    { intros i j a b L A B. refine (amount_monotone _ _ _ N _ j i a b L A B). intros k y Y. apply nth_error_In in Y.
      assert (X : exists z, In (Some z) (Some x :: rest) /\ y = gauge_amount z).
      { destruct Y as [Y|Y]; [injection Y as <-; exists x; split; [left|]; reflexivity|]. apply in_map_iff in Y. destruct Y as ([z|] & Y & I); [|discriminate].
        injection Y as <-. exists z. split; [right; exact I|reflexivity]. }
      destruct X as (z & I & ->). assert (Z := POS z I). unfold gauge_amount. apply Qle_shift_div_l; [reflexivity|]. lra. }
    destruct (amount_shape _ _ _ N) as [S1 S2]. split; [rewrite S1; cbn [length]; rewrite map_length; reflexivity|].
    split; [|discriminate]. intros x' E'. injection E' as <-. split; [destruct (amount_first _ _ _ N) as (z & Z & Z0); exists z; split; [|exact Z0]; destruct am; [discriminate|exact Z]|].
    intros i. rewrite S2. change (Some (gauge_amount x) :: map (option_map gauge_amount) rest) with (map (option_map gauge_amount) (Some x :: rest)).
    rewrite nth_error_map. destruct (nth_error (Some x :: rest) i) as [[y|]|]; cbn; split; congruence.
  - destruct (amount_leading_gap _ _ N) as [S1 S2]. split; [intros i j a b _ A _; discriminate (S2 _ _ A)|]. split; [rewrite S1, map_length; reflexivity|].
    split; [discriminate|]. intros _ y I. apply In_nth_error in I. destruct I as (i & I). exact (S2 i y I).
Qed.
Print Assumptions C160_amount.

(** Rows out of order: amounts that grow with time are written as decreasing. *)
Definition unordered22 := [row22 "17.05. 11:00" "1.5" "5" "A1"; row22 "17.05. 10:00" "1.5" "3" "A1"].
Theorem C160_order_refuted : exists data g o, parse_gauge num_of stamp_of stamp_of (Some 19860%Z) data = Ok g /\
  g_time g = [(19860, 39600000000); (19860, 36000000000)]%Z /\ g_amount g = [Some 5; Some 3]%Q /\
  rain_e_h3 num_of stamp_of stamp_of argsort (Some 19860%Z) data = Ok o /\ ~ never_decreases (go_amount o).
Proof.
  exists unordered22. eexists. eexists. split; [vm_compute; reflexivity|]. split; [reflexivity|]. split; [reflexivity|]. split; [vm_compute; reflexivity|].
  intros H. specialize (H 0 1 _ _ (le_n 1) eq_refl eq_refl). vm_compute in H. apply H. reflexivity.
Qed.
Print Assumptions C160_order_refuted.

(** Without a date rows of different days at the same hour are taken for duplicates. *)
Theorem C160_days_refuted : exists data g o, parse_gauge num_of stamp_of stamp_of None data = Ok g /\ NoDup (g_time g) /\ length (g_time g) = 2 /\
  rain_e_h3 num_of stamp_of stamp_of argsort None data = Ok o /\ length (go_hours o) = 1.
Proof.
  exists [row22 "17.05. 10:00" "1.5" "3" "A1"; row22 "18.05. 10:00" "1.5" "5" "A1"]. eexists. eexists. split; [vm_compute; reflexivity|].
  split; [cbn; repeat constructor; cbn; intros [H|[]] || (intros []); discriminate|]. split; [reflexivity|]. split; [vm_compute; reflexivity|]. reflexivity.
Qed.
Print Assumptions C160_days_refuted.

Definition reset22 := [row22 "17.05. 10:00" "1.5" "5" "A1"; row22 "17.05. 11:00" "nan" "3" "A1"].
Example C160_nonvacuous : exists g o, parse_gauge num_of stamp_of stamp_of (Some 19860%Z) reset22 = Ok g /\ in_order (g_time g) /\
  (forall t, In t (g_time g) -> whole_second t) /\ (forall x, In (Some x) (g_amount g) -> (0 <= x)%Q) /\ g_amount g = [Some 5; Some 3]%Q /\
  rain_e_h3 num_of stamp_of stamp_of argsort (Some 19860%Z) reset22 = Ok o /\ go_hours o <> [] /\
  exists a b, go_amount o = [Some a; Some b] /\ (a == 0)%Q /\ (b == 3 # 1000)%Q.
Proof.
  eexists. eexists. split; [vm_compute; reflexivity|]. split; [repeat constructor; right; split; reflexivity|].
  split; [intros t [<-|[<-|[]]]; [exists 36000%Z|exists 39600%Z]; reflexivity|].
  split; [intros x [H|[H|[]]]; injection H as <-; discriminate|]. split; [reflexivity|]. split; [vm_compute; reflexivity|].
  split; [discriminate|]. eexists. eexists. split; [reflexivity|]. split; reflexivity.
Qed.

(* ------------------------------------------------------------------ *)
(** ** C161: reading RD-80 files *)

(** The rows are those of the lines with as many fields as the header. *)
Theorem C161_rows to_num to_int to_stamp head keys lines rows : tabbed head keys -> NoDup keys ->
  (read_rd80 to_num to_int to_stamp (head :: lines) = Ok rows <->
   exists ks, kept (full keys) lines ks /\ Forall2 (rd_row to_num to_int to_stamp keys) ks rows).
Proof.
  intros T N. apply tabbed_iff in T. cbn [read_rd80]. rewrite T. rewrite rd80_rows_ok by exact N.
  assert (K : kept (full keys) lines (filter (fullb keys) lines)) by (apply kept_filter; intros l; apply fullb_iff).
  split; [intros H; exists (filter (fullb keys) lines); auto|]. intros (ks & K' & H). assert (E : filter (fullb keys) lines = ks) by (eapply kept_unique; eassumption). rewrite E. exact H.
Qed.
Print Assumptions C161_rows.

(** Otherwise some such line has no row, and one of two exceptions is raised. *)
Theorem C161_refused to_num to_int to_stamp head keys lines : tabbed head keys -> NoDup keys ->
  ((exists line, In line lines /\ full keys line /\ forall r, ~ rd_row to_num to_int to_stamp keys line r) <->
   exists e, read_rd80 to_num to_int to_stamp (head :: lines) = Raise e /\ ((e = KeyError /\ exists k, In k titles /\ ~ In k keys) \/ e = ValueError)).
Proof.
  intros T N. split.
  - intros (line & I & F & R). destruct (read_rd80 to_num to_int to_stamp (head :: lines)) as [rows|e] eqn:E.
    + exfalso. apply (C161_rows _ _ _ head keys lines rows T N) in E. destruct E as (ks & K & H). assert (J : In line ks) by (apply (kept_in _ _ _ K); auto).
      apply In_nth_error in J. destruct J as (k & J). apply forall2_nth in H. destruct H as [L H]. destruct (nth_error rows k) as [r|] eqn:X;
        [exact (R r (H k line r J X))|]. apply nth_error_None in X. assert (k < length ks) by (apply nth_error_Some; congruence). lia.
    + exists e. split; [reflexivity|]. apply tabbed_iff in T. cbn [read_rd80] in E. rewrite T in E. destruct (rd80_rows_error _ _ _ _ _ _ N E) as (l & _ & _ & _ & H). exact H.
  - intros (e & E & _). apply tabbed_iff in T. cbn [read_rd80] in E. rewrite T in E. destruct (rd80_rows_error _ _ _ _ _ _ N E) as (l & A & B & C & _). exists l. auto.
Qed.
Print Assumptions C161_refused.

(** A line that has all fields needs all titles. *)
Theorem C161_titles to_num to_int to_stamp head keys lines line k rows : tabbed head keys -> NoDup keys -> In line lines -> full keys line -> In k titles -> ~ In k keys ->
  read_rd80 to_num to_int to_stamp (head :: lines) <> Ok rows.
Proof.
  intros T N I F K NK E. assert (X : exists e, read_rd80 to_num to_int to_stamp (head :: lines) = Raise e /\ ((e = KeyError /\ exists k, In k titles /\ ~ In k keys) \/ e = ValueError)).
  { apply (C161_refused to_num to_int to_stamp head keys lines T N). exists line. split; [exact I|]. split; [exact F|]. intros r (ws & TW & LW & (a & b & FA & FB & _) & FC & FI & FR & FM & FT).
    apply NK. assert (FK : forall q w, field keys q ws w -> In q keys) by (intros q w (i & Hi & _); eapply nth_error_In; exact Hi).
    unfold titles in K. apply in_app_or in K. destruct K as [[<-|[<-|[]]]|K]; [exact (FK _ _ FA)|exact (FK _ _ FB)|]. apply in_app_or in K. destruct K as [K|K].
    - apply In_nth_error in K. destruct K as (i & K). apply forall2_nth in FC. destruct FC as [L FC]. destruct (nth_error (d_n (snd r)) i) as [z|] eqn:Z.
      + destruct (FC i k z K Z) as (w & W & _). exact (FK _ _ W).
      + apply nth_error_None in Z. assert (i < length classes) by (apply nth_error_Some; congruence). lia.
    - destruct FI as (w1 & W1 & _), FR as (w2 & v2 & W2 & _), FM as (w3 & v3 & W3 & _), FT as (w4 & v4 & W4 & _).
      destruct K as [<-|[<-|[<-|[<-|[]]]]]; [exact (FK _ _ W1)|exact (FK _ _ W2)|exact (FK _ _ W3)|exact (FK _ _ W4)]. }
  destruct X as (e & X & _). congruence.
Qed.
Print Assumptions C161_titles.

Definition tabs (ws : list string) : string := String.concat (String tab "") ws.
Definition rd_line (a b n interval rate : string) : string := tabs ([a; b] ++ repeat n 20 ++ [interval; rate; "nan"; "3"]).
Definition rd_file := [tabs titles; rd_line "17.05." "11:00" "7" "60" "1,5"; "junk"; rd_line "17.05." "10:00" "0" "60" "nan"].
Example C161_nonvacuous : tabbed (tabs titles) titles /\ NoDup titles /\
  read_rd80 num_of int_of stamp_of rd_file =
    Ok [((19860, 39600000000)%Z, {| d_n := repeat 7%Z 20; d_interval := 60; d_rate := Some (3 # 2)%Q; d_amount := None; d_total := Some 3%Q |});
        ((19860, 36000000000)%Z, {| d_n := repeat 0%Z 20; d_interval := 60; d_rate := None; d_amount := None; d_total := Some 3%Q |})] /\
  read_rd80 num_of int_of stamp_of [tabs titles; rd_line "17.05." "11:00" "x" "60" "1,5"] = Raise ValueError /\
  read_rd80 num_of int_of stamp_of ["YYYY-MM-DD"; "17.05."] = Raise KeyError.
Proof.
  split; [apply tabbed_iff; vm_compute; reflexivity|]. split; [cbn; repeat (constructor; [cbn; intros H; repeat (destruct H as [H|H]; [discriminate H|]); exact H|]); constructor|].
  repeat split; vm_compute; reflexivity.
Qed.

(* ------------------------------------------------------------------ *)
(** ** C162: the RD-80 output of a day *)

(** The rows of the day, each time once, in order, with their values. *)
Theorem C162_day to_num to_int to_stamp log10 d files l : files <> [] ->
  Forall2 (fun f rows => read_rd80 to_num to_int to_stamp f = Ok rows) files l -> (forall f, In f l -> f <> []) ->
  (forall r, In r (List.concat l) -> proper (fst r) /\ good_drops (snd r)) ->
  exists o ind rows, rd802nc to_num to_int to_stamp log10 (Some d) files = Ok o /\ ro_day o = d /\ day_rows (map fst (List.concat l)) d ind /\
    picks (List.concat l) ind rows /\ strictly_increasing (ro_hours o) /\ rd_written log10 rows o.
Proof.
  intros NF F NE G. assert (R : read_all to_num to_int to_stamp files = Ok l) by (clear NF NE G; induction F as [|f rows files l E F IH]; [reflexivity|]; cbn [read_all]; rewrite E, IH; reflexivity).
  unfold rd802nc. rewrite R. cbn [bind]. apply rd80_day_ok; [|exact NE|exact G]. intros ->. inversion F; subst; congruence.
Qed.
Print Assumptions C162_day.

(** A file that cannot be read makes the whole day unreadable. *)
Theorem C162_refused to_num to_int to_stamp log10 date before f after e :
  (forall g, In g before -> exists rows, read_rd80 to_num to_int to_stamp g = Ok rows) -> read_rd80 to_num to_int to_stamp f = Raise e ->
  rd802nc to_num to_int to_stamp log10 date (before ++ f :: after) = Raise e.
Proof.
  intros B E. unfold rd802nc. assert (R : read_all to_num to_int to_stamp (before ++ f :: after) = Raise e).
  { induction before as [|g before IH]; cbn [app read_all]; [rewrite E; reflexivity|]. destruct (B g (or_introl eq_refl)) as (rows & R). rewrite R. cbn [bind].
    rewrite IH by (intros h I; apply B; right; exact I). reflexivity. }
  rewrite R. reflexivity.
Qed.
Print Assumptions C162_refused.

(** The date is documented as optional: without it even a good file fails. *)
Theorem C162_no_date_refuted : exists files rows, Forall2 (fun f r => read_rd80 num_of int_of stamp_of f = Ok r) files rows /\
  (forall r, In r (List.concat rows) -> proper (fst r) /\ good_drops (snd r) /\ fst (fst r) = 19860%Z) /\ List.concat rows <> [] /\
  forall log10, rd802nc num_of int_of stamp_of log10 None files = Raise IndexError.
Proof.
  exists [rd_file]. eexists. split; [constructor; [vm_compute; reflexivity|constructor]|]. split; [|split; [discriminate|intros log10; vm_compute; reflexivity]].
  intros r [<-|[<-|[]]]; repeat split; cbn; try lia; discriminate.
Qed.
Print Assumptions C162_no_date_refuted.

(** No row of the day: an output without times, no exception. *)
Theorem C162_no_rows_refuted : exists files, forall log10, exists o, rd802nc num_of int_of stamp_of log10 (Some 19999%Z) files = Ok o /\ ro_hours o = [].
Proof. exists [rd_file]. intros log10. eexists. split; vm_compute; reflexivity. Qed.
Print Assumptions C162_no_rows_refuted.

(** A file with a header only, beside a good file. *)
Theorem C162_empty_file_refuted : exists good empty, (forall log10, exists o, rd802nc num_of int_of stamp_of log10 (Some 19860%Z) [good] = Ok o /\ ro_hours o <> []) /\
  read_rd80 num_of int_of stamp_of empty = Ok [] /\ forall log10, rd802nc num_of int_of stamp_of log10 (Some 19860%Z) [good; empty] = Raise ValueError.
Proof.
  exists rd_file, [tabs titles]. split; [|split; [vm_compute; reflexivity|intros log10; vm_compute; reflexivity]].
  intros log10. destruct (C162_day num_of int_of stamp_of log10 19860 [rd_file] [match read_rd80 num_of int_of stamp_of rd_file with Ok r => r | _ => [] end]) as (o & ind & rows & H & _ & D & P & _ & W & _).
  - discriminate.
  - constructor; [vm_compute; reflexivity|constructor].
  - intros f [<-|[]]. vm_compute. discriminate.
  - intros r I. vm_compute in I. destruct I as [<-|[<-|[]]]; repeat split; cbn; lia || discriminate.
  - exists o. split; [exact H|]. intros E. rewrite E in W. inversion W; subst. inversion P; subst. apply (proj2 (D 0)). split.
    + exists (19860, 39600000000)%Z. split; [vm_compute; reflexivity|]. intros j J. lia.
    + exists (19860, 39600000000)%Z. split; vm_compute; reflexivity.
Qed.
Print Assumptions C162_empty_file_refuted.

Example C162_nonvacuous : exists l, Forall2 (fun f rows => read_rd80 num_of int_of stamp_of f = Ok rows) [rd_file; rd_file] l /\ (forall f, In f l -> f <> []) /\
  (forall r, In r (List.concat l) -> proper (fst r) /\ good_drops (snd r)) /\
  exists o, rd802nc num_of int_of stamp_of (fun _ => 2%Q) (Some 19860%Z) [rd_file; rd_file] = Ok o /\ Forall2 Qeq (ro_hours o) [10; 11]%Q /\ ro_particles o = [0; 140]%Z /\
    ro_reflectivity o = [None; Some 20%Q].
Proof.
  eexists. split; [repeat (constructor; [vm_compute; reflexivity|]); constructor|]. split; [intros f [<-|[<-|[]]]; discriminate|].
  split; [intros r [<-|[<-|[<-|[<-|[]]]]]; repeat split; cbn; lia || discriminate|].
  eexists. split; [vm_compute; reflexivity|]. split; [repeat constructor|]. split; reflexivity.
Qed.

(* ------------------------------------------------------------------ *)
(** ** C163: the size classes of the RD-80 *)

(** The tables are finite and checked completely: the classes are adjacent, every mean
    diameter is the middle of its class to 0.001 mm, larger drops fall faster. *)
Theorem C163_classes : length d_low = 20 /\ length d_mid = 20 /\ length d_upp = 20 /\ length d_spr = 20 /\ length v_mid = 20 /\
  (forall k up lo, nth_error d_upp k = Some up -> nth_error d_low (S k) = Some lo -> (up == lo)%Q) /\
  (forall k lo mid up w, nth_error d_low k = Some lo -> nth_error d_mid k = Some mid -> nth_error d_upp k = Some up -> nth_error d_spr k = Some w ->
     (up - lo == w)%Q /\ (lo < mid)%Q /\ (mid < up)%Q /\ (-(1 # 1000) <= 2 * mid - (lo + up) <= 1 # 1000)%Q) /\
  strictly_increasing v_mid /\ (forall v, In v v_mid -> (0 < v < 10)%Q).
Proof.
  do 5 (split; [reflexivity|]). split; [|split; [|split]].
  - intros k up lo A B. assert (K : k < 20) by (change 20 with (length d_upp); apply nth_error_Some; congruence).
    do 20 (destruct k as [|k]; [cbn in A, B; try discriminate B; injection A as <-; injection B as <-; reflexivity|]). lia.
  - intros k lo mid up w A B C D. assert (K : k < 20) by (change 20 with (length d_upp); apply nth_error_Some; congruence).
    do 20 (destruct k as [|k]; [cbn in A, B, C, D; injection A as <-; injection B as <-; injection C as <-; injection D as <-; repeat split; reflexivity || (vm_compute; discriminate)|]). lia.
  - cbn. repeat constructor.
  - intros v I. cbn in I. repeat (destruct I as [<-|I]; [split; reflexivity|]). destruct I.
Qed.
Print Assumptions C163_classes.

(** No drops: no reflectivity; no negative values without negative counts. *)
Theorem C163_no_drops log10 d : good_drops d -> (forall n, In n (d_n d) -> n = 0%Z) ->
  n_particles (d_n d) = 0%Z /\ (forall x, In x (number_concentration d) -> (x == 0)%Q) /\ reflectivity_db log10 (reflectivity d) = None.
Proof.
  intros [L I] Z. assert (E : d_n d = repeat 0%Z 20).
  { rewrite <- L. clear L I. induction (d_n d) as [|n l IH]; [reflexivity|]. cbn [length repeat]. rewrite <- IH by (intros m M; apply Z; right; exact M). rewrite (Z n (or_introl eq_refl)). reflexivity. }
  split; [rewrite E; reflexivity|]. split.
  - intros x X. unfold number_concentration in X. rewrite E in X. cbn [repeat map2] in X. revert X. generalize (area * inject_Z (d_interval d))%Q. intros q X.
    cbn [combine v_mid d_spr milli map map2] in X. repeat (destruct X as [<-|X]; [unfold Qdiv; apply Qmult_0_l|]). destruct X.
  - unfold reflectivity_db. assert (R : (reflectivity d == 0)%Q).
    { unfold reflectivity. rewrite E. assert (S : (sum_q (map2 (fun n vd => inject_Z n / fst vd * snd vd ^ 6) (repeat 0%Z 20) (combine v_mid d_mid)) == 0)%Q) by reflexivity.
      rewrite S. unfold Qdiv. apply Qmult_0_l. }
    destruct (Qle_bool (reflectivity d) 0) eqn:B; [reflexivity|]. exfalso. assert (X : (reflectivity d <= 0)%Q) by (rewrite R; apply Qle_refl). apply Qle_bool_iff in X. congruence.
Qed.
Print Assumptions C163_no_drops.

(** More drops in the same time: the reflectivity is not lower. *)
Lemma sum_more : forall n n' (t : list (Q * Q)), Forall2 Z.le n n' -> Forall (fun vd => (0 < fst vd)%Q /\ (0 <= snd vd)%Q) t ->
  (sum_q (map2 (fun n vd => inject_Z n / fst vd * snd vd ^ 6) n t) <= sum_q (map2 (fun n vd => inject_Z n / fst vd * snd vd ^ 6) n' t))%Q.
Proof.
  intros n n' t H. revert t. induction H as [|a b n n' L H IH]; intros [|[v D] t] F; cbn; try apply Qle_refl. inversion F as [|? ? [V DD] F']; subst. cbn [fst snd] in *.
  apply Qplus_le_compat; [|apply IH; exact F']. apply Qmult_le_compat_r; [|assert (DD' : (0 <= D * D)%Q) by (apply Qmult_le_0_compat; exact DD); repeat apply Qmult_le_0_compat; assumption].
  unfold Qdiv. apply Qmult_le_compat_r; [rewrite <- Zle_Qle; exact L|]. apply Qlt_le_weak, Qinv_lt_0_compat, V.
Qed.
Theorem C163_more log10 d d' a : good_drops d -> d_interval d' = d_interval d -> Forall2 Z.le (d_n d) (d_n d') ->
  (forall x y, (0 < x)%Q -> (x <= y)%Q -> (log10 x <= log10 y)%Q) ->
  reflectivity_db log10 (reflectivity d) = Some a -> exists b, reflectivity_db log10 (reflectivity d') = Some b /\ (a <= b)%Q.
Proof.
  intros [_ I] EI H M A. assert (R : (reflectivity d <= reflectivity d')%Q).
  { unfold reflectivity. rewrite EI. unfold Qdiv at 1 4. apply Qmult_le_compat_r.
    - apply sum_more; [exact H|]. cbn [combine v_mid d_mid milli map]. repeat (constructor; [split; [reflexivity|discriminate]|]). constructor.
    - apply Qlt_le_weak, Qinv_lt_0_compat. unfold area. rewrite Zlt_Qlt in I. change (inject_Z 0) with 0%Q in I. lra. }
  unfold reflectivity_db in *. destruct (Qle_bool (reflectivity d) 0) eqn:B; [discriminate|].
  assert (P : (0 < reflectivity d)%Q) by (apply Qnot_le_lt; intros X; apply Qle_bool_iff in X; congruence).
  destruct (Qle_bool (reflectivity d') 0) eqn:B'; [apply Qle_bool_iff in B'; lra|]. assert (Q := M _ _ P R).
  destruct (qlt (10 * log10 (reflectivity d)) (-10)) eqn:C; [discriminate|]. injection A as <-. apply GridProofs.qlt_false in C.
  destruct (qlt (10 * log10 (reflectivity d')) (-10)) eqn:C'; [apply GridProofs.qlt_iff in C'; lra|]. eexists. split; [reflexivity|]. lra.
Qed.
Print Assumptions C163_more.

Example C163_nonvacuous :
  let d n := {| d_n := repeat n 20; d_interval := 60; d_rate := None; d_amount := None; d_total := None |} in
  good_drops (d 0%Z) /\ good_drops (d 7%Z) /\ Forall2 Z.le (d_n (d 7%Z)) (d_n (d 9%Z)) /\ reflectivity_db (fun _ => 2%Q) (reflectivity (d 7%Z)) = Some 20%Q.
Proof. cbn zeta. split; [split; reflexivity|]. split; [split; reflexivity|]. split; [repeat constructor; discriminate|]. vm_compute. reflexivity. Qed.

(* ------------------------------------------------------------------ *)
(** ** C164: MRR-PRO *)

(** The profiles of the day in order of time, in SI units. *)
Theorem C164_day argsort d f s0 : (forall l, is_argsort l (argsort l)) -> mrr_aligned f -> (1 <= d)%Z -> In s0 (m_seconds f) -> in_day d s0 -> m_range f <> [] ->
  (forall i, S i = length (m_seconds f) -> forall t, nth_error (m_seconds f) i = Some t -> ~ (t == inject_Z d * 86400)%Q) ->
  exists o ind, mrr2nc argsort (Some d) f = Ok o /\ NoDup ind /\ (forall i, In i ind <-> exists s, nth_error (m_seconds f) i = Some s /\ in_day d s) /\
    Forall2 (fun i h => exists s, nth_error (m_seconds f) i = Some s /\ hour_of d s h) ind (mo_time o) /\ not_decreasing (mo_time o) /\ mrr_written f ind o /\
    (forall r0, hd_error (m_range f) = Some r0 -> length (m_range f) <> length ind -> Forall2 (fun r y => (y == r - r0)%Q) (m_range f) (mo_range o)) /\
    (forall s, hd_error (m_seconds f) = Some s -> in_day (mo_day o) s).
Proof.
  intros HA AL D I S0 R L. destruct (mrr_day_ok argsort d f s0 HA AL D I S0 R L) as (o & ind & r0 & A & B & C & E & F & G & H & J & K & _).
  exists o, ind. repeat (split; [assumption|]). split.
  - intros r H' N. assert (r = r0) by congruence. subst r. apply J. exact N.
  - intros s HS. rewrite K. apply GaugeProofs.day_of_iff. destruct (m_seconds f); [discriminate|]. injection HS as ->. reflexivity.
Qed.
Print Assumptions C164_day.

(** No profile of the day, or none at all. *)
Theorem C164_none argsort d f : (forall s, In s (m_seconds f) -> ~ in_day d s) -> mrr2nc argsort (Some d) f = Raise ValidTimeStampError.
Proof.
  intros H. unfold mrr2nc, init_time. destruct (m_seconds f) as [|s0 rest] eqn:E; [reflexivity|]. rewrite <- E in *.
  assert (X : exists hours, (if existsb (qlt 25) (m_seconds f) then seconds2hours (m_seconds f) else Ok (m_seconds f)) = Ok hours).
  { rewrite E. destruct (existsb _ _); unfold seconds2hours; eexists; reflexivity. }
  destruct X as (hours & X). rewrite X. cbn [bind mrr_screen]. destruct (profiles_of d (m_seconds f)) as [|i ind] eqn:P; [reflexivity|].
  exfalso. assert (I : In i (profiles_of d (m_seconds f))) by (rewrite P; left; reflexivity). apply profiles_in in I. destruct I as (s & N & D). apply (H s); [eapply nth_error_In; exact N|exact D].
Qed.
Print Assumptions C164_none.

Definition mrr_day (s : list Z) (range : list Q) (rows : image (masked Q)) : mrr_file :=
  {| m_seconds := map (fun z => inject_Z (20000 * 86400 + z)) s; m_range := range; m_vars := [("v", rows)]; m_elevation := map (fun _ => 90%Q) s |}.
(** The date of the file is that of the first profile, of whatever day. *)
Theorem C164_date_refuted : exists f o, mrr_aligned f /\ (exists s, In s (m_seconds f) /\ in_day 20000 s) /\
  mrr2nc argsort (Some 20000%Z) f = Ok o /\ mo_day o = 19999%Z.
Proof.
  exists (mrr_day [-60; 3600]%Z [100; 200; 300]%Q [[Some 1%Q]; [Some 2%Q]]). eexists. split; [intros k c [H|[]]; injection H as <- <-; reflexivity|].
  split; [eexists; split; [right; left; reflexivity|]; split; vm_compute; congruence|]. split; vm_compute; reflexivity.
Qed.
Print Assumptions C164_date_refuted.
(** The zenith angle keeps the profiles of all days. *)
Theorem C164_zenith_refuted : exists f o, length (m_elevation f) = length (m_seconds f) /\ mrr2nc argsort (Some 20000%Z) f = Ok o /\
  length (mo_zenith o) <> length (mo_time o).
Proof.
  exists (mrr_day [-60; 3600]%Z [100; 200; 300]%Q [[Some 1%Q]; [Some 2%Q]]). eexists. split; [reflexivity|]. split; [vm_compute; reflexivity|]. discriminate.
Qed.
Print Assumptions C164_zenith_refuted.
(** As many gates as profiles, profiles not in order: the range is reordered too. *)
Theorem C164_range_refuted : exists f o, (forall s, In s (m_seconds f) -> in_day 20000 s) /\ m_range f = [100; 200]%Q /\
  mrr2nc argsort (Some 20000%Z) f = Ok o /\ exists a b, mo_range o = [a; b] /\ (a == 100)%Q /\ (b == 0)%Q.
Proof.
  exists (mrr_day [7200; 3600]%Z [100; 200]%Q [[Some 1%Q]; [Some 2%Q]]). eexists. split; [intros s [<-|[<-|[]]]; split; vm_compute; congruence|]. split; [reflexivity|].
  split; [vm_compute; reflexivity|]. eexists. eexists. split; [reflexivity|]. split; reflexivity.
Qed.
Print Assumptions C164_range_refuted.
(** Files not in order: a last profile at midnight is written as the end of the day. *)
Theorem C164_time_refuted : exists f o h, (forall s, In s (m_seconds f) -> in_day 20000 s) /\
  mrr2nc argsort (Some 20000%Z) f = Ok o /\ In h (mo_time o) /\ forall s, In s (m_seconds f) -> ~ hour_of 20000 s h.
Proof.
  exists (mrr_day [7200; 0]%Z [100; 200; 300]%Q [[Some 1%Q]; [Some 2%Q]]). eexists. exists 24%Q. split; [intros s [<-|[<-|[]]]; split; vm_compute; congruence|].
  split; [vm_compute; reflexivity|]. split; [right; left; reflexivity|]. intros s [<-|[<-|[]]] H; vm_compute in H; discriminate.
Qed.
Print Assumptions C164_time_refuted.

Example C164_nonvacuous : let f := mrr_day [-60; 7200; 3600]%Z [100; 200]%Q [[Some 1%Q; None]; [Some 2%Q; None]; [Some 3%Q; Some 4%Q]] in
  mrr_aligned f /\ In (1728003600 # 1)%Q (m_seconds f) /\ in_day 20000 (1728003600 # 1) /\
  (forall i, S i = length (m_seconds f) -> forall t, nth_error (m_seconds f) i = Some t -> ~ (t == inject_Z 20000 * 86400)%Q) /\
  exists o x y z, mrr2nc argsort (Some 20000%Z) f = Ok o /\ mo_vars o = [("v", [[Some x; Some y]; [Some z; None]])] /\ (x == -3)%Q /\ (y == -4)%Q /\ (z == -2)%Q /\
    Forall2 Qeq (mo_time o) [1; 2]%Q /\ mrr2nc argsort (Some 20001%Z) f = Raise ValidTimeStampError.
Proof.
  cbn zeta. split; [intros k c [H|[]]; injection H as <- <-; reflexivity|]. split; [right; right; left; reflexivity|]. split; [split; vm_compute; congruence|].
  split; [intros i E t N; cbn in E; assert (i = 2) by lia; subst i; injection N as <-; vm_compute; discriminate|].
  do 4 eexists. split; [vm_compute; reflexivity|]. split; [reflexivity|]. repeat (split; [reflexivity|]). split; [repeat constructor|vm_compute; reflexivity].
Qed.
