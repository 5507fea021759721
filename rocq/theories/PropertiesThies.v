(** Properties C171 to C175: the Thies disdrometer and the products of microwave radiometers. *)
From Coq Require Import List Bool Arith ZArith QArith String Ascii Sorted Permutation Lia Lqa.
From Verif Require Import Base ArrayModel GridModel TimeModel OutputModel SiteModel ReaderModel TelegramModel CliModel NwpModel WsModel.
From Verif Require Import TimeSpec OutputSpec SiteSpec TelegramSpec CliSpec NwpSpec.
From Verif Require Import TimeProofs NwpProofs WsProofs ThiesModel ThiesSpec ThiesProofs.
Import ListNotations.
Open Scope string_scope. Open Scope nat_scope. Open Scope list_scope.
Local Notation length := List.length (only parsing).

(** For the concrete cases: readers of numbers, and telegrams with 15 fields. *)
Definition some_float (w : string) : option Q := option_map inject_Z (parse_int w).
Definition some_day (year month day : Z) : option Z := if (day <? 32)%Z then Some (day + 31 * (month - 1) + 372 * (year - 2020))%Z else None.
Definition some_line (date clock rain : string) : string := ("P;0042;2.10;" ++ date ++ ";" ++ clock ++ ";0;0;NP;0;61;51;NP;2;" ++ rain ++ ";9")%string.
Definition line10 : string := some_line "03.01.20" "10:00:00" "7".
Definition run_thies := thies2nc some_float parse_int some_day parse_int argsort.


(** ** C171: lines *)
Theorem C171_record : forall to_float to_int to_day n line stamp r, read_line to_float to_int to_day n line stamp = Ok (Some r) -> line_record to_float to_int to_day n line stamp r.
Proof.
  intros to_float to_int to_day n line stamp r H. destruct (read_line_cases to_float to_int to_day n line stamp _ (fields_exist line)) as [[_ R]|[_ [(r' & R & L & _)|(x & R & _)]]]; rewrite R in H; [discriminate| |discriminate].
  assert (r' = r) by congruence. subst r'. exact L.
Qed.
Print Assumptions C171_record.
(** A line has at most one record, up to the order of its columns. *)
Theorem C171_determined : forall to_float to_int to_day n line stamp r r', line_record to_float to_int to_day n line stamp r -> line_record to_float to_int to_day n line stamp r' ->
  th_time r = th_time r' /\ (forall key x, In (key, x) (th_fields r) <-> In (key, x) (th_fields r')) /\ th_spectrum r = th_spectrum r'.
Proof.
  intros to_float to_int to_day n line stamp r r' (ws & L & _ & [N F] & S & T) (ws' & L' & _ & [N' F'] & S' & T'). rewrite <- (fields_det _ _ _ L L') in F', S'.
  assert (E : forall key x, In (key, x) (th_fields r) <-> In (key, x) (th_fields r')) by (intros key x; rewrite F, F'; reflexivity). split.
  - destruct stamp as [t|]; cbn in T, T'; [congruence|]. destruct T as (d & s & D & C & ->), T' as (d' & s' & D' & C' & ->). apply E in D, C.
    apply (proj2 (get_in _ _ _ _ N')) in D, C, D', C'. rewrite D in D'. rewrite C in C'. injection D' as ->. injection C' as ->. reflexivity.
  - split; [exact E|]. destruct S as [[A ->]|(A & s & -> & SL & SR & SP)], S' as [[A' ->]|(A' & s' & -> & SL' & SR' & SP')]; try lia; [reflexivity|]. f_equal.
    apply (nth_ext _ _ [] []); [congruence|]. intros d D.
    assert (R : nth_error s d = Some (nth d s [])) by (apply nth_error_nth'; exact D). assert (R' : nth_error s' d = Some (nth d s' [])) by (apply nth_error_nth'; lia).
    assert (LR := SR _ (nth_error_In _ _ R)). assert (LR' := SR' _ (nth_error_In _ _ R')). apply (nth_ext _ _ 0%Z 0%Z); [congruence|]. intros v V. rewrite LR in V.
    destruct (SP d v _ R V) as (w & z & W & Z & Q). destruct (SP' d v _ R' V) as (w' & z' & W' & Z' & Q'). rewrite (nth_error_nth _ _ _ Q), (nth_error_nth _ _ _ Q'). congruence.
Qed.
Print Assumptions C171_determined.
Theorem C171_ignored : forall to_float to_int to_day n line stamp, read_line to_float to_int to_day n line stamp = Ok None <-> ignored n line.
Proof.
  intros to_float to_int to_day n line stamp. assert (L := fields_exist line). rewrite (ignored_iff _ _ _ L).
  destruct (read_line_cases to_float to_int to_day n line stamp _ L) as [[F R]|[F [(r' & R & _)|(x & R & _)]]]; rewrite R; split; try discriminate; try contradiction; auto.
Qed.
Print Assumptions C171_ignored.
Theorem C171_readable : forall to_float to_int to_day n line stamp ws, logger_fields line ws -> fits n ws ->
  ((exists r, read_line to_float to_int to_day n line stamp = Ok (Some r)) <-> readable to_float to_int to_day n ws stamp).
Proof.
  intros to_float to_int to_day n line stamp ws L F. destruct (read_line_cases to_float to_int to_day n line stamp ws L) as [[F' R]|[_ [(r' & R & _ & K)|(x & R & K & _)]]]; rewrite R.
  - contradiction.
  - split; eauto.
  - split; [intros (r & H); discriminate|contradiction].
Qed.
Print Assumptions C171_readable.
Theorem C171_errors : forall to_float to_int to_day n line stamp x, read_line to_float to_int to_day n line stamp = Raise x -> x = ValueError \/ (x = IndexError /\ stamp = None /\ n <= 5).
Proof.
  intros to_float to_int to_day n line stamp x H. destruct (read_line_cases to_float to_int to_day n line stamp _ (fields_exist line)) as [[_ R]|[_ [(r' & R & _)|(y & R & _ & K)]]]; rewrite R in H; try discriminate.
  injection H as <-. exact K.
Qed.
Print Assumptions C171_errors.
Example C171_nonvacuous :
  (exists r, read_line some_float parse_int some_day 15 line10 None = Ok (Some r) /\ th_time r = 295200%Z /\ get String.eqb "rainfall_rate" (th_fields r) = Some (FNum 7) /\
     get String.eqb "_serial_number" (th_fields r) = Some (FText "0042")) /\
  read_line some_float parse_int some_day 15 "a;b" None = Ok None /\
  read_line some_float parse_int some_day 15 (some_line "40.01.20" "10:00:00" "7") None = Raise ValueError /\
  read_line some_float parse_int some_day 4 "P;1;2;3" None = Raise IndexError.
Proof. split; [eexists; split; [vm_compute; reflexivity|repeat split]|repeat split]. Qed.

(** ** C172: files *)
Theorem C172_records : forall to_float to_int to_day to_stamp truncated toa5 lines rs, read_log to_float to_int to_day to_stamp truncated toa5 lines = Ok rs ->
  exists n es outs, columns_of truncated n /\ telegrams to_stamp toa5 lines es /\ Forall2 (outcome to_float to_int to_day n) es outs /\ gathered outs rs /\ rs <> [].
Proof. exact read_log_ok. Qed.
Print Assumptions C172_records.
Theorem C172_readable : forall to_float to_int to_day to_stamp truncated toa5 lines n es, columns_of truncated n -> telegrams to_stamp toa5 lines es ->
  ((exists rs, read_log to_float to_int to_day to_stamp truncated toa5 lines = Ok rs) <->
   Forall (acceptable to_float to_int to_day n) es /\ ~ Forall (fun e => ignored n (fst e)) es) /\
  (read_log to_float to_int to_day to_stamp truncated toa5 lines = Raise ValidTimeStampError <-> Forall (fun e => ignored n (fst e)) es).
Proof. intros to_float to_int to_day to_stamp truncated toa5 lines n es W T. destruct (read_log_readable to_float to_int to_day to_stamp truncated toa5 lines n es W T) as (A & B & _). auto. Qed.
Print Assumptions C172_readable.
(** Every other fault of a file is reported as unreadable data, but for a table without telegrams. *)
Theorem C172_errors : forall to_float to_int to_day to_stamp argsort truncated date toa5 lines x, read_log to_float to_int to_day to_stamp truncated toa5 lines = Raise x ->
  (x = ValidTimeStampError /\ thies2nc to_float to_int to_day to_stamp argsort truncated date toa5 lines = Raise ValidTimeStampError) \/
  thies2nc to_float to_int to_day to_stamp argsort truncated date toa5 lines = Raise DisdrometerDataError \/
  (x = KeyError /\ In None toa5 /\ exists first rest, lines = first :: rest /\ occurs "TOA5" first).
Proof.
  intros to_float to_int to_day to_stamp argsort truncated date toa5 lines x R. destruct (read_log_errors _ _ _ _ _ _ _ _ R) as [-> |[-> |[-> |K]]].
  - left. split; [reflexivity|]. unfold thies2nc. rewrite R. reflexivity.
  - right. left. eapply thies2nc_unreadable; [exact R|auto].
  - right. left. eapply thies2nc_unreadable; [exact R|auto].
  - right. right. exact K.
Qed.
Print Assumptions C172_errors.
(** A table of a data logger without telegrams is not reported as unreadable data. *)
Theorem C172_table_refuted : exists to_float to_int to_day to_stamp argsort truncated date toa5 lines,
  thies2nc to_float to_int to_day to_stamp argsort truncated date toa5 lines = Raise KeyError.
Proof. exists some_float, parse_int, some_day, parse_int, argsort, None, None, [None], ["TOA5"]. reflexivity. Qed.
Print Assumptions C172_table_refuted.
(** A blank line at the end makes a file with time stamps unreadable. *)
Theorem C172_blank_line_refuted : exists to_float to_int to_day to_stamp argsort truncated date lines o,
  thies2nc to_float to_int to_day to_stamp argsort truncated date [] lines = Ok o /\
  thies2nc to_float to_int to_day to_stamp argsort truncated date [] (lines ++ [""]) = Raise DisdrometerDataError.
Proof.
  exists some_float, parse_int, some_day, parse_int, argsort, (Some 16), None, ["Datetime [UTC];telegram"; ("200000;" ++ line10)%string]. eexists.
  split; [vm_compute; reflexivity|reflexivity].
Qed.
Print Assumptions C172_blank_line_refuted.
Example C172_nonvacuous :
  (exists rs, read_log some_float parse_int some_day parse_int (Some 16) [] [line10; ""; line10] = Ok rs /\ length rs = 2) /\
  (exists rs, read_log some_float parse_int some_day parse_int (Some 16) [Some (line10, 5%Z)] ["x TOA5 y"] = Ok rs /\ map th_time rs = [5%Z]) /\
  (exists rs, read_log some_float parse_int some_day parse_int (Some 16) [] ["DateTime [utc];"; ("77;" ++ line10 ++ ";;")%string] = Ok rs /\ map th_time rs = [77%Z]) /\
  read_log some_float parse_int some_day parse_int None [] [line10] = Raise ValidTimeStampError.
Proof. repeat split; try (eexists; split; [vm_compute; reflexivity|reflexivity]). Qed.

(** ** C173: days and instruments *)
Theorem C173_chosen : forall to_float to_int to_day to_stamp argsort truncated date toa5 lines o, (forall l, is_argsort l (argsort l)) ->
  thies2nc to_float to_int to_day to_stamp argsort truncated date toa5 lines = Ok o ->
  exists rs kp, read_log to_float to_int to_day to_stamp truncated toa5 lines = Ok rs /\ chosen date rs kp (to_date o) /\ one_serial kp (to_serial o).
Proof.
  intros to_float to_int to_day to_stamp argsort truncated date toa5 lines o AS H. apply thies2nc_ok in H. destruct H as (rs & R & H).
  destruct (thies_data_output to_float to_int to_day argsort date _ rs o AS (read_log_with _ _ _ _ _ _ _ _ R) H) as (kp & C & S & _). eauto.
Qed.
Print Assumptions C173_chosen.
Theorem C173_accepted : forall to_float to_int to_day to_stamp argsort truncated date toa5 lines n rs kp day s, columns_of truncated n -> 14 < n ->
  read_log to_float to_int to_day to_stamp truncated toa5 lines = Ok rs -> chosen date rs kp day -> one_serial kp s ->
  exists o, thies2nc to_float to_int to_day to_stamp argsort truncated date toa5 lines = Ok o /\ to_date o = day /\ to_serial o = s.
Proof. intros to_float to_int to_day to_stamp argsort truncated date toa5 lines n rs kp day s W L R C S. apply (thies2nc_success _ _ _ _ argsort truncated date toa5 lines n rs kp day s W R C S). exact L. Qed.
Print Assumptions C173_accepted.
Theorem C173_other_days : forall to_float to_int to_day to_stamp argsort truncated d toa5 lines rs, read_log to_float to_int to_day to_stamp truncated toa5 lines = Ok rs ->
  (forall r, In r rs -> ~ on_day d r) -> thies2nc to_float to_int to_day to_stamp argsort truncated (Some d) toa5 lines = Raise DisdrometerDataError.
Proof. exact thies2nc_no_day. Qed.
Print Assumptions C173_other_days.
Theorem C173_other_instruments : forall to_float to_int to_day to_stamp argsort truncated date toa5 lines rs kp day, read_log to_float to_int to_day to_stamp truncated toa5 lines = Ok rs ->
  chosen date rs kp day -> (forall s, ~ one_serial kp s) -> thies2nc to_float to_int to_day to_stamp argsort truncated date toa5 lines = Raise DisdrometerDataError.
Proof. exact thies2nc_serials. Qed.
Print Assumptions C173_other_instruments.
Theorem C173_errors : forall to_float to_int to_day to_stamp argsort truncated date toa5 lines n x, columns_of truncated n -> thies2nc to_float to_int to_day to_stamp argsort truncated date toa5 lines = Raise x ->
  x = ValidTimeStampError \/ x = DisdrometerDataError \/ (x = KeyError /\ (n <= 14 \/ (In None toa5 /\ exists first rest, lines = first :: rest /\ occurs "TOA5" first))).
Proof. exact thies2nc_raises. Qed.
Print Assumptions C173_errors.
(** Without a date, the records of other days are kept. *)
Theorem C173_days_refuted : exists to_float to_int to_day to_stamp argsort truncated lines o h, (forall l, is_argsort l (argsort l)) /\
  thies2nc to_float to_int to_day to_stamp argsort truncated None [] lines = Ok o /\ In h (to_hours o) /\ (24 < h)%Q.
Proof.
  exists some_float, parse_int, some_day, parse_int, argsort, (Some 16), [line10; some_line "04.01.20" "10:00:00" "7"]. eexists. exists (122400 # 3600)%Q.
  split; [exact argsort_is_argsort|]. split; [vm_compute; reflexivity|]. split; [right; left; reflexivity|reflexivity].
Qed.
Print Assumptions C173_days_refuted.
(** Files cut before the rain rate cannot be processed. *)
Theorem C173_cut : forall to_float to_int to_day to_stamp argsort truncated date toa5 lines n rs kp day s, columns_of truncated n -> n <= 14 ->
  read_log to_float to_int to_day to_stamp truncated toa5 lines = Ok rs -> chosen date rs kp day -> one_serial kp s ->
  thies2nc to_float to_int to_day to_stamp argsort truncated date toa5 lines = Raise KeyError.
Proof.
  intros to_float to_int to_day to_stamp argsort truncated date toa5 lines n rs kp day s W L R C S.
  apply (thies2nc_success _ _ _ _ argsort truncated date toa5 lines n rs kp day s W R C S). exact L.
Qed.
Print Assumptions C173_cut.
Theorem C173_cut_refuted : exists to_float to_int to_day to_stamp argsort truncated date lines rs, read_log to_float to_int to_day to_stamp truncated [] lines = Ok rs /\ length rs = 1 /\
  thies2nc to_float to_int to_day to_stamp argsort truncated date [] lines = Raise KeyError.
Proof.
  exists some_float, parse_int, some_day, parse_int, argsort, (Some 8), None, ["P;0042;2.10;03.01.20;10:00:00;0;0"]. eexists. split; [vm_compute; reflexivity|]. split; reflexivity.
Qed.
Print Assumptions C173_cut_refuted.
Example C173_nonvacuous :
  (exists o, run_thies (Some 16) (Some 3%Z) [] [line10; some_line "04.01.20" "10:00:00" "7"] = Ok o /\ to_hours o = [36000 # 3600]%Q /\ to_serial o = "0042") /\
  run_thies (Some 16) (Some 9%Z) [] [line10] = Raise DisdrometerDataError /\
  run_thies (Some 16) None [] [line10; "P;0043;2.10;03.01.20;10:00:00;0;0;NP;0;61;51;NP;2;7;9"] = Raise DisdrometerDataError /\
  run_thies (Some 8) None [] ["P;0042;2.10;03.01.20;10:00:00;0;0"] = Raise KeyError.
Proof. split; [eexists; split; [vm_compute; reflexivity|split; reflexivity]|repeat split; reflexivity]. Qed.

(** ** C174: output *)
Theorem C174_output : forall to_float to_int to_day to_stamp argsort truncated date toa5 lines n o, (forall l, is_argsort l (argsort l)) -> columns_of truncated n ->
  thies2nc to_float to_int to_day to_stamp argsort truncated date toa5 lines = Ok o ->
  exists rs kp, read_log to_float to_int to_day to_stamp truncated toa5 lines = Ok rs /\ chosen date rs kp (to_date o) /\ output_of n kp o.
Proof.
  intros to_float to_int to_day to_stamp argsort truncated date toa5 lines n o AS W H. apply columns_of_iff in W. subst n. apply thies2nc_ok in H. destruct H as (rs & R & H).
  destruct (thies_data_output to_float to_int to_day argsort date _ rs o AS (read_log_with _ _ _ _ _ _ _ _ R) H) as (kp & C & _ & O). eauto.
Qed.
Print Assumptions C174_output.
(** With as many records as classes, and not in order, the classes are put in another order. *)
Definition twenty : list string := map (fun s => some_line "03.01.20" ("10:00:" ++ s) "7")
  ["20"; "01"; "02"; "03"; "04"; "05"; "06"; "07"; "08"; "09"; "10"; "11"; "12"; "13"; "14"; "15"; "16"; "17"; "18"; "19"].
Theorem C174_velocities_refuted : exists to_float to_int to_day to_stamp argsort truncated date lines o, (forall l, is_argsort l (argsort l)) /\
  thies2nc to_float to_int to_day to_stamp argsort truncated date [] lines = Ok o /\ exists x, nth_error (to_velocity o) 0 = Some x /\ (x == 3 # 10)%Q.
Proof.
  exists some_float, parse_int, some_day, parse_int, argsort, (Some 16), None, twenty. eexists. split; [exact argsort_is_argsort|].
  split; [vm_compute; reflexivity|]. eexists. split; [reflexivity|reflexivity].
Qed.
Print Assumptions C174_velocities_refuted.
(** Two records of the same time: one of the diameters is lost. *)
Theorem C174_diameters_refuted : exists to_float to_int to_day to_stamp argsort truncated date lines o, (forall l, is_argsort l (argsort l)) /\
  thies2nc to_float to_int to_day to_stamp argsort truncated date [] lines = Ok o /\ length (to_diameter o) < 22.
Proof.
  exists some_float, parse_int, some_day, parse_int, argsort, (Some 16), None, (twenty ++ [line10; line10]). eexists. split; [exact argsort_is_argsort|].
  split; [vm_compute; reflexivity|]. cbn. lia.
Qed.
Print Assumptions C174_diameters_refuted.
Example C174_nonvacuous :
  exists o, run_thies (Some 16) None [] [some_line "03.01.20" "11:00:00" "1000"; line10] = Ok o /\ Forall2 Qeq (to_hours o) [10; 11]%Q /\
  (exists col, get String.eqb "rainfall_rate" (to_cols o) = Some col /\ exists x, col = [Some x; None] /\ (x == 7 # 3600000)%Q) /\ to_spectra o = [].
Proof.
  eexists. split; [vm_compute; reflexivity|]. split; [repeat constructor|]. split; [|reflexivity]. eexists. split; [reflexivity|]. eexists. split; [reflexivity|reflexivity].
Qed.

(** ** C175: products of microwave radiometers *)
Theorem C175_flags : forall p location x,
  (fst (generate_mwr p location x) = Raise ValidTimeStampError <->
   x = MissingInput \/ x = Failed ValidTimeStampError \/
   exists lwp temperature, x = Written lwp temperature /\ ~ In (Some 0%Z) (match p with Multi => temperature | _ => lwp end)).
Proof.
  intros p location x. assert (V : forall l, some_valid l = true <-> In (Some 0%Z) l).
  { intros l. unfold some_valid. rewrite existsb_exists. split.
    - intros ([z|] & I & E); [apply Z.eqb_eq in E; subst; exact I|discriminate].
    - intros I. exists (Some 0%Z). auto. }
  destruct x as [lwp temperature| |e]; cbn [generate_mwr].
  - cbv zeta. destruct (some_valid (match p with Multi => temperature | _ => lwp end)) eqn:S; cbn [negb fst].
    + apply V in S. split; [discriminate|]. intros [H|[H|(l & t & H & N)]]; try discriminate. injection H as <- <-. contradiction.
    + split; [|reflexivity]. intros _. right. right. exists lwp, temperature. split; [reflexivity|]. intros I. apply V in I. congruence.
  - cbn. split; auto.
  - cbn. split; [intros H; injection H as ->; auto|]. intros [H|[H|(l & t & H & _)]]; try discriminate. injection H as ->. reflexivity.
Qed.
Print Assumptions C175_flags.
(** The type and the title; data of an LHUMPRO become a single-pointing product. *)
Theorem C175_product : forall p location x type title, fst (generate_mwr p location x) = Ok (type, title) ->
  snd (generate_mwr p location x) = true /\
  ((p = Multi /\ type = "mwr-multi" /\ title = ("MWR multiple-pointing from " ++ location)%string) \/
   (p <> Multi /\ type = "mwr-single" /\ title = ("MWR single-pointing from " ++ location)%string)).
Proof.
  intros p location x type title. destruct x as [lwp temperature| |e]; cbn [generate_mwr fst]; try discriminate. cbv zeta.
  destruct (some_valid (match p with Multi => temperature | _ => lwp end)); cbn [negb fst snd]; [|discriminate].
  intros H. split; [reflexivity|]. destruct p; injection H as <- <-; [right|left|right]; repeat split; discriminate.
Qed.
Print Assumptions C175_product.
(** A file with flagged data only is refused but not removed. *)
Theorem C175_left_refuted : exists p location x, fst (generate_mwr p location x) = Raise ValidTimeStampError /\ snd (generate_mwr p location x) = true.
Proof. exists Single, "", (Written [Some 3%Z; None] []). split; reflexivity. Qed.
Print Assumptions C175_left_refuted.
(** Every link has a path; the file there has the content of the last link with its name. *)
Theorem C175_coefficients : forall content folder links i link name, nth_error links i = Some link -> file_of link name ->
  nth_error (snd (coefficient_files content folder links)) i = Some (folder ++ "/" ++ name)%string /\
  length (snd (coefficient_files content folder links)) = length links /\
  NoDup (map fst (fst (coefficient_files content folder links))) /\
  ((forall j l, nth_error links j = Some l -> i < j -> ~ file_of l name) -> In ((folder ++ "/" ++ name)%string, content link) (fst (coefficient_files content folder links))).
Proof.
  intros content folder links i link name E F. rewrite (file_of_unique _ _ _ F (file_of_basename link)).
  destruct (coefficient_step content folder links [] []) as (A & B & C & _). unfold coefficient_files. cbv zeta in A, B, C. rewrite A. cbn [app].
  split; [rewrite nth_error_map, E; reflexivity|]. split; [apply map_length|]. split; [apply B; constructor|]. intros H. apply (C i link E).
  intros j l J L Q. apply (H j l J L). rewrite <- Q. apply file_of_basename.
Qed.
Print Assumptions C175_coefficients.
(** Two links with the same file name: the first has the content of the second. *)
Theorem C175_names_refuted : exists content folder a b path, content a <> content b /\
  snd (coefficient_files content folder [a; b]) = [path; path] /\ fst (coefficient_files content folder [a; b]) = [(path, content b)].
Proof. exists (fun s => s), "tmp", "x/lwp.nc", "y/lwp.nc", "tmp/lwp.nc". split; [discriminate|]. split; reflexivity. Qed.
Print Assumptions C175_names_refuted.
Example C175_nonvacuous :
  fst (generate_mwr Lhumpro "Lampedusa" (Written [Some 4%Z; Some 0%Z] [Some 1%Z])) = Ok ("mwr-single", "MWR single-pointing from Lampedusa") /\
  fst (generate_mwr Multi "Lampedusa" (Written [Some 4%Z; Some 0%Z] [Some 1%Z])) = Raise ValidTimeStampError /\
  coefficient_files (fun s => s) "t" ["u/a"; "v/b"] = ([("t/a", "u/a"); ("t/b", "v/b")], ["t/a"; "t/b"]).
Proof. repeat split; reflexivity. Qed.
