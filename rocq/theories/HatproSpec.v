(** Specification of the files of RPG microwave radiometers. *)
From Verif Require Import Base TimeSpec InstrumentSpec OutputModel MeltModel RadarModel HatproModel.
From Coq Require Import String.
Local Notation length := List.length (only parsing).
Open Scope string_scope.
Open Scope list_scope.
Open Scope nat_scope.

(** ** One file *)

(** File codes of the manual: kind of file and version of the angles. *)
Definition code (k : kind) (version c : Z) : Prop :=
  (k = Lwp /\ version = 1 /\ c = 934501978)%Z \/ (k = Lwp /\ version = 2 /\ c = 934501000)%Z \/
  (k = Iwv /\ version = 1 /\ c = 594811068)%Z \/ (k = Iwv /\ version = 2 /\ c = 594811000)%Z.
(** A sample that has no earlier one with its time. *)
Definition first_of_time (samples : list sample) (s : sample) : Prop :=
  exists before after, samples = before ++ s :: after /\ forall s', In s' before -> s_time s' <> s_time s.
(** Both bits of the quality level are set. *)
Definition low (s : sample) : Prop := Z.testbit (s_flag s) 1 = true /\ Z.testbit (s_flag s) 2 = true.
(** Nothing but zeros was measured. *)
Definition all_zero (samples : list sample) : Prop := forall s, first_of_time samples s -> (s_value s == 0)%Q.
(** The elevation in the encoded angles. *)
Definition elevation (version : Z) (s : sample) (ele : Q) : Prop :=
  exists azi, (version = 1%Z /\ tenths azi /\ encoded_v1 ele azi (s_angles s)) \/ (version = 2%Z /\ encoded_v2 ele azi (s_angles s)).
(** [w] is the sample [s] in SI units; its value is hidden if it is of low quality or
    if nothing was measured. *)
Definition shows (k : kind) (version : Z) (samples : list sample) (s : sample) (w : hrow) : Prop :=
  w_time w = s_time s /\
  (fst (w_value w) * (match k with Lwp => 1000 | Iwv => 1 end) == s_value s)%Q /\
  (snd (w_value w) = true <-> low s \/ all_zero samples) /\
  (forall ele, elevation version s ele -> w_zenith w == 90 - ele)%Q.
(** The sample is on the expected date, if one is given. *)
Definition dated (epoch : Z) (expected : option Z) (s : sample) : Prop :=
  match expected with None => True | Some day => on_date epoch day (inject_Z (s_time s)) end.
(** [rows] are the samples of the file: every time once in ascending order. *)
Definition contents (epoch : Z) (expected : option Z) (k : kind) (f : bin_file) (rows : list hrow) : Prop :=
  exists version c, b_code f = Some c /\ code k version c /\
    StronglySorted Z.lt (map w_time rows) /\
    (forall w, In w rows -> exists s, first_of_time (b_samples f) s /\ dated epoch expected s /\ shows k version (b_samples f) s w) /\
    (forall s, first_of_time (b_samples f) s -> dated epoch expected s -> exists w, In w rows /\ shows k version (b_samples f) s w).
(** Files that are used. *)
Definition acceptable (epoch : Z) (expected : option Z) (k : kind) (f : bin_file) : Prop :=
  (exists version c, b_code f = Some c /\ code k version c) /\
  (all_zero (b_samples f) \/ exists s, first_of_time (b_samples f) s /\ ~ low s) /\
  (expected = None \/ (b_reference f = 1%Z /\ exists s, first_of_time (b_samples f) s /\ dated epoch expected s)).

(** ** The day *)
Definition suffix_of (k : kind) (s : string) : Prop :=
  lower s = match k with Lwp => ".lwp" | Iwv => ".iwv" end.
(** Alphabetical order of names. *)
Definition before (a b : string) : Prop := (a ?= b)%string = Lt.
(** No two files have names that only differ in the case of the suffix. *)
Definition distinct_names (files : list dir_file) : Prop := NoDup (map (fun f => (d_stem f, lower (d_suffix f))) files).
(** The rows of a file of the directory; none if there is no such file. *)
Definition from_file (epoch : Z) (expected : option Z) (files : list dir_file) (stem : string) (k : kind)
  (used : list (string * string)) (rows : list hrow) : Prop :=
  (exists f, In f files /\ d_stem f = stem /\ suffix_of k (d_suffix f) /\ In (stem, d_suffix f) used /\ contents epoch expected k (d_file f) rows) \/
  (rows = [] /\ forall s, In (stem, s) used -> ~ suffix_of k s).
(** Zenith angles agree where both files have a sample. *)
Definition agree (a b : list hrow) : Prop :=
  forall x y, In x a -> In y b -> w_time x = w_time y -> (w_zenith x == w_zenith y)%Q.
Definition shown (rows : list hrow) (t : Z) (v : masked Q) : Prop :=
  (forall w, In w rows -> w_time w = t -> v = if snd (w_value w) then None else Some (fst (w_value w))) /\
  ((forall w, In w rows -> w_time w <> t) -> v = None).
(** Columns: all times of both files once, in ascending order, with the values of the
    files at that time. *)
Definition joined_files (l i : list hrow) (time lwp iwv zenith : list (masked Q)) : Prop :=
  exists ts, StronglySorted Z.lt ts /\ (forall t, In t ts <-> exists w, (In w l \/ In w i) /\ w_time w = t) /\
    time = map (fun t => Some (inject_Z t)) ts /\
    Forall2 (shown l) ts lwp /\ Forall2 (shown i) ts iwv /\
    Forall2 (fun t z => forall w, In w l \/ In w i -> w_time w = t -> exists x, z = Some x /\ (x == w_zenith w)%Q) ts zenith.
(** The elevation at a sample of a file. *)
Definition points (k : kind) (f : bin_file) (s : sample) (ele : Q) : Prop :=
  exists version c, b_code f = Some c /\ code k version c /\ elevation version s ele.
(** Two files of one stem have the same elevation at the times of both. *)
Definition alike (epoch : Z) (expected : option Z) (l i : bin_file) : Prop :=
  forall s s', first_of_time (b_samples l) s -> first_of_time (b_samples i) s' -> dated epoch expected s -> s_time s = s_time s' ->
  exists ele, points Lwp l s ele /\ points Iwv i s' ele.
Definition apart (epoch : Z) (expected : option Z) (l i : bin_file) : Prop :=
  exists s s' ele ele', first_of_time (b_samples l) s /\ first_of_time (b_samples i) s' /\ dated epoch expected s /\ s_time s = s_time s' /\
    points Lwp l s ele /\ points Iwv i s' ele' /\ ~ (ele == ele')%Q.
(** [f] is a file of the directory with this stem and of this kind that is acceptable. *)
Definition candidate (epoch : Z) (expected : option Z) (files : list dir_file) (stem : string) (k : kind) (f : dir_file) : Prop :=
  In f files /\ d_stem f = stem /\ suffix_of k (d_suffix f) /\ acceptable epoch expected k (d_file f).
(** All rows of a stem: columns time, lwp, iwv and zenith angle. *)
Definition columns : Type := list (masked Q) * list (masked Q) * list (masked Q) * list (masked Q).
Definition c_time (c : columns) := fst (fst (fst c)).
Definition c_lwp (c : columns) := snd (fst (fst c)).
Definition c_iwv (c : columns) := snd (fst c).
Definition c_zenith (c : columns) := snd c.
(** The used files by stem, in alphabetical order, with the columns of each stem. *)
Definition day_parts (epoch : Z) (expected : option Z) (files : list dir_file) (used : list (string * string)) (parts : list (string * columns)) : Prop :=
  StronglySorted before (map fst parts) /\
  (forall s, In s (map fst parts) <-> exists x, In (s, x) used) /\
  Forall (fun p => exists l i, from_file epoch expected files (fst p) Lwp used l /\ from_file epoch expected files (fst p) Iwv used i /\
    joined_files l i (c_time (snd p)) (c_lwp (snd p)) (c_iwv (snd p)) (c_zenith (snd p))) parts.
