(** Properties of the files of RPG microwave radiometers. *)
From Verif Require Import Base TimeSpec OutputModel InstrumentSpec MeltModel RadarModel RpgModel HatproModel HatproSpec HatproProofs.
From Coq Require Import String Lqa.
Open Scope string_scope.
Open Scope nat_scope.
Open Scope list_scope.
Local Notation length := List.length (only parsing).

(** ** C114: one file *)
(** A file that is read has every time once in ascending order, with the first sample
    of that time in SI units; samples of low quality and files with nothing but zeros
    are hidden; only samples of the expected date are kept. *)
Theorem C114_contents : forall epoch expected k f o, load epoch expected k f = Ok o ->
  contents epoch expected k (d_file f) (h_rows o) /\ h_stem o = d_stem f /\ h_suffix o = d_suffix f /\ h_kind o = k.
Proof.
  intros epoch expected k f o L. pose proof (load_cases epoch expected k f) as C. rewrite L in C. destruct C as (C1 & C2 & C3 & C4 & _). auto.
Qed.
(** Exactly the acceptable files are read: a known file code, something that is not of
    low quality, and a sample of the expected date in UTC. *)
Theorem C114_accepted : forall epoch expected k f, (exists o, load epoch expected k f = Ok o) <-> acceptable epoch expected k (d_file f).
Proof.
  intros epoch expected k f. pose proof (load_cases epoch expected k f) as C. destruct (load epoch expected k f) as [o|e].
  - destruct C as (_ & _ & _ & _ & A). split; [auto|]. intros _. exists o. reflexivity.
  - destruct C as (N & _). split; [intros (o & X); discriminate|contradiction].
Qed.
(** The errors of the others. *)
Theorem C114_errors : forall epoch expected k f e, load epoch expected k f = Raise e ->
  (e = IndexError /\ b_code (d_file f) = None) \/
  (e = ValueError /\ exists c, b_code (d_file f) = Some c /\ forall v, ~ code k v c) \/
  (e = ValidTimeStampError /\ ~ all_zero (b_samples (d_file f)) /\ forall s, first_of_time (b_samples (d_file f)) s -> low s) \/
  (e = ValueError /\ exists day, expected = Some day /\
     (b_reference (d_file f) <> 1%Z \/ forall s, first_of_time (b_samples (d_file f)) s -> ~ on_date epoch day (inject_Z (s_time s)))).
Proof. intros epoch expected k f e L. pose proof (load_cases epoch expected k f) as C. rewrite L in C. apply C. Qed.
(** The zenith angle of a row is that of the first sample of its time. *)
Theorem C114_zenith : forall epoch expected k f o s w ele, load epoch expected k f = Ok o -> In w (h_rows o) ->
  first_of_time (b_samples (d_file f)) s -> w_time w = s_time s -> points k (d_file f) s ele -> (w_zenith w == 90 - ele)%Q.
Proof.
  intros epoch expected k f o s w ele L I S T P. destruct (C114_contents _ _ _ _ _ L) as (C & _). destruct (shows_zenith _ _ _ _ _ _ C I) as (s' & S' & _ & T' & Z). apply Z.
  assert (E : s' = s); [|subst s'; exact P]. apply (hits_unique (b_samples (d_file f))); [exact S'|exact S|congruence].
Qed.
Print Assumptions C114_contents.
Print Assumptions C114_accepted.
Print Assumptions C114_errors.
Print Assumptions C114_zenith.
Definition ex_sample (t flag : Z) (v : Q) : sample := {| s_time := t; s_flag := flag; s_value := v; s_angles := 900000000 |}.
Definition ex_file (code : Z) (samples : list sample) : bin_file := {| b_code := Some code; b_reference := 1; b_samples := samples |}.
Definition ex_row (t flag : Z) (v : Q) (hidden : bool) : hrow := {| w_time := t; w_flag := flag; w_value := (v, hidden); w_zenith := 0 |}.
Definition same_row (a b : hrow) : Prop :=
  w_time a = w_time b /\ (fst (w_value a) == fst (w_value b))%Q /\ snd (w_value a) = snd (w_value b) /\ (w_zenith a == w_zenith b)%Q.
Example C114_nonvacuous :
  (exists o, load 0 (Some 0%Z) Lwp {| d_stem := "a"; d_suffix := ".LWP";
     d_file := ex_file 934501000 [ex_sample 20 0 50; ex_sample 10 6 40; ex_sample 20 0 60; ex_sample 90000 0 70] |} = Ok o /\
     Forall2 same_row (h_rows o) [ex_row 10 6 (40 # 1000) true; ex_row 20 0 (50 # 1000) false]) /\
  elevation 2 (ex_sample 20 0 50) 90 /\
  load 0 (Some 0%Z) Iwv {| d_stem := "a"; d_suffix := ".IWV"; d_file := ex_file 934501000 [ex_sample 20 0 50] |} = Raise ValueError /\
  load 0 (Some 0%Z) Lwp {| d_stem := "a"; d_suffix := ".LWP"; d_file := ex_file 934501000 [ex_sample 20 7 50] |} = Raise ValidTimeStampError.
Proof.
  split; [|split; [|split; vm_compute; reflexivity]].
  - eexists. split; [vm_compute; reflexivity|]. cbn [h_rows]. repeat (constructor; [vm_compute; auto|]). constructor.
  - exists 0%Q. right. split; [reflexivity|]. exists 9000%Z, 0%Z. split; [lia|]. split; [reflexivity|]. split; [reflexivity|]. left. split; [lia|reflexivity].
Qed.

(** ** C115: the day *)
(** The record has the samples of all used files by name; every time of the files with
    one stem occurs once, with both values. *)
Theorem C115_record : forall epoch expected files t used, distinct_names files -> hatpro_record epoch expected files = Ok (t, used) ->
  (exists s, In (s, ".IWV") used) ->
  exists parts, day_parts epoch expected files used parts /\
    lookup "time" t = Some (List.concat (map (fun p => c_time (snd p)) parts)) /\
    lookup "lwp" t = Some (List.concat (map (fun p => c_lwp (snd p)) parts)) /\
    lookup "iwv" t = Some (List.concat (map (fun p => c_iwv (snd p)) parts)) /\
    lookup "zenith_angle" t = Some (List.concat (map (fun p => c_zenith (snd p)) parts)).
Proof.
  intros epoch expected files t used D R (s & I). destruct (record_inv _ _ _ _ _ D R) as (U & (s' & I') & St).
  assert (X : existsb (fun u => (snd u =? ".IWV")%string) used = true) by (apply existsb_exists; exists (s, ".IWV"); split; [exact I|reflexivity]). rewrite X in St.
  assert (Un : used <> []) by (intros Z; rewrite Z in I; destruct I). rewrite U in Un.
  destruct (parts_day epoch expected files (fun s c t => lookup "iwv" t = Some (c_iwv c)) full (cut_full epoch expected files D) Un t St) as (parts & P & Pn & F & T1 & T2 & T3 & J). rewrite <- U in P.
  exists parts. split; [exact P|]. split; [exact T1|]. split; [exact T2|]. split; [|exact T3].
  apply (concat_column t _ parts c_iwv "iwv" J eq_refl Pn F).
Qed.
(** Without water vapour files the record has no water vapour. *)
Theorem C115_lwp_only : forall epoch expected files t used, distinct_names files -> hatpro_record epoch expected files = Ok (t, used) ->
  (forall s x, In (s, x) used -> ~ suffix_of Iwv x) ->
  lookup "iwv" t = None /\ exists parts, day_parts epoch expected files used parts /\
    lookup "time" t = Some (List.concat (map (fun p => c_time (snd p)) parts)) /\
    lookup "lwp" t = Some (List.concat (map (fun p => c_lwp (snd p)) parts)) /\
    lookup "zenith_angle" t = Some (List.concat (map (fun p => c_zenith (snd p)) parts)).
Proof.
  intros epoch expected files t used D R N. destruct (record_inv _ _ _ _ _ D R) as (U & (s' & I') & St).
  assert (X : existsb (fun u => (snd u =? ".IWV")%string) used = false).
  { destruct (existsb _ used) eqn:X; [|reflexivity]. apply existsb_exists in X. destruct X as ([s x] & I & E). apply String.eqb_eq in E. cbn [snd] in E. subst x. destruct (N s ".IWV" I eq_refl). }
  rewrite X in St. assert (Un : used <> []) by (intros Z; rewrite Z in I'; destruct I'). rewrite U in Un, N.
  destruct (parts_day epoch expected files (fun s c t => lookup "iwv" t = None) (fun t => t) (cut_plain epoch expected files D N) Un t St) as (parts & P & Pn & F & T1 & T2 & T3 & J). rewrite <- U in P.
  split; [|exists parts; auto]. specialize (J "iwv" eq_refl). apply (RpgProofs.joined_none _ _ _ J).
  clear - F. induction F as [|p x ps xs H _ IH]; constructor; assumption.
Qed.
(** All columns have the same length. *)
Theorem C115_lengths : forall epoch expected files t used, distinct_names files -> hatpro_record epoch expected files = Ok (t, used) ->
  (exists s, In (s, ".IWV") used) ->
  exists n, forall k, In k ["time"; "lwp"; "iwv"; "zenith_angle"] -> exists l, lookup k t = Some l /\ length l = n.
Proof.
  intros epoch expected files t used D R I. destruct (C115_record _ _ _ _ _ D R I) as (parts & (_ & _ & P) & T & L & W & Z). eexists.
  assert (G : length (List.concat (map (fun p => c_lwp (snd p)) parts)) = length (List.concat (map (fun p => c_time (snd p)) parts)) /\
    length (List.concat (map (fun p => c_iwv (snd p)) parts)) = length (List.concat (map (fun p => c_time (snd p)) parts)) /\
    length (List.concat (map (fun p => c_zenith (snd p)) parts)) = length (List.concat (map (fun p => c_time (snd p)) parts))).
  { clear - P. induction P as [|p parts H _ IH]; [auto|]. destruct H as (l & i & _ & _ & J). destruct (joined_lengths _ _ _ _ _ _ J) as (E1 & E2 & E3). cbn [map List.concat].
    rewrite !app_length, E1, E2, E3. destruct IH as (-> & -> & ->). auto. }
  destruct G as (G1 & G2 & G3). intros k [<-|[<-|[<-|[<-|[]]]]]; eexists; (split; [eassumption|]); [reflexivity|exact G1|exact G2|exact G3].
Qed.
(** The used files are acceptable ones. *)
Theorem C115_used : forall epoch expected files t used, distinct_names files -> hatpro_record epoch expected files = Ok (t, used) ->
  (exists s, In (s, ".LWP") used) /\
  (forall s x, In (s, x) used -> exists f k, candidate epoch expected files s k f /\ d_suffix f = x) /\
  (forall s k f, candidate epoch expected files s k f ->
     (forall l i, candidate epoch expected files s Lwp l -> candidate epoch expected files s Iwv i -> alike epoch expected (d_file l) (d_file i)) ->
     In (s, d_suffix f) used) /\
  (forall s l i, candidate epoch expected files s Lwp l -> candidate epoch expected files s Iwv i -> apart epoch expected (d_file l) (d_file i) ->
     forall x, ~ In (s, x) used).
Proof.
  intros epoch expected files t used D R. destruct (record_inv _ _ _ _ _ D R) as (U & L & _). split; [exact L|]. rewrite U. split; [|split].
  - intros s x I. apply (used_candidate epoch expected files s x I).
  - intros s k f C H. apply (alike_used epoch expected files D f k s C H).
  - intros s l i Cl Ci A x. apply (apart_unused epoch expected files D s l i Cl Ci A).
Qed.
(** There is a record if some liquid water path file is acceptable and every file has a
    header; otherwise the error tells which of these is missing. *)
Theorem C115_succeeds : forall epoch expected files s f, distinct_names files ->
  (forall g k, In g files -> suffix_of k (d_suffix g) -> b_code (d_file g) <> None) ->
  candidate epoch expected files s Lwp f -> d_suffix f = ".LWP" ->
  (forall l i, candidate epoch expected files s Lwp l -> candidate epoch expected files s Iwv i -> alike epoch expected (d_file l) (d_file i)) ->
  exists t used, hatpro_record epoch expected files = Ok (t, used).
Proof.
  intros epoch expected files s f D H C E A. destruct (hatpro_record epoch expected files) as [[t used]|e] eqn:R; [exists t, used; reflexivity|exfalso].
  destruct (record_raise _ _ _ _ D R) as [(_ & g & k & G & K & N)|(_ & N)]; [exact (H g k G K N)|].
  apply (N s). rewrite <- E. exact (alike_used epoch expected files D f Lwp s C A).
Qed.
Theorem C115_errors : forall epoch expected files e, distinct_names files -> hatpro_record epoch expected files = Raise e ->
  (e = IndexError /\ exists f k, In f files /\ suffix_of k (d_suffix f) /\ b_code (d_file f) = None) \/
  (e = ValidTimeStampError /\ forall s f, candidate epoch expected files s Lwp f -> d_suffix f = ".LWP" ->
     ~ forall l i, candidate epoch expected files s Lwp l -> candidate epoch expected files s Iwv i -> alike epoch expected (d_file l) (d_file i)).
Proof.
  intros epoch expected files e D R. destruct (record_raise _ _ _ _ D R) as [X|(E & N)]; [left; exact X|]. right. split; [exact E|].
  intros s f C Ef A. apply (N s). rewrite <- Ef. exact (alike_used epoch expected files D f Lwp s C A).
Qed.
Definition ex_lwp : bin_file := ex_file 934501000 [ex_sample 10 0 40; ex_sample 20 0 50].
Definition ex_iwv : bin_file := ex_file 594811000 [ex_sample 20 0 7; ex_sample 30 0 8].
(** Files are read with the suffix in any case of letters, but a directory with a
    readable lower-case file only is rejected. *)
Theorem C115_lower_case_refuted : exists epoch files f,
  files = [f] /\ suffix_of Lwp (d_suffix f) /\ acceptable epoch None Lwp (d_file f) /\ hatpro_record epoch None files = Raise ValidTimeStampError.
Proof.
  exists 0%Z, [{| d_stem := "a"; d_suffix := ".lwp"; d_file := ex_lwp |}], {| d_stem := "a"; d_suffix := ".lwp"; d_file := ex_lwp |}.
  split; [reflexivity|]. split; [reflexivity|]. split; [|vm_compute; reflexivity]. apply (C114_accepted 0 None Lwp {| d_stem := "a"; d_suffix := ".lwp"; d_file := ex_lwp |}). eexists. vm_compute. reflexivity.
Qed.
(** With a lower-case water vapour file the columns of the record differ in length. *)
Theorem C115_lower_case_length_refuted : exists epoch files t used time iwv,
  distinct_names files /\ hatpro_record epoch None files = Ok (t, used) /\ lookup "time" t = Some time /\ lookup "iwv" t = Some iwv /\ length iwv <> length time.
Proof.
  exists 0%Z, [{| d_stem := "a"; d_suffix := ".LWP"; d_file := ex_lwp |}; {| d_stem := "a"; d_suffix := ".iwv"; d_file := ex_iwv |}; {| d_stem := "b"; d_suffix := ".LWP"; d_file := ex_lwp |}].
  do 4 eexists. split; [|split; [vm_compute; reflexivity|split; [vm_compute; reflexivity|split; [vm_compute; reflexivity|cbn; discriminate]]]].
  unfold distinct_names. vm_compute. repeat constructor; cbn; intros X; repeat (destruct X as [X|X]; [discriminate|]); exact X.
Qed.
(** One empty file stops the processing of the day. *)
Theorem C115_empty_file_refuted : exists epoch files f,
  In f files /\ d_suffix f = ".LWP" /\ acceptable epoch None Lwp (d_file f) /\ distinct_names files /\ hatpro_record epoch None files = Raise IndexError.
Proof.
  exists 0%Z, [{| d_stem := "a"; d_suffix := ".LWP"; d_file := ex_lwp |}; {| d_stem := "b"; d_suffix := ".IWV"; d_file := {| b_code := None; b_reference := 1; b_samples := [] |} |}], {| d_stem := "a"; d_suffix := ".LWP"; d_file := ex_lwp |}.
  split; [left; reflexivity|]. split; [reflexivity|]. split; [apply (C114_accepted 0 None Lwp {| d_stem := "a"; d_suffix := ".LWP"; d_file := ex_lwp |}); eexists; vm_compute; reflexivity|].
  split; [|vm_compute; reflexivity]. unfold distinct_names. vm_compute. repeat constructor; cbn; intros X; repeat (destruct X as [X|X]; [discriminate|]); exact X.
Qed.
(** So do three files that differ in the case of letters only. *)
Theorem C115_three_files_refuted : exists epoch files,
  (forall f, In f files -> exists k, suffix_of k (d_suffix f) /\ acceptable epoch None k (d_file f)) /\ hatpro_record epoch None files = Raise NotImplementedError.
Proof.
  exists 0%Z, [{| d_stem := "a"; d_suffix := ".LWP"; d_file := ex_lwp |}; {| d_stem := "a"; d_suffix := ".lwp"; d_file := ex_lwp |}; {| d_stem := "a"; d_suffix := ".IWV"; d_file := ex_iwv |}].
  split; [|vm_compute; reflexivity]. intros f [<-|[<-|[<-|[]]]].
  - exists Lwp. split; [reflexivity|]. apply (C114_accepted 0 None Lwp {| d_stem := "a"; d_suffix := ".LWP"; d_file := ex_lwp |}). eexists. vm_compute. reflexivity.
  - exists Lwp. split; [reflexivity|]. apply (C114_accepted 0 None Lwp {| d_stem := "a"; d_suffix := ".LWP"; d_file := ex_lwp |}). eexists. vm_compute. reflexivity.
  - exists Iwv. split; [reflexivity|]. apply (C114_accepted 0 None Iwv {| d_stem := "a"; d_suffix := ".IWV"; d_file := ex_iwv |}). eexists. vm_compute. reflexivity.
Qed.
Print Assumptions C115_record.
Print Assumptions C115_lwp_only.
Print Assumptions C115_lengths.
Print Assumptions C115_used.
Print Assumptions C115_succeeds.
Print Assumptions C115_errors.
Print Assumptions C115_lower_case_refuted.
Print Assumptions C115_lower_case_length_refuted.
Print Assumptions C115_empty_file_refuted.
Print Assumptions C115_three_files_refuted.
Definition same_masked (a b : masked Q) : Prop := match a, b with Some x, Some y => (x == y)%Q | None, None => True | _, _ => False end.
Example C115_nonvacuous : exists t,
  hatpro_record 0 None [{| d_stem := "b"; d_suffix := ".LWP"; d_file := ex_lwp |}; {| d_stem := "a"; d_suffix := ".LWP"; d_file := ex_lwp |}; {| d_stem := "a"; d_suffix := ".IWV"; d_file := ex_iwv |}] =
    Ok (t, [("a", ".LWP"); ("a", ".IWV"); ("b", ".LWP")]) /\
  (exists l, lookup "time" t = Some l /\ Forall2 same_masked l [Some 10; Some 20; Some 30; Some 10; Some 20]%Q) /\
  (exists l, lookup "lwp" t = Some l /\ Forall2 same_masked l [Some (4 # 100); Some (5 # 100); None; Some (4 # 100); Some (5 # 100)]%Q) /\
  (exists l, lookup "iwv" t = Some l /\ Forall2 same_masked l [None; Some 7; Some 8; None; None]%Q) /\
  distinct_names [{| d_stem := "b"; d_suffix := ".LWP"; d_file := ex_lwp |}; {| d_stem := "a"; d_suffix := ".LWP"; d_file := ex_lwp |}; {| d_stem := "a"; d_suffix := ".IWV"; d_file := ex_iwv |}].
Proof.
  eexists. split; [vm_compute; reflexivity|]. split; [|split; [|split]].
  - eexists. split; [vm_compute; reflexivity|]. repeat (constructor; [vm_compute; auto|]). constructor.
  - eexists. split; [vm_compute; reflexivity|]. repeat (constructor; [vm_compute; auto|]). constructor.
  - eexists. split; [vm_compute; reflexivity|]. repeat (constructor; [vm_compute; auto|]). constructor.
  - unfold distinct_names. vm_compute. repeat constructor; cbn; intros X; repeat (destruct X as [X|X]; [discriminate|]); exact X.
Qed.
