(** Properties C188 and C189: the raw files of a folder, profiles without model data. *)
From Verif Require Import Base HatproSpec NcRadarModel FolderModel FolderSpec FolderProofs.
From Coq Require Import String Ascii Sorting.Sorted Permutation.
Open Scope string_scope.
Open Scope nat_scope.
Open Scope list_scope.
Local Notation length := List.length (only parsing).

(** ** C188: files of a folder *)

(** Exactly the files with the extension, in the order of their names. *)
Theorem C188_sorted : forall folder listing extension l, NoDup listing ->
  (get_sorted_filenames folder listing extension = l <->
   by_name l /\ forall f, In f l <-> exists name, In name listing /\ has_extension extension name /\ f = (folder ++ "/" ++ name)%string).
Proof.
  intros d ls x l N. pose proof (sorted_by_name d ls x N) as S. pose proof (sorted_in d ls x) as I. unfold candidates in I. split.
  - intros <-. auto.
  - intros [B E]. apply by_name_unique; [exact S|exact B|]. intros f. rewrite I, E. reflexivity.
Qed.
Print Assumptions C188_sorted.

(** The order in which the system lists the folder is irrelevant. *)
Theorem C188_any_order : forall fs folder listing listing', Permutation listing listing' ->
  (forall extension, get_sorted_filenames folder listing extension = get_sorted_filenames folder listing' extension) /\
  chilbolton_files fs folder listing = chilbolton_files fs folder listing' /\
  mira_folder folder listing = mira_folder folder listing'.
Proof.
  intros fs d l l' P.
  assert (E : forall x, get_sorted_filenames d l x = get_sorted_filenames d l' x).
  { intros x. unfold get_sorted_filenames. apply sorted_unique; try apply PollyProofs.sort_names_spec.
    eapply Permutation_trans; [apply sort_perm|]. eapply Permutation_trans; [apply map_perm_filter, P|]. apply Permutation_sym, sort_perm. }
  split; [exact E|]. unfold chilbolton_files, mira_folder. rewrite !E. auto.
Qed.
Print Assumptions C188_any_order.

(** Copernicus and Galileo: the files with times and reflectivities are used. *)
Theorem C188_with_variables : forall fs folder listing l, NoDup listing ->
  (chilbolton_files fs folder listing = Ok l <->
   (forall name, In name listing -> has_extension ".nc" name -> fs (folder ++ "/" ++ name)%string <> None) /\
   by_name l /\
   forall f, In f l <-> exists name there, In name listing /\ has_extension ".nc" name /\ f = (folder ++ "/" ++ name)%string /\
                        fs f = Some there /\ In "time" there /\ In "ZED_HC" there).
Proof.
  intros fs d ls l N. pose proof (sorted_by_name d ls ".nc" N) as S. pose proof (sorted_in d ls ".nc") as I. unfold candidates in I.
  assert (G : forall l0, chilbolton_files fs d ls = Ok l0 ->
    (forall name, In name ls -> has_extension ".nc" name -> fs (d ++ "/" ++ name)%string <> None) /\ by_name l0 /\
    forall f, In f l0 <-> exists name there, In name ls /\ has_extension ".nc" name /\ f = (d ++ "/" ++ name)%string /\ fs f = Some there /\ In "time" there /\ In "ZED_HC" there).
  { intros l0 H. apply with_variables_ok in H as [R ->]. split; [|split].
    - intros name A B. apply R, I. exists name. auto.
    - apply filter_by_name, S.
    - intros f. rewrite filter_In, I. split.
      + intros [(name & A & B & E) T]. destruct (fs f) as [there|] eqn:F; [|discriminate]. rewrite all_there_iff in T. exists name, there.
        repeat split; auto; apply T; cbn; auto.
      + intros (name & there & A & B & E & F & T1 & T2). split; [exists name; auto|]. rewrite F. apply all_there_iff. intros v [<-|[<-|[]]]; assumption. }
  split; [apply G|]. intros (R & B & E). destruct (chilbolton_files fs d ls) as [l0|e] eqn:C.
  - destruct (G l0 eq_refl) as (_ & B0 & E0). f_equal. apply by_name_unique; [exact B0|exact B|]. intros f. rewrite E0, E. reflexivity.
  - exfalso. apply with_variables_error in C as [_ (f & J & F)]. apply I in J as (name & A & X & ->). exact (R name A X F).
Qed.
Print Assumptions C188_with_variables.

(** One file that cannot be opened, and there is no result. *)
Theorem C188_unreadable : forall fs folder listing e, chilbolton_files fs folder listing = Raise e <->
  e = OSError /\ exists name, In name listing /\ has_extension ".nc" name /\ fs (folder ++ "/" ++ name)%string = None.
Proof.
  intros fs d ls e. unfold chilbolton_files. rewrite with_variables_error. split; intros [-> H]; (split; [reflexivity|]).
  - destruct H as (f & I & F). apply sorted_in in I as (name & A & B & ->). exists name. auto.
  - destruct H as (name & A & B & F). exists (d ++ "/" ++ name)%string. split; [apply sorted_in; exists name; auto|exact F].
Qed.
Print Assumptions C188_unreadable.

(** MRR: files that cannot be opened are left out, the others keep their order. *)
Theorem C188_mrr : forall fs names, (forall f, fs f <> None <-> valid_nc_files fs [f] = [f]) /\
  (forall f, fs f = None <-> valid_nc_files fs [f] = []) /\
  forall names', valid_nc_files fs (names ++ names') = valid_nc_files fs names ++ valid_nc_files fs names'.
Proof.
  intros fs names. split; [|split].
  - intros f. cbn. destruct (fs f); split; congruence.
  - intros f. cbn. destruct (fs f); split; congruence.
  - intros names'. induction names as [|f r IH]; [reflexivity|]. cbn. destruct (fs f); [cbn; rewrite IH; reflexivity|exact IH].
Qed.
Print Assumptions C188_mrr.

(** MIRA: znc files, and only if there are none mmclx files. *)
Theorem C188_mira : forall folder listing l, NoDup listing ->
  (mira_folder folder listing = Some l <->
   l <> [] /\ by_name l /\ exists extension,
     (extension = ".znc" \/ (extension = ".mmclx" /\ forall name, In name listing -> ~ has_extension ".znc" name)) /\
     forall f, In f l <-> exists name, In name listing /\ has_extension extension name /\ f = (folder ++ "/" ++ name)%string).
Proof.
  intros d ls l N. unfold mira_folder.
  pose proof (sorted_in d ls ".znc") as Iz. pose proof (sorted_in d ls ".mmclx") as Im. unfold candidates in Iz, Im.
  pose proof (sorted_by_name d ls ".znc" N) as Sz. pose proof (sorted_by_name d ls ".mmclx" N) as Sm.
  destruct (get_sorted_filenames d ls ".znc") as [|z zs].
  - assert (Z : forall name, In name ls -> ~ has_extension ".znc" name) by (intros name A B; apply (Iz (d ++ "/" ++ name)%string); exists name; auto).
    destruct (get_sorted_filenames d ls ".mmclx") as [|m ms].
    + split; [discriminate|]. intros (E & _ & x & [-> | [-> _]] & J); exfalso; apply E; destruct l as [|f r]; [reflexivity| |reflexivity|].
      * assert (K : In f (f :: r)) by (left; reflexivity). apply J in K as (name & A & B & _). exfalso. exact (Z name A B).
      * assert (K : In f (f :: r)) by (left; reflexivity). apply J, Im in K. destruct K.
    + split.
      * intros H. assert (l = m :: ms) by congruence. subst. split; [discriminate|]. split; [exact Sm|]. exists ".mmclx". split; [right; auto|exact Im].
      * intros (E & B & x & [-> | [-> _]] & J).
        { exfalso. apply E. destruct l as [|f r]; [reflexivity|]. assert (K : In f (f :: r)) by (left; reflexivity). apply J in K as (name & A & X & _). exfalso. exact (Z name A X). }
        { f_equal. apply by_name_unique; [exact Sm|exact B|]. intros f. rewrite Im, J. reflexivity. }
  - split.
    + intros H. assert (l = z :: zs) by congruence. subst. split; [discriminate|]. split; [exact Sz|]. exists ".znc". split; [left; reflexivity|exact Iz].
    + intros (E & B & x & [-> | [-> W]] & J).
      * f_equal. apply by_name_unique; [exact Sz|exact B|]. intros f. rewrite Iz, J. reflexivity.
      * exfalso. assert (K : In z (z :: zs)) by (left; reflexivity). apply Iz in K as (name & A & X & _). exact (W name A X).
Qed.
Print Assumptions C188_mira.

Theorem C188_mira_none : forall folder listing, mira_folder folder listing = None <->
  forall name, In name listing -> ~ has_extension ".znc" name /\ ~ has_extension ".mmclx" name.
Proof.
  intros d ls. unfold mira_folder. pose proof (sorted_in d ls ".znc") as Iz. pose proof (sorted_in d ls ".mmclx") as Im. unfold candidates in Iz, Im.
  destruct (get_sorted_filenames d ls ".znc") as [|z zs]; [destruct (get_sorted_filenames d ls ".mmclx") as [|m ms]|].
  - split; [|reflexivity]. intros _ name A. split; intros B; [apply (Iz (d ++ "/" ++ name)%string)|apply (Im (d ++ "/" ++ name)%string)]; exists name; auto.
  - split; [discriminate|]. intros H. exfalso. assert (K : In m (m :: ms)) by (left; reflexivity). apply Im in K as (name & A & B & _). exact (proj2 (H name A) B).
  - split; [discriminate|]. intros H. exfalso. assert (K : In z (z :: zs)) by (left; reflexivity). apply Iz in K as (name & A & B & _). exact (proj1 (H name A) B).
Qed.
Print Assumptions C188_mira_none.

(** Files with a number behind the extension are recognised as znc files if they are
    given one by one, but not found in a folder. *)
Theorem C188_numbered_refuted : exists folder name, get_suffix name = "znc" /\ mira_folder folder [name] = None.
Proof. exists "data", "20240101.znc.1". split; reflexivity. Qed.
Print Assumptions C188_numbered_refuted.

Example C188_nonvacuous :
  let fs := fun f => if String.eqb f "d/c.NC" then Some ["time"; "range"; "ZED_HC"] else if String.eqb f "d/a.nc" then Some ["time"; "ZED_HC"] else Some ["time"] in
  NoDup ["c.NC"; "b.nc"; "readme.txt"; "a.nc"] /\
  chilbolton_files fs "d" ["c.NC"; "b.nc"; "readme.txt"; "a.nc"] = Ok ["d/a.nc"; "d/c.NC"] /\
  chilbolton_files (fun _ => None) "d" ["c.NC"] = Raise OSError /\
  valid_nc_files (fun f => if String.eqb f "b" then None else Some []) ["c"; "b"; "a"] = ["c"; "a"] /\
  mira_folder "d" ["x.mmclx"; "2.ZNC"; "1.znc"] = Some ["d/1.znc"; "d/2.ZNC"] /\
  mira_folder "d" ["x.mmclx"; "readme"] = Some ["d/x.mmclx"].
Proof.
  cbv zeta. split; [|repeat split; reflexivity].
  repeat (constructor; [cbn; intuition discriminate|]). constructor.
Qed.

(** ** C189: profiles without model data *)

Theorem C189_masked : forall (A : Type) (array : image (masked A)),
  StronglySorted lt (find_masked_profiles_indices array) /\
  forall i, In i (find_masked_profiles_indices array) <->
    exists row, nth_error array i = Some row /\ forall x, In x row -> x = None.
Proof.
  intros A array. unfold find_masked_profiles_indices. set (f := fun row : list (masked A) => length (filter (fun x : masked A => match x with Some _ => true | None => false end) row)).
  split.
  - assert (G : forall p n k, StronglySorted lt (filter p (seq k n))).
    { intros p n. induction n as [|n IH]; intros k; cbn; [constructor|]. destruct (p k); [|apply IH]. constructor; [apply IH|].
      apply Forall_forall. intros x I. apply filter_In in I as [I _]. apply in_seq in I. lia. }
    apply G.
  - intros i. rewrite filter_In, in_seq, Nat.eqb_eq, map_length.
    assert (Z : forall row, f row = 0 <-> forall x, In x row -> x = None).
    { intros row. unfold f. induction row as [|x r IH]; cbn; [split; [intros _ x []|reflexivity]|]. destruct x as [a|]; cbn.
      - split; [discriminate|]. intros H. specialize (H (Some a) (or_introl eq_refl)). discriminate.
      - rewrite IH. split; [intros H y [<-|I]; [reflexivity|apply H, I]|]. intros H y I. apply H. right. exact I. }
    split.
    + intros [B E]. destruct (nth_error array i) as [row|] eqn:R; [|apply nth_error_None in R; lia]. exists row. split; [reflexivity|].
      apply Z. rewrite <- E. symmetry. apply nth_error_nth. rewrite nth_error_map, R. reflexivity.
    + intros (row & R & M). assert (B : i < length array) by (apply nth_error_Some; congruence). split; [lia|].
      apply Z in M. rewrite <- M. apply nth_error_nth. rewrite nth_error_map, R. reflexivity.
Qed.
Print Assumptions C189_masked.

Example C189_nonvacuous : find_masked_profiles_indices [[Some 1; None]; [None; None]; []; [Some 3; Some 4]] = [1; 2].
Proof. reflexivity. Qed.
