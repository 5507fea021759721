(** Proofs about the weather model data. *)
From Verif Require Import Base ArrayModel ArrayProofs FillModel FillProofs TimeModel GridModel GridSpec GridProofs ImageModel ImageProofs OutputModel SiteModel
  TelegramModel TelegramSpec TelegramProofs MpProofs SourceModel SourceSpec SourceProofs NwpModel NwpSpec.
From Coq Require Import Qabs String Ascii Lqa.
Open Scope string_scope.
Open Scope nat_scope.
Open Scope list_scope.
Local Notation length := List.length (only parsing).
Local Notation dict := OutputModel.dict (only parsing).

(** ** Type of the model *)
Definition no_slash (s : string) : Prop := forall a b, s <> (a ++ "/" ++ b)%string.
Lemma no_slash_cons d s : d <> "/"%char -> no_slash s -> no_slash (String d s).
Proof.
  intros D N a b E. destruct a as [|c a]; cbn in E; [injection E as E _; contradiction|]. injection E as _ E. exact (N a b E).
Qed.
Lemma basename_split s : (split_on "/" s = [s] /\ no_slash s) \/
  (exists d h k t, s = (d ++ "/" ++ List.last (split_on "/" s) "")%string /\ no_slash (List.last (split_on "/" s) "") /\ split_on "/" s = h :: k :: t).
Proof.
  induction s as [|c s IH]; [left; split; [reflexivity|intros a b E; destruct a; discriminate]|]. cbn [split_on].
  destruct (Ascii.eqb_spec c "/") as [->|N].
  - right. destruct IH as [[E Ns]|(d & h & k & t & Es & Ns & E)].
    + exists "", "", s, []. rewrite E. cbn [List.last]. split; [reflexivity|]. split; [exact Ns|reflexivity].
    + exists (String "/" d), "", h, (k :: t). rewrite E in *. split; [cbn [append]; f_equal; exact Es|]. split; [exact Ns|reflexivity].
  - destruct IH as [[E Ns]|(d & h & k & t & Es & Ns & E)].
    + left. rewrite E. split; [reflexivity|]. apply no_slash_cons; assumption.
    + right. exists (String c d), (String c h), k, t. rewrite E in *. split; [cbn [append]; f_equal; exact Es|]. split; [exact Ns|reflexivity].
Qed.
Lemma str_app_assoc (a b c : string) : ((a ++ b) ++ c = a ++ (b ++ c))%string.
Proof. induction a as [|x a IH]; [reflexivity|]. cbn [append]. f_equal. exact IH. Qed.
Lemma file_of_basename path : file_of path (basename path).
Proof.
  unfold basename. destruct (basename_split path) as [[E N]|(d & h & k & t & Es & N & _)].
  - exists "". rewrite E. cbn [List.last]. split; [reflexivity|]. split; [exact N|left; reflexivity].
  - exists (d ++ "/")%string. split; [rewrite str_app_assoc; exact Es|]. split; [exact N|right; exists d; reflexivity].
Qed.
Definition ends_dir (d : string) : Prop := d = "" \/ exists e, d = (e ++ "/")%string.
Lemma ends_dir_tail c d : ends_dir (String c d) -> ends_dir d.
Proof.
  intros [E|[e E]]; [discriminate|]. destruct e as [|x e]; cbn in E; [left; congruence|right; exists e; congruence].
Qed.
Lemma file_of_unique path a b : file_of path a -> file_of path b -> a = b.
Proof.
  intros (d1 & E1 & N1 & D1) (d2 & E2 & N2 & D2). subst path. revert d2 E2 D2. induction d1 as [|c d1 IH]; intros d2 E2 D2.
  - cbn [append] in E2. destruct D2 as [->|[e ->]]; [exact E2|]. exfalso. apply (N1 e b). rewrite E2. apply str_app_assoc.
  - destruct d2 as [|c' d2].
    + exfalso. cbn [append] in E2. destruct D1 as [D1|[e D1]]; [discriminate|]. apply (N2 e a). rewrite <- E2, <- str_app_assoc, <- D1. reflexivity.
    + cbn [append] in E2. injection E2 as _ E2. apply (IH (ends_dir_tail _ _ D1) d2 E2 (ends_dir_tail _ _ D2)).
Qed.

(** ** Lines *)
Lemma insert_in p l q : In q (insert_level p l) <-> q = p \/ In q l.
Proof.
  induction l as [|r l IH]; cbn [insert_level In]; [split; [intros [H|[]]; left; congruence|intros [H|[]]; left; congruence]|].
  destruct (Qle_bool (fst p) (fst r)); cbn [In]; [split; [intros [H|H]; auto; left; congruence|intros [H|H]; auto; left; congruence]|].
  rewrite IH. split; [intros [H|[H|H]]; auto|intros [H|[H|H]]; auto].
Qed.
Lemma insert_length p l : length (insert_level p l) = S (length l).
Proof. induction l as [|r l IH]; cbn [insert_level length]; [reflexivity|]. destruct (Qle_bool (fst p) (fst r)); cbn [length]; [reflexivity|]. rewrite IH. reflexivity. Qed.
Lemma sort_in l q : In q (sort_levels l) <-> In q l.
Proof. induction l as [|p l IH]; [reflexivity|]. cbn [sort_levels In]. rewrite insert_in, IH. split; intros [H|H]; auto. Qed.
Lemma sort_length l : length (sort_levels l) = length l.
Proof. induction l as [|p l IH]; [reflexivity|]. cbn [sort_levels length]. rewrite insert_length, IH. reflexivity. Qed.
Lemma insert_sorted p l : (forall q, In q l -> ~ (fst p == fst q)%Q) -> StronglySorted by_time l -> StronglySorted by_time (insert_level p l).
Proof.
  intros N S. induction l as [|r l IH]; cbn [insert_level]; [repeat constructor|]. apply StronglySorted_inv in S as [S F].
  destruct (Qle_bool (fst p) (fst r)) eqn:E.
  - apply Qle_bool_iff in E. assert (Lt : (fst p < fst r)%Q) by (pose proof (N r (or_introl eq_refl)); destruct (Qlt_le_dec (fst p) (fst r)); [assumption|exfalso; apply H; lra]).
    apply SSorted_cons; [apply SSorted_cons; assumption|]. apply Forall_cons; [exact Lt|]. rewrite Forall_forall in *. intros q I. specialize (F q I). unfold by_time in *. lra.
  - assert (Lt : (fst r < fst p)%Q) by (destruct (Qlt_le_dec (fst r) (fst p)) as [X|X]; [exact X|apply Qle_bool_iff in X; congruence]).
    apply SSorted_cons; [apply IH; [intros q I; apply N; right; exact I|exact S]|]. rewrite Forall_forall in *. intros q I. apply insert_in in I as [->|I]; [exact Lt|exact (F q I)].
Qed.
Lemma sort_sorted l : all_different (map fst l) -> StronglySorted by_time (sort_levels l).
Proof.
  induction l as [|p l IH]; intros D; cbn [sort_levels]; [constructor|]. apply insert_sorted.
  - intros q I. apply (sort_in l q) in I. apply In_nth_error in I as [k K]. apply (D 0 (S k)); [lia|reflexivity|]. cbn [map nth_error]. rewrite nth_error_map', K. reflexivity.
  - apply IH. intros i j a b L A B. apply (D (S i) (S j) a b); [lia|exact A|exact B].
Qed.
Lemma extrapolated_spec points x : all_different (map fst points) -> 2 <= length points ->
  extended_line (fun a y => In (a, y) points) x (extrapolated points x).
Proof.
  intros D L. unfold extrapolated. pose proof (sort_sorted points D) as S. pose proof (sort_length points) as Ls. pose proof (sort_in points) as I.
  set (s := sort_levels points) in *. clearbody s.
  assert (A : ascending (map fst s)) by (unfold ascending; apply (StronglySorted_map fst by_time); [intros p q H; unfold by_time in H; lra|exact S]).
  pose proof (ss_left_before (map fst s) x) as Bf. pose proof (ss_left_after (map fst s) x A) as Af. set (n0 := searchsorted_left (map fst s) x) in *.
  set (k := Nat.min (Nat.max n0 1) (length s - 1)). assert (K : 1 <= k /\ k <= length s - 1) by (unfold k; lia).
  destruct (nth_error_lt_Some s (k - 1)) as [[a ya] Ea]; [lia|]. destruct (nth_error_lt_Some s k) as [[b yb] Eb]; [lia|]. rewrite Ea, Eb.
  assert (Lt : (a < b)%Q) by (pose proof (strong_nth_inv _ _ S (k - 1) k _ _ ltac:(lia) Ea Eb) as X; exact X).
  assert (Nx : forall i p, nth_error s i = Some p -> (i < k -> (fst p <= a)%Q) /\ (k <= i -> (b <= fst p)%Q)).
  { intros i p P. split; intros Li.
    - destruct (Nat.eq_dec i (k - 1)) as [->|Ne]; [assert (p = (a, ya)) by congruence; subst p; cbn; lra|].
      pose proof (strong_nth_inv _ _ S i (k - 1) _ _ ltac:(lia) P Ea) as X. unfold by_time in X. cbn [fst] in X. lra.
    - destruct (Nat.eq_dec i k) as [->|Ne]; [assert (p = (b, yb)) by congruence; subst p; cbn; lra|].
      pose proof (strong_nth_inv _ _ S k i _ _ ltac:(lia) Eb P) as X. unfold by_time in X. cbn [fst] in X. lra. }
  exists a, ya, b, yb. split; [apply I; eapply nth_error_In; exact Ea|]. split; [apply I; eapply nth_error_In; exact Eb|]. split; [exact Lt|]. split; [|split; [|split]].
  - intros c yc C. apply I in C. apply In_nth_error in C as [i C]. destruct (Nx i _ C) as [X Y]. cbn [fst] in X, Y.
    destruct (Nat.lt_ge_cases i k) as [Li|Li]; [left; exact (X Li)|right; exact (Y Li)].
  - destruct (Nat.le_gt_cases n0 0) as [Z|Z].
    + right. intros c yc C. apply I in C. apply In_nth_error in C as [i C]. assert (k = 1) by (unfold k; lia). destruct (Nx i _ C) as [_ Y]. cbn [fst] in Y.
      destruct (Nat.lt_ge_cases i k) as [Li|Li]; [|specialize (Y Li); lra]. assert (i = k - 1) by lia. subst i. assert (c = a) by congruence. subst. lra.
    + left. assert (n0 <= length (map fst s)) by apply ss_left_le. rewrite map_length in H. assert (k - 1 < n0) by (unfold k; lia).
      apply Qlt_le_weak. apply (Bf (k - 1) a); [lia|]. rewrite nth_error_map', Ea. reflexivity.
  - destruct (Nat.le_gt_cases (length s) n0) as [Z|Z].
    + right. intros c yc C. apply I in C. apply In_nth_error in C as [i C]. assert (Ek : k = length s - 1) by (unfold k; lia). destruct (Nx i _ C) as [X _]. cbn [fst] in X.
      assert (i < length s) by (apply nth_error_Some; congruence). destruct (Nat.lt_ge_cases i k) as [Li|Li]; [specialize (X Li); lra|].
      assert (i = k) by lia. subst i. assert (c = b) by congruence. subst. lra.
    + left. apply (Af k b); [unfold k; lia|]. rewrite nth_error_map', Eb. reflexivity.
  - field. lra.
Qed.
Lemma line_ext (L L' : point_set) x v : (forall a y, L a y <-> L' a y) -> extended_line L x v -> extended_line L' x v.
Proof.
  intros E (a & ya & b & yb & A & B & Lt & N & P & R & V). exists a, ya, b, yb. split; [apply E; exact A|]. split; [apply E; exact B|]. split; [exact Lt|].
  split; [intros c yc C; apply (N c yc); apply E; exact C|]. split; [destruct P as [P|P]; [left; exact P|right; intros c yc C; apply (P c yc); apply E; exact C]|].
  split; [destruct R as [R|R]; [left; exact R|right; intros c yc C; apply (R c yc); apply E; exact C]|exact V].
Qed.
Lemma line_affine (L : point_set) x v p q : (forall a y, L a y -> (y == p * a + q)%Q) -> extended_line L x v -> (v == p * x + q)%Q.
Proof.
  intros H (a & ya & b & yb & A & B & Lt & _ & _ & _ & V). rewrite V, (H a ya A), (H b yb B). field. lra.
Qed.
Lemma line_at (L : point_set) x v y : (forall a b ya yb, L a ya -> L b yb -> (a == b)%Q -> ya = yb) ->
  extended_line L x v -> forall c, L c y -> (c == x)%Q -> (v == y)%Q.
Proof.
  intros F (a & ya & b & yb & A & B & Lt & N & P & R & V) c C E. rewrite V. destruct (N c y C) as [X|X].
  - assert (Ea : (a == c)%Q) by (destruct P as [P|P]; [lra|specialize (P c y C); lra]). rewrite (F a c ya y A C Ea). rewrite <- E, Ea. field. lra.
  - assert (Eb : (b == c)%Q) by (destruct R as [R|R]; [lra|specialize (R c y C); lra]). rewrite (F b c yb y B C Eb). rewrite <- E, <- Eb. field. lra.
Qed.

(** ** Heights *)
Lemma map2_nth {A B C} (f : A -> B -> C) : forall l m k, nth_error (map2 f l m) k =
  match nth_error l k, nth_error m k with Some a, Some b => Some (f a b) | _, _ => None end.
Proof.
  induction l as [|a l IH]; intros [|b m] [|k]; cbn [map2 nth_error]; try reflexivity.
  - destruct (nth_error l k); reflexivity.
  - apply IH.
Qed.
Lemma map2_len {A B C} (f : A -> B -> C) : forall l m, length l = length m -> length (map2 f l m) = length l.
Proof. induction l as [|a l IH]; intros [|b m] L; cbn in *; try discriminate; [reflexivity|]. rewrite IH; lia. Qed.
Lemma column_values (heights : image Q) j : (forall row, In row heights -> j < length row) ->
  exists col, Forall2 (fun row v => nth_error row j = Some v) heights col /\ unmasked (column (map (map Some) heights) j) = col.
Proof.
  induction heights as [|row r IH]; intros H; [exists []; split; [constructor|reflexivity]|].
  destruct IH as (col & F & E); [intros x I; apply H; right; exact I|].
  destruct (nth_error_lt_Some row j) as [v V]; [apply H; left; reflexivity|]. exists (v :: col). split; [constructor; assumption|].
  cbn [map column]. rewrite nth_error_map', V. cbn [option_map unmasked flat_map app]. f_equal. exact E.
Qed.

(** ** Common heights *)
Lemma combine_in {A B} (l : list A) (m : list B) a b : In (a, b) (combine l m) <-> exists k, nth_error l k = Some a /\ nth_error m k = Some b.
Proof.
  revert m. induction l as [|x l IH]; intros [|y m]; cbn [combine In].
  - split; [intros []|intros ([|k] & H & _); discriminate].
  - split; [intros []|intros ([|k] & H & _); discriminate].
  - split; [intros []|intros ([|k] & _ & H); discriminate].
  - rewrite IH. split.
    + intros [E|(k & H1 & H2)]; [exists 0; cbn; split; congruence|exists (S k); split; assumption].
    + intros ([|k] & H1 & H2); cbn in H1, H2; [left; congruence|right; exists k; split; assumption].
Qed.
Lemma map_fst_combine {A B} (l : list A) (m : list B) : length l = length m -> map fst (combine l m) = l.
Proof. revert m. induction l as [|x l IH]; intros [|y m] L; cbn in *; try discriminate; [reflexivity|]. f_equal. apply IH. lia. Qed.
Lemma common_profile_line mean_h alt prof row : common_profile mean_h alt prof = Ok row ->
  length row = length mean_h /\
  ((forall e, In e prof -> snd e = true) -> forall w, In w row -> w = None) /\
  (prof <> [] -> (forall e, In e prof -> snd e = false) -> all_different alt ->
     forall j m, nth_error mean_h j = Some m -> exists v, nth_error row j = Some (Some v) /\ extended_line (level alt (map fst prof)) m v).
Proof.
  unfold common_profile. destruct (forallb snd prof) eqn:E.
  - intros H. assert (row = map (fun _ => None) mean_h) by congruence. subst row. split; [apply map_length|]. split.
    + intros _ w I. apply in_map_iff in I as (x & X & _). congruence.
    + intros N V. exfalso. destruct prof as [|e prof]; [congruence|]. specialize (V e (or_introl eq_refl)). cbn [forallb] in E. rewrite V in E. discriminate.
  - destruct (negb (length alt =? length prof) || (length alt <? 2)) eqn:G; [discriminate|]. intros H.
    apply orb_false_iff in G as [G1 G2]. apply negb_false_iff, Nat.eqb_eq in G1. apply Nat.ltb_ge in G2.
    assert (Er : row = map (fun x => Some (extrapolated (combine alt (map fst prof)) x)) mean_h) by congruence. subst row. clear H. split; [apply map_length|]. split.
    + intros A. exfalso. assert (X : forallb snd prof = true) by (apply forallb_forall; exact A). congruence.
    + intros _ _ D j m J. eexists. split; [rewrite nth_error_map', J; reflexivity|].
      assert (Lc : length (combine alt (map fst prof)) = length alt) by (rewrite combine_length, map_length; lia).
      apply (line_ext (fun a y => In (a, y) (combine alt (map fst prof)))); [intros a y; apply combine_in|].
      apply extrapolated_spec; [rewrite map_fst_combine by (rewrite map_length; exact G1); exact D|lia].
Qed.
Lemma common_height_rows mean_h heights data out : common_height mean_h heights data = Ok out ->
  length heights = length data /\ length out = length data /\
  forall i alt prof, nth_error heights i = Some alt -> nth_error data i = Some prof -> exists row, nth_error out i = Some row /\ common_profile mean_h alt prof = Ok row.
Proof.
  unfold common_height. destruct (Nat.eqb_spec (length heights) (length data)) as [L|L]; cbn [negb]; [|discriminate]. intros H. split; [exact L|].
  revert data out L H. induction heights as [|alt0 heights IH]; intros [|prof0 data] out L H; try discriminate.
  - cbn [map2 sequence] in H. assert (out = []) by congruence. subst. split; [reflexivity|]. intros [|i] ? ? X; discriminate.
  - cbn [map2 sequence] in H. apply bind_ok in H as (row0 & H0 & H). apply bind_ok in H as (out' & H1 & H). assert (out = row0 :: out') by congruence. subst out.
    destruct (IH data out' ltac:(cbn in L; lia) H1) as [Lo R]. split; [cbn; lia|].
    intros [|i] alt prof A P; cbn [nth_error] in *; [exists row0; split; [reflexivity|congruence]|exact (R i alt prof A P)].
Qed.
Lemma common_height_total mean_h heights data : length heights = length data ->
  (forall i alt prof, nth_error heights i = Some alt -> nth_error data i = Some prof ->
     (forall e, In e prof -> snd e = true) \/ (length alt = length prof /\ 2 <= length alt)) ->
  exists out, common_height mean_h heights data = Ok out.
Proof.
  intros L H. unfold common_height. rewrite L, Nat.eqb_refl. cbn [negb]. revert data L H.
  induction heights as [|alt heights IH]; intros [|prof data] L H; try discriminate; [exists []; reflexivity|].
  cbn [map2 sequence]. assert (P : exists row, common_profile mean_h alt prof = Ok row).
  { unfold common_profile. destruct (forallb snd prof) eqn:E; [eexists; reflexivity|]. destruct (H 0 alt prof eq_refl eq_refl) as [A|[A B]].
    - exfalso. assert (X : forallb snd prof = true) by (apply forallb_forall; exact A). congruence.
    - rewrite A, Nat.eqb_refl. apply Nat.ltb_ge in B. rewrite A in B. rewrite B. cbn [negb orb]. eexists. reflexivity. }
  destruct P as [row P]. rewrite P. cbn [bind]. destruct (IH data ltac:(cbn in L; lia)) as [out E]; [intros i a p A B; exact (H (S i) a p A B)|].
  rewrite E. cbn [bind]. eexists. reflexivity.
Qed.

(** ** Dense grid *)
Lemma clamp_inside grid x : StronglySorted Qlt grid -> grid <> [] -> moved_inside grid x (clamp grid x).
Proof.
  intros S N. unfold moved_inside, clamp. assert (Lg : 0 < length grid) by (destruct grid; [congruence|cbn; lia]).
  destruct (nth_error_lt_Some grid 0) as [a A]; [exact Lg|]. destruct (nth_error_lt_Some grid (length grid - 1)) as [b B]; [lia|]. rewrite A, B.
  assert (Lab : (a <= b)%Q).
  { destruct (Nat.eq_dec (length grid - 1) 0) as [Z|Z]; [rewrite Z in B; assert (a = b) by congruence; subst; lra|].
    apply Qlt_le_weak. apply (strict_nth grid S 0 (length grid - 1)); [lia|exact A|exact B]. }
  exists a, b. split; [reflexivity|]. split; [reflexivity|]. unfold qmax, qmin.
  destruct (Qlt_le_dec x a) as [X|X].
  { left. split; [exact X|]. destruct (Qle_bool b x) eqn:E1; [apply Qle_bool_iff in E1; lra|]. destruct (Qle_bool a x) eqn:E2; [apply Qle_bool_iff in E2; lra|reflexivity]. }
  destruct (Qlt_le_dec b x) as [Y|Y].
  { right. left. split; [exact Y|]. assert (E1 : Qle_bool b x = true) by (apply Qle_bool_iff; lra). rewrite E1.
    assert (E2 : Qle_bool a b = true) by (apply Qle_bool_iff; lra). rewrite E2. reflexivity. }
  right. right. split; [split; assumption|]. destruct (Qle_bool b x) eqn:E1.
  - apply Qle_bool_iff in E1. assert (E2 : Qle_bool a b = true) by (apply Qle_bool_iff; lra). rewrite E2. lra.
  - assert (E2 : Qle_bool a x = true) by (apply Qle_bool_iff; lra). rewrite E2. reflexivity.
Qed.
Lemma cell_in_interval grid x : StronglySorted Qlt grid -> 2 <= length grid -> forall i u, cell_of grid (clamp grid x) = (i, u) ->
  in_interval grid x i u /\ S i < length grid.
Proof.
  intros S L i u H. destruct (clamp_inside grid x S) as (a0 & bn & A0 & Bn & M); [destruct grid; [cbn in L; lia|discriminate]|]. set (t := clamp grid x) in *.
  assert (T : (a0 <= t /\ t <= bn)%Q).
  { assert (Lab : (a0 <= bn)%Q) by (apply Qlt_le_weak; apply (strict_nth grid S 0 (length grid - 1)); [lia|exact A0|exact Bn]). destruct M as [[X Y]|[[X Y]|[X Y]]]; lra. }
  assert (Asc : ascending grid) by (apply strict_ascending; exact S).
  unfold cell_of in H. pose proof (ss_right_le grid t) as Le. pose proof (ss_right_before grid t) as Bf. pose proof (ss_right_after grid t Asc) as Af.
  set (k := searchsorted_right grid t) in *. assert (K1 : 1 <= k). { destruct (Nat.le_gt_cases 1 k) as [|Z]; [assumption|]. pose proof (Af 0 a0 ltac:(lia) A0). lra. }
  set (c := Nat.min (k - 1) (length grid - 2)) in *. assert (Lc : Datatypes.S c < length grid) by (unfold c; lia).
  destruct (nth_error_lt_Some grid c) as [a A]; [lia|]. destruct (nth_error_lt_Some grid (Datatypes.S c)) as [b B]; [lia|]. rewrite A, B in H.
  assert (c = i) by congruence. assert (Eu : u = ((t - a) / (b - a))%Q) by congruence. subst c i u. split; [|exact Lc].
  assert (Lab : (a < b)%Q) by (apply (strict_nth grid S (Nat.min (k - 1) (length grid - 2)) (Datatypes.S (Nat.min (k - 1) (length grid - 2)))); [lia|exact A|exact B]).
  exists a, b, t. split; [exact A|]. split; [exact B|]. split; [exists a0, bn; split; [exact A0|]; split; [exact Bn|exact M]|]. split.
  - split; [eapply Bf; [|exact A]; lia|]. destruct (Nat.le_gt_cases k (Datatypes.S (Nat.min (k - 1) (length grid - 2)))) as [X|X].
    + apply Qlt_le_weak. apply (Af _ _ X B).
    + assert (E : Datatypes.S (Nat.min (k - 1) (length grid - 2)) = length grid - 1) by lia. rewrite E in B. assert (b = bn) by congruence. subst b. apply T.
  - field. lra.
Qed.
Lemma mask_at_hidden z i j : pixel z i j <> None -> is_hidden z i j (mask_at z i j).
Proof.
  intros N. unfold is_hidden, mask_at. destruct (pixel z i j) as [[v|]|]; [right; split; [exists v; reflexivity|reflexivity]|left; split; reflexivity|congruence].
Qed.
Lemma mask_weight_share x y z xn yn : StronglySorted Qlt x -> StronglySorted Qlt y -> 2 <= length x -> 2 <= length y ->
  length x = length z -> (forall row, In row z -> length row = length y) -> masked_share x y z xn yn (mask_weight x y z xn yn).
Proof.
  intros Sx Sy Lx Ly Lz Lr. unfold mask_weight. destruct (cell_of x (clamp x xn)) as [i u] eqn:Ei. destruct (cell_of y (clamp y yn)) as [j v] eqn:Ej.
  destruct (cell_in_interval x xn Sx Lx i u Ei) as [Ix Li]. destruct (cell_in_interval y yn Sy Ly j v Ej) as [Iy Lj].
  assert (P : forall a b, a < length x -> b < length y -> pixel z a b <> None).
  { intros a b A B. unfold pixel. destruct (nth_error_lt_Some z a) as [row R]; [lia|]. rewrite R. apply nth_error_Some. rewrite (Lr row); [exact B|eapply nth_error_In; exact R]. }
  exists i, u, j, v, (mask_at z i j), (mask_at z i (S j)), (mask_at z (S i) j), (mask_at z (S i) (S j)).
  split; [exact Ix|]. split; [exact Iy|]. split; [apply mask_at_hidden, P; lia|]. split; [apply mask_at_hidden, P; lia|].
  split; [apply mask_at_hidden, P; lia|]. split; [apply mask_at_hidden, P; lia|]. ring.
Qed.
Lemma valid_points_visible x y z : length x = length z -> (forall row, In row z -> length row = length y) -> visible_points x y z (valid_points x y z).
Proof.
  intros Lz Lr b a v. unfold valid_points. rewrite in_flat_map. split.
  - intros ([a' row] & I & H). apply combine_in in I as (i & A & R). cbn [fst snd] in H. apply in_flat_map in H as ([b' w] & J & H). apply combine_in in J as (j & B & W).
    cbn [fst snd] in H. destruct w as [w|]; [|destruct H]. destruct H as [H|[]]. exists i, j. unfold pixel. rewrite R.
    split; [congruence|]. split; [congruence|]. congruence.
  - intros (i & j & A & B & P). unfold pixel in P. destruct (nth_error z i) as [row|] eqn:R; [|discriminate]. exists (a, row). split; [apply combine_in; exists i; auto|].
    cbn [fst snd]. apply in_flat_map. exists (b, Some v). split; [apply combine_in; exists j; auto|]. left. reflexivity.
Qed.

Definition known_points (value : Q -> option Q) (ys : list Q) : list (Q * Q) :=
  flat_map (fun y => match value y with Some v => [(y, v)] | None => [] end) ys.
Lemma known_eq value ys :
  combine (map fst (filter (fun p : Q * option Q => negb (is_masked (snd p))) (combine ys (map value ys))))
    (unmasked (map snd (filter (fun p : Q * option Q => negb (is_masked (snd p))) (combine ys (map value ys))))) = known_points value ys.
Proof.
  unfold known_points. induction ys as [|y ys IH]; [reflexivity|]. cbn [map combine filter snd flat_map]. destruct (value y) as [v|]; cbn [is_masked negb].
  - cbn [map fst snd unmasked flat_map app combine]. f_equal. exact IH.
  - exact IH.
Qed.
Lemma known_in value ys a v : In (a, v) (known_points value ys) <-> In a ys /\ value a = Some v.
Proof.
  unfold known_points. rewrite in_flat_map. split.
  - intros (y & I & H). destruct (value y) as [w|] eqn:E; [|destruct H]. destruct H as [H|[]]. assert (y = a) by congruence. subst. split; [exact I|congruence].
  - intros [I E]. exists a. split; [exact I|]. rewrite E. left. reflexivity.
Qed.
Lemma known_sorted value ys : StronglySorted Qlt ys -> StronglySorted by_time (known_points value ys).
Proof.
  induction ys as [|y ys IH]; intros S; [constructor|]. apply StronglySorted_inv in S as [S F]. unfold known_points. cbn [flat_map]. fold (known_points value ys).
  destruct (value y) as [v|]; [|apply IH; exact S]. cbn [app]. apply SSorted_cons; [apply IH; exact S|]. rewrite Forall_forall in *.
  intros [a w] I. apply known_in in I as [I _]. exact (F a I).
Qed.
Lemma sorted_different l : StronglySorted by_time l -> all_different (map fst l).
Proof.
  intros S i j a b L A B. rewrite nth_error_map' in A, B. destruct (nth_error l i) as [p|] eqn:P; [|discriminate]. destruct (nth_error l j) as [q|] eqn:R; [|discriminate].
  cbn [option_map] in A, B. pose proof (strong_nth_inv _ _ S i j p q L P R) as X. unfold by_time in X. assert (fst p = a) by congruence. assert (fst q = b) by congruence. subst. lra.
Qed.
Lemma extrapolate_row_filled value ys j y : StronglySorted Qlt ys -> nth_error ys j = Some y ->
  exists w, nth_error (extrapolate_row ys (map value ys)) j = Some w /\ filled_row ys value j w.
Proof.
  intros S J. unfold extrapolate_row. rewrite known_eq. set (points := known_points value ys).
  pose proof (known_sorted value ys S) as Sp. fold points in Sp. pose proof (sorted_different _ Sp) as Df.
  destruct (Nat.leb_spec 2 (length points)) as [L|L].
  - rewrite map2_nth, J, nth_error_map', J. cbn [option_map]. eexists. split; [reflexivity|]. exists y. split; [exact J|]. destruct (value y) as [v|] eqn:E; [reflexivity|].
    left. split.
    + destruct points as [|[a va] [|[b vb] r]] eqn:Ep; [cbn in L; lia|cbn in L; lia|]. exists a, va, b, vb.
      split; [apply known_in; fold points; rewrite Ep; left; reflexivity|]. split; [apply known_in; fold points; rewrite Ep; right; left; reflexivity|].
      apply (Df 0 1 a b); [lia|reflexivity|reflexivity].
    + eexists. split; [reflexivity|]. apply (line_ext (fun a v => In (a, v) points)); [intros a v; apply known_in|]. apply extrapolated_spec; [exact Df|exact L].
  - rewrite nth_error_map', J. cbn [option_map]. eexists. split; [reflexivity|]. exists y. split; [exact J|]. destruct (value y) as [v|] eqn:E; [reflexivity|].
    right. split; [|reflexivity]. intros a va b vb [A1 A2] [B1 B2]. assert (A : In (a, va) points) by (apply known_in; auto). assert (B : In (b, vb) points) by (apply known_in; auto).
    destruct points as [|p [|q r]]; [destruct A| |cbn in L; lia]. destruct A as [A|[]]. destruct B as [B|[]]. assert (a = b) by congruence. subst. reflexivity.
Qed.
Lemma filter_two {A} (p : A -> bool) l : 2 <= length (filter p l) <-> exists i j x y, i < j /\ nth_error l i = Some x /\ nth_error l j = Some y /\ p x = true /\ p y = true.
Proof.
  assert (One : forall l, 1 <= length (filter p l) <-> exists i x, nth_error l i = Some x /\ p x = true).
  { clear l. induction l as [|a l IH]; cbn [filter]; [split; [cbn; lia|intros ([|i] & x & H & _); discriminate]|]. destruct (p a) eqn:E.
    - split; [intros _; exists 0, a; auto|cbn; lia].
    - rewrite IH. split; [intros (i & x & H & P); exists (S i), x; auto|]. intros ([|i] & x & H & P); [cbn in H; congruence|exists i, x; auto]. }
  induction l as [|a l IH]; cbn [filter]; [split; [cbn; lia|intros (i & j & x & y & _ & H & _); destruct i; discriminate]|]. destruct (p a) eqn:E.
  - cbn [length]. split.
    + intros H. assert (H1 : 1 <= length (filter p l)) by lia. apply One in H1 as (j & y & J & P). exists 0, (S j), a, y. split; [lia|auto].
    + intros (i & j & x & y & L & I & J & P & P'). assert (H1 : 1 <= length (filter p l)); [|lia]. apply One. destruct j as [|j]; [lia|]. exists j, y. auto.
  - rewrite IH. split.
    + intros (i & j & x & y & L & I & J & P & P'). exists (S i), (S j), x, y. split; [lia|auto].
    + intros ([|i] & j & x & y & L & I & J & P & P'); [cbn in I; congruence|]. destruct j as [|j]; [lia|]. exists i, j, x, y. split; [lia|auto].
Qed.
Lemma some_visible row : negb (forallb is_masked row) = true <-> exists k (v : Q), nth_error row k = Some (Some v).
Proof.
  rewrite negb_true_iff. split.
  - intros H. induction row as [|[v|] row IH]; cbn [forallb is_masked andb] in H; [discriminate|exists 0, v; reflexivity|].
    destruct (IH H) as (k & v & K). exists (S k), v. exact K.
  - intros (k & v & K). destruct (forallb is_masked row) eqn:E; [|reflexivity]. rewrite forallb_forall in E. specialize (E _ (nth_error_In _ _ K)). discriminate.
Qed.
Lemma two_profiles_iff z : 2 <= n_valid_profiles z <-> two_profiles z.
Proof.
  unfold n_valid_profiles. rewrite filter_two. unfold two_profiles, pixel. split.
  - intros (i & j & x & y & L & I & J & P & P'). apply some_visible in P as (k & v & K). apply some_visible in P' as (l & w & W).
    exists i, j, k, l, v, w. rewrite I, J. auto.
  - intros (i & j & k & l & v & w & L & P & P'). destruct (nth_error z i) as [x|] eqn:I; [|discriminate]. destruct (nth_error z j) as [y|] eqn:J; [|discriminate].
    exists i, j, x, y. split; [exact L|]. split; [exact I|]. split; [exact J|]. split; apply some_visible; [exists k, v; exact P|exists l, w; exact P'].
Qed.
Lemma half_heights_middles site heights : middles site heights (half_heights site heights).
Proof.
  revert site. induction heights as [|h r IH]; intros site; cbn [half_heights]; [split; [reflexivity|intros [|j] ? ? X; discriminate]|].
  destruct (IH h) as [L H]. split; [cbn [length]; lia|]. intros [|j] x m X M; cbn [nth_error] in X, M.
  - exists site. split; [|left; split; reflexivity]. assert (x = h) by congruence. assert (m = (h - (h - site) / 2)%Q) by congruence. subst. field.
  - destruct (H j x m X M) as (below & E & B). exists below. split; [exact E|]. right. destruct B as [[-> ->]|(i & -> & I)]; [exists 0; split; reflexivity|exists (S i); split; [reflexivity|exact I]].
Qed.
Lemma interpolate_2d_mask_ok griddata x y z x_new y_new : StronglySorted Qlt x -> StronglySorted Qlt y -> 2 <= length x -> 2 <= length y ->
  length x = length z -> (forall row, In row z -> length row = length y) -> StronglySorted Qlt y_new ->
  exists out points, interpolate_2d_mask griddata x y z x_new y_new true = Ok out /\ visible_points x y z points /\
    length out = length x_new /\ (forall row, In row out -> length row = length y_new) /\
    forall i j xn yn, nth_error x_new i = Some xn -> nth_error y_new j = Some yn ->
      exists share w v, masked_share x y z xn yn share /\ pixel out i j = Some w /\ filled_row y_new (fun b => griddata points b xn) j v /\
        ((share < 1 # 2)%Q -> w = v) /\ ((1 # 2 <= share)%Q -> w = None).
Proof.
  intros Sx Sy Lx Ly Lz Lr Sn. unfold interpolate_2d_mask. apply strictly_up_iff in Sx as Ux. apply strictly_up_iff in Sy as Uy. rewrite Ux, Uy.
  apply Nat.leb_le in Lx as Bx. apply Nat.leb_le in Ly as By. rewrite Bx, By. cbn [andb negb]. rewrite Lz, Nat.eqb_refl.
  assert (Fr : forallb (fun row => length row =? length y) z = true) by (apply forallb_forall; intros row I; apply Nat.eqb_eq, Lr, I). rewrite Fr. cbn [andb negb].
  eexists. exists (valid_points x y z). split; [reflexivity|]. split; [apply valid_points_visible; assumption|]. split; [apply map_length|].
  assert (Le : forall xn, length (extrapolate_row y_new (map (fun yn => griddata (valid_points x y z) yn xn) y_new)) = length y_new).
  { intros xn. unfold extrapolate_row. rewrite known_eq. destruct (2 <=? length (known_points _ y_new)); [rewrite map2_len; [reflexivity|rewrite map_length; reflexivity]|apply map_length]. }
  split.
  { intros row I. apply in_map_iff in I as (xn & <- & _). apply map2_len. rewrite Le. reflexivity. }
  intros i j xn yn I J. exists (mask_weight x y z xn yn).
  destruct (extrapolate_row_filled (fun b => griddata (valid_points x y z) b xn) y_new j yn Sn J) as (v & V & F).
  eexists. exists v. split; [apply mask_weight_share; assumption|]. split.
  { unfold pixel. rewrite nth_error_map', I. cbn [option_map]. rewrite map2_nth, J, V. reflexivity. }
  split; [exact F|]. split; intros S; destruct (qlt (mask_weight x y z xn yn) (1 # 2)) eqn:E; try reflexivity.
  - exfalso. apply qlt_false in E. lra.
  - exfalso. apply qlt_iff in E. lra.
Qed.
Lemma node_interval grid x xa a i u : StronglySorted Qlt grid -> nth_error grid a = Some xa -> (x == xa)%Q -> in_interval grid x i u ->
  (i = a /\ (u == 0)%Q) \/ (S i = a /\ (u == 1)%Q).
Proof.
  intros S A E (lo & hi & t & Lo & Hi & (f & l & F & La & M) & T & U).
  assert (Et : (t == xa)%Q).
  { assert (La' : a < length grid) by (apply nth_error_Some; congruence). assert (f <= xa)%Q.
    { destruct (Nat.eq_dec a 0) as [->|N]; [assert (f = xa) by congruence; subst; lra|]. apply Qlt_le_weak. apply (strict_nth grid S 0 a); [lia|exact F|exact A]. }
    assert (xa <= l)%Q.
    { destruct (Nat.eq_dec a (length grid - 1)) as [->|N]; [assert (l = xa) by congruence; subst; lra|]. apply Qlt_le_weak. apply (strict_nth grid S a (length grid - 1)); [lia|exact A|exact La]. }
    destruct M as [[X Y]|[[X Y]|[X Y]]]; lra. }
  assert (Lh : (lo < hi)%Q) by (apply (strict_nth grid S i (Datatypes.S i)); [lia|exact Lo|exact Hi]).
  assert (Ia : i = a \/ Datatypes.S i = a).
  { destruct (Nat.lt_trichotomy a i) as [X|[X|X]]; [|left; congruence|].
    - pose proof (strict_nth grid S a i xa lo X A Lo). lra.
    - right. destruct (Nat.eq_dec (Datatypes.S i) a) as [Y|Y]; [exact Y|]. pose proof (strict_nth grid S (Datatypes.S i) a hi xa ltac:(lia) Hi A). lra. }
  destruct Ia as [->| <-].
  - left. split; [reflexivity|]. assert (lo = xa) by congruence. subst lo. destruct (Qeq_dec u 0) as [Z|Z]; [exact Z|]. exfalso. assert (X : (u * (hi - xa) == 0)%Q) by lra.
    destruct (Qmult_integral _ _ X); [contradiction|lra].
  - right. split; [reflexivity|]. assert (hi = xa) by congruence. subst hi. destruct (Qeq_dec u 1) as [Z|Z]; [exact Z|]. exfalso. assert (X : ((u - 1) * (xa - lo) == 0)%Q) by lra.
    destruct (Qmult_integral _ _ X); [apply Z; lra|lra].
Qed.
Lemma hidden_unique z i j h h' : is_hidden z i j h -> is_hidden z i j h' -> h = h'.
Proof. intros [[A ->]|[[v A] ->]] [[B ->]|[[w B] ->]]; try reflexivity; congruence. Qed.
Lemma node_share x y z xn yn w a b xa yb h : StronglySorted Qlt x -> StronglySorted Qlt y -> nth_error x a = Some xa -> nth_error y b = Some yb ->
  (xn == xa)%Q -> (yn == yb)%Q -> is_hidden z a b h -> masked_share x y z xn yn w -> (w == h)%Q.
Proof.
  intros Sx Sy A B Ex Ey H (i & u & j & v & h00 & h01 & h10 & h11 & Ix & Iy & H00 & H01 & H10 & H11 & W). rewrite W. clear W.
  destruct (node_interval x xn xa a i u Sx A Ex Ix) as [[-> U]|[<- U]]; destruct (node_interval y yn yb b j v Sy B Ey Iy) as [[-> V]|[<- V]]; rewrite U, V.
  - rewrite (hidden_unique _ _ _ _ _ H H00). ring.
  - rewrite (hidden_unique _ _ _ _ _ H H01). ring.
  - rewrite (hidden_unique _ _ _ _ _ H H10). ring.
  - rewrite (hidden_unique _ _ _ _ _ H H11). ring.
Qed.
