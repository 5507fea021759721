(** Proofs about the pointing, masking and power screening of radars and about the
    weather radar. *)
From Verif Require Import Base ArrayModel ArrayProofs FillModel TimeModel GridModel OutputModel ClassifyModel ImageModel RadarModel
  TimeSpec TimeProofs GridSpec GridProofs FillProofs ImageProofs DropletProofs OutputProofs RadarSpec RadarProofs.
From Coq Require Import Qabs Qround String Lqa.
Open Scope string_scope.
Open Scope nat_scope.
Open Scope list_scope.
Local Notation length := List.length (only parsing).
Local Notation get := ImageModel.get (only parsing).

(** ** Angles *)
Lemma nth_mdiff p l i x : nth_error l i = Some x ->
  nth_error (mdiff_from p l) i = Some (msub x (match i with 0 => p | S j => nth j l None end)).
Proof.
  revert p i. induction l as [|a l IH]; intros p [|i] H; cbn [nth_error] in H; try discriminate H.
  - assert (a = x) by congruence. subst a. reflexivity.
  - cbn [mdiff_from nth_error]. rewrite (IH a i H). destruct i; reflexivity.
Qed.
Lemma mdiff_length p l : length (mdiff_from p l) = length l.
Proof. revert p. induction l as [|a l IH]; intros p; cbn [mdiff_from List.length]; [reflexivity|]. rewrite IH. reflexivity. Qed.

Lemma nth_mdiff_prepend l i x q : nth_error l i = Some x -> prior l i = Some q ->
  nth_error (mdiff_prepend l) i = Some (msub x q).
Proof.
  intros X P. unfold mdiff_prepend. rewrite (nth_mdiff _ _ _ _ X). do 2 f_equal.
  destruct i as [|j]; cbn [prior] in P.
  - destruct (nth_error l 1) as [y|] eqn:E; cbn [option_map] in P; [|discriminate P].
    rewrite (nth_error_nth _ _ None E). unfold offset in P. destruct y; congruence.
  - apply (nth_error_nth _ _ None P).
Qed.

Lemma prior_exists l i : 2 <= length l -> i < length l -> exists q, prior l i = Some q.
Proof.
  intros L H. destruct i as [|j]; cbn [prior].
  - destruct (nth_error_lt_Some l 1) as [x ->]; [lia|]. eexists. reflexivity.
  - apply nth_error_lt_Some. lia.
Qed.

Lemma changed_map f l : changed_by f l (map (option_map f) l).
Proof.
  split; [apply map_length|]. intros i. rewrite nth_error_map'. split.
  - intros ->. reflexivity.
  - intros x ->. cbn [option_map]. eexists. split; [reflexivity|]. reflexivity.
Qed.
Lemma changed_id f l : (forall x, f x == x)%Q -> changed_by f l l.
Proof.
  intros H. split; [reflexivity|]. intros i. split; [auto|]. intros x E. exists x. split; [exact E|]. rewrite H. reflexivity.
Qed.

(** The verdict on profile [i] for the corrected angles. *)
Definition stable_at (t1 t2 t3 : Q) (el az : list (masked Q)) (i : nat) : masked bool :=
  match nth_error el i, prior el i with
  | Some (Some e), Some (Some p) =>
      let b := qlt (Qabs (e - 90)) t1 && qlt (Qabs (e - p)) t2 in
      if forallb is_masked az then Some b
      else match nth_error az i, prior az i with
           | Some (Some a), Some (Some q) => Some (b && qlt (Qabs (wrap_once (a - q))) t3)
           | _, _ => None
           end
  | _, _ => None
  end.

Lemma angles_total t1 t2 t3 zo ao elevation azimuth :
  2 <= length elevation -> length azimuth = length elevation ->
  exists el az zen keep,
    changed_by (fun e => e - offset zo)%Q elevation el /\ changed_by (fun a => a + offset ao)%Q azimuth az /\
    changed_by (fun e => 90 - e)%Q el zen /\ length keep = length elevation /\
    (forall i, i < length elevation ->
      nth_error keep i = Some (match stable_at t1 t2 t3 el az i with Some b => b | None => true end)) /\
    add_zenith_and_azimuth_angles t1 t2 t3 zo ao elevation azimuth =
      if length elevation - 1 <=? length (filter negb keep) then Raise ValidTimeStampError
      else Ok (zen, az, keep).
Proof.
  intros N Eq. unfold add_zenith_and_azimuth_angles.
  set (el := match zo with Some o => map (option_map (fun e => (e - o)%Q)) elevation | None => elevation end).
  set (az' := match ao with Some o => map (option_map (fun a => (a + o)%Q)) azimuth | None => azimuth end).
  assert (Ce : changed_by (fun e => e - offset zo)%Q elevation el).
  { destruct zo as [o|]; cbn [offset]; subst el; [apply (changed_map (fun e => (e - o)%Q))|apply changed_id; intros x; lra]. }
  assert (Ca : changed_by (fun a => a + offset ao)%Q azimuth az').
  { destruct ao as [o|]; cbn [offset]; subst az'; [apply (changed_map (fun e => (e + o)%Q))|apply changed_id; intros x; lra]. }
  assert (Le := proj1 Ce). assert (La := proj1 Ca). clearbody el az'.
  assert (G1 : 2 <= length el) by lia. assert (G2 : 2 <= length az') by lia.
  assert (G : (length el <? 2) || (length az' <? 2) = false).
  { apply orb_false_iff. split; apply Nat.ltb_ge; assumption. }
  rewrite G. clear G.
  set (s2 := map2 mand (map (option_map (fun e => qlt (Qabs (e - 90)) t1)) el)
    (map (option_map (fun d => qlt (Qabs d) t2)) (mdiff_prepend el))).
  assert (L2 : length s2 = length el).
  { subst s2. rewrite map2_length, !map_length. unfold mdiff_prepend. rewrite mdiff_length. lia. }
  assert (S2 : forall i, i < length el -> nth_error s2 i = Some (
    match nth_error el i, prior el i with
    | Some (Some e), Some (Some p) => Some (qlt (Qabs (e - 90)) t1 && qlt (Qabs (e - p)) t2)
    | _, _ => None end)).
  { intros i Hi. destruct (nth_error_lt_Some el i Hi) as [x X]. destruct (prior_exists el i G1 Hi) as [q P].
    subst s2. rewrite nth_error_map2, !nth_error_map', X, P, (nth_mdiff_prepend _ _ _ _ X P).
    destruct x as [x|], q as [q|]; reflexivity. }
  clearbody s2.
  set (stable := if forallb is_masked az' then Ok s2 else _).
  assert (St : exists s3, stable = Ok s3 /\ length s3 = length el /\
    forall i, i < length el -> nth_error s3 i = Some (stable_at t1 t2 t3 el az' i)).
  { subst stable. destruct (forallb is_masked az') eqn:A.
    - exists s2. split; [reflexivity|]. split; [exact L2|]. intros i Hi. rewrite (S2 i Hi).
      unfold stable_at. rewrite A. destruct (nth_error el i) as [[x|]|], (prior el i) as [[q|]|]; reflexivity.
    - assert (L : (length az' =? length el) = true) by (apply Nat.eqb_eq; lia). rewrite L.
      eexists. split; [reflexivity|]. split.
      + rewrite map2_length, map_length. unfold mdiff_prepend. rewrite mdiff_length. lia.
      + intros i Hi. rewrite nth_error_map2, (S2 i Hi), nth_error_map'.
        destruct (nth_error_lt_Some az' i) as [x X]; [lia|]. destruct (prior_exists az' i G2) as [q P]; [lia|].
        rewrite (nth_mdiff_prepend _ _ _ _ X P). unfold stable_at. rewrite A, X, P.
        destruct (nth_error el i) as [[e|]|]; [|reflexivity|reflexivity].
        destruct (prior el i) as [[p|]|]; [|reflexivity|reflexivity].
        destruct x as [x|]; [|reflexivity]. destruct q as [q|]; reflexivity. }
  destruct St as (s3 & E & L3 & S3). rewrite E. cbn [bind]. clear E stable.
  exists el, az', (map (option_map (fun e => (90 - e)%Q)) el),
    (map (fun b : masked bool => match b with Some b => b | None => true end) s3).
  split; [exact Ce|]. split; [exact Ca|]. split; [apply (changed_map (fun e => (90 - e)%Q))|].
  split; [rewrite map_length; lia|]. split.
  - intros i Hi. rewrite nth_error_map', (S3 i) by lia. reflexivity.
  - rewrite Le. reflexivity.
Qed.

(** A change of azimuth of at most one and a half turns is measured correctly. *)
Lemma wrap_once_turned a b t : (t <= 180 -> Qabs (a - b) <= 540 ->
  (Qabs (wrap_once (a - b)) < t <-> turned_less a b t))%Q.
Proof.
  intros T B. set (d := (a - b)%Q) in *.
  assert (W : exists k : Z, (wrap_once d == d - 360 * inject_Z k)%Q /\ (Qabs (wrap_once d) <= 180)%Q).
  { apply Qabs_Qle_condition in B as [B1 B2]. unfold wrap_once, assign.
    destruct (qgt d 180) eqn:G.
    - apply qgt_iff in G. assert (N : qlt (d - 360) (-180) = false) by (apply qlt_false; lra). rewrite N.
      exists 1%Z. split; [change (inject_Z 1) with 1%Q; lra|]. apply Qabs_Qle_condition. split; lra.
    - apply qgt_false in G. destruct (qlt d (-180)) eqn:L.
      + apply qlt_iff in L. exists (-1)%Z. split; [change (inject_Z (-1)) with (-1)%Q; lra|].
        apply Qabs_Qle_condition. split; lra.
      + apply qlt_false in L. exists 0%Z. split; [change (inject_Z 0) with 0%Q; lra|]. apply Qabs_Qle_condition. split; lra. }
  destruct W as (k & E & W). unfold turned_less. fold d. split.
  - intros H. exists k. rewrite <- E. exact H.
  - intros [m M]. assert (k = m).
    { rewrite E in W. apply Qabs_Qle_condition in W as [W1 W2]. apply Qabs_Qlt_condition in M as [M1 M2].
      assert (inject_Z (k - m) < 1)%Q by (unfold Z.sub; rewrite inject_Z_plus, inject_Z_opp; lra).
      assert (inject_Z (-1) < inject_Z (k - m))%Q by (unfold Z.sub; rewrite inject_Z_plus, inject_Z_opp; change (inject_Z (-1)) with (-1)%Q; lra).
      change 1%Q with (inject_Z 1) in H. rewrite <- Zlt_Qlt in H, H0. lia. }
    subst m. rewrite E. exact M.
Qed.

(** The decision on one profile in terms of the angles of the file. *)
Lemma changed_at f l l' i x : changed_by f l l' -> nth_error l i = Some (Some x) ->
  exists y, nth_error l' i = Some (Some y) /\ (y == f x)%Q.
Proof. intros [_ C] X. exact (proj2 (C i) x X). Qed.
Lemma changed_back f l l' i y : changed_by f l l' -> nth_error l' i = Some (Some y) ->
  exists x, nth_error l i = Some (Some x) /\ (y == f x)%Q.
Proof.
  intros [L C] Y. destruct (nth_error_lt_Some l i) as [[x|] X]; [apply nth_error_Some_lt in Y; lia| |].
  - destruct (proj2 (C i) x X) as (y' & Y' & E). rewrite Y in Y'. assert (y' = y) by congruence. subst y'. eauto.
  - rewrite (proj1 (C i) X) in Y. discriminate Y.
Qed.
Lemma changed_before f l l' i x : changed_by f l l' -> before l i = Some (Some x) ->
  exists y, prior l' i = Some (Some y) /\ (y == f x)%Q.
Proof.
  intros C X. destruct i as [|j]; cbn [before prior] in *.
  - destruct (changed_at f l l' 1 x C X) as (y & Y & E). exists y. split; [|exact E].
    apply (f_equal (option_map (fun x : masked Q => Some (offset x)))) in Y. exact Y.
  - exact (changed_at f l l' j x C X).
Qed.
Lemma all_masked_not l i x : nth_error l i = Some (@Some Q x) -> forallb is_masked l = false.
Proof.
  intros X. apply Bool.not_true_iff_false. intros F. rewrite forallb_forall in F.
  specialize (F _ (nth_error_In _ _ X)). discriminate F.
Qed.
Lemma all_masked_changed f l l' : changed_by f l l' -> (forallb is_masked l = true <-> forallb is_masked l' = true).
Proof.
  intros C. rewrite !forallb_forall. split; intros H x I; apply In_nth_error in I as [i X]; destruct x as [x|]; try reflexivity.
  - destruct (changed_back f l l' i x C X) as (y & Y & _). exact (H _ (nth_error_In _ _ Y)).
  - destruct (changed_at f l l' i x C X) as (y & Y & _). exact (H _ (nth_error_In _ _ Y)).
Qed.
Lemma Qabs_eq_lt x y t : (x == y)%Q -> (Qabs x < t <-> Qabs y < t)%Q.
Proof. intros E. rewrite E. reflexivity. Qed.
Lemma turned_less_eq a b c d t : (a - b == c - d)%Q -> (turned_less a b t <-> turned_less c d t).
Proof. intros E. unfold turned_less. split; intros [k K]; exists k; [rewrite <- E|rewrite E]; exact K. Qed.

Section Angles.
Variables (t1 t2 t3 : Q) (zo ao : option Q) (elevation azimuth el az : list (masked Q)) (i : nat).
Hypothesis Ce : changed_by (fun e => e - offset zo)%Q elevation el.
Hypothesis Ca : changed_by (fun a => a + offset ao)%Q azimuth az.

(** Verdict on the elevation alone, when no azimuth is known. *)
Lemma stable_no_azimuth e p : nth_error elevation i = Some (Some e) -> before elevation i = Some (Some p) ->
  (forall j a, nth_error azimuth j <> Some (Some a)) ->
  exists b, stable_at t1 t2 t3 el az i = Some b /\
    (b = true <-> (Qabs (e - offset zo - 90) < t1 /\ Qabs (e - p) < t2)%Q).
Proof.
  intros E P N. destruct (changed_at _ _ _ _ _ Ce E) as (e' & E' & Qe). destruct (changed_before _ _ _ _ _ Ce P) as (p' & P' & Qp).
  assert (A : forallb is_masked az = true).
  { apply (all_masked_changed _ _ _ Ca). apply forallb_forall. intros [x|] I; [|reflexivity].
    apply In_nth_error in I as [j J]. destruct (N j x J). }
  unfold stable_at. rewrite E', P', A. eexists. split; [reflexivity|]. rewrite andb_true_iff, !qlt_iff.
  rewrite (Qabs_eq_lt (e' - 90) (e - offset zo - 90)) by lra. rewrite (Qabs_eq_lt (e' - p') (e - p)) by lra. reflexivity.
Qed.

Lemma stable_known e p a q : nth_error elevation i = Some (Some e) -> before elevation i = Some (Some p) ->
  nth_error azimuth i = Some (Some a) -> before azimuth i = Some (Some q) -> (t3 <= 180)%Q -> (Qabs (a - q) <= 540)%Q ->
  exists b, stable_at t1 t2 t3 el az i = Some b /\
    (b = true <-> (Qabs (e - offset zo - 90) < t1 /\ Qabs (e - p) < t2)%Q /\ turned_less a q t3).
Proof.
  intros E P A Q T B. destruct (changed_at _ _ _ _ _ Ce E) as (e' & E' & Qe). destruct (changed_before _ _ _ _ _ Ce P) as (p' & P' & Qp).
  destruct (changed_at _ _ _ _ _ Ca A) as (a' & A' & Qa). destruct (changed_before _ _ _ _ _ Ca Q) as (q' & Q' & Qq).
  unfold stable_at. rewrite E', P', (all_masked_not az i a' A'), A', Q'. eexists. split; [reflexivity|].
  rewrite !andb_true_iff, !qlt_iff.
  rewrite (Qabs_eq_lt (e' - 90) (e - offset zo - 90)) by lra. rewrite (Qabs_eq_lt (e' - p') (e - p)) by lra.
  assert (B' : (Qabs (a' - q') <= 540)%Q).
  { assert (X : (a' - q' == a - q)%Q) by lra. rewrite X. exact B. }
  rewrite (wrap_once_turned a' q' t3 T B'). rewrite (turned_less_eq a' q' a q t3) by lra. reflexivity.
Qed.

(** Without the angle of the profile or, after the first profile, of the one before it
    nothing is decided. *)
Lemma stable_missing : nth_error elevation i = Some None \/
  (0 < i /\ nth_error elevation (i - 1) = Some None) \/
  ((exists j a, nth_error azimuth j = Some (Some a)) /\
     (nth_error azimuth i = Some None \/ (0 < i /\ nth_error azimuth (i - 1) = Some None))) ->
  stable_at t1 t2 t3 el az i = None.
Proof.
  intros [E|[[Hi E]|[(j & a & A) B]]]; unfold stable_at.
  - rewrite (proj1 (proj2 Ce i) E). reflexivity.
  - destruct i as [|k]; [lia|]. replace (S k - 1) with k in E by lia. cbn [prior]. rewrite (proj1 (proj2 Ce k) E).
    destruct (nth_error el (S k)) as [[x|]|]; reflexivity.
  - destruct (changed_at _ _ _ _ _ Ca A) as (a' & A' & _). rewrite (all_masked_not az j a' A').
    assert (X : match nth_error az i with Some (Some a) => match prior az i with
       Some (Some q) => True | _ => False end | _ => False end -> False).
    { destruct B as [B|[Hi B]].
      - rewrite (proj1 (proj2 Ca i) B). auto.
      - destruct i as [|k]; [lia|]. replace (S k - 1) with k in B by lia. cbn [prior]. rewrite (proj1 (proj2 Ca k) B).
        destruct (nth_error az (S k)) as [[x|]|]; auto. }
    destruct (nth_error el i) as [[x|]|]; [|reflexivity|reflexivity].
    destruct (prior el i) as [[p|]|]; [|reflexivity|reflexivity].
    destruct (nth_error az i) as [[y|]|]; [|reflexivity|reflexivity].
    destruct (prior az i) as [[q|]|]; [|reflexivity|reflexivity]. destruct (X I).
Qed.
End Angles.

Lemma filter_split {A} (f : A -> bool) l : length (filter f l) + length (filter (fun x => negb (f x)) l) = length l.
Proof. induction l as [|x l IH]; cbn [filter]; [reflexivity|]. destruct (f x); cbn [negb List.length]; lia. Qed.
