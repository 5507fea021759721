(** Proofs about the masks and the power screening of radars and about the weather
    radar. *)
From Verif Require Import Base ArrayModel ArrayProofs FillModel TimeModel GridModel OutputModel ClassifyModel ImageModel RadarModel
  TimeSpec TimeProofs GridSpec GridProofs FillProofs ImageProofs DropletProofs OutputProofs RadarSpec RadarProofs RadarScreenProofs.
From Coq Require Import Qabs Qround String Lqa.
Open Scope string_scope.
Open Scope nat_scope.
Open Scope list_scope.
Local Notation length := List.length (only parsing).
Local Notation get := ImageModel.get (only parsing).

(** ** Masks *)
Lemma mask_indices_also ind m : masked_also (fun i j => get ind i j = true) m (mask_indices ind m).
Proof.
  unfold mask_indices. split.
  - intros i j. rewrite pixel_imapi. destruct (pixel m i j); cbn [option_map]; split; congruence.
  - intros i j x b P. rewrite pixel_imapi, P. cbn [option_map]. eexists. split; [reflexivity|].
    unfold assign, hides. cbn [snd]. destruct (get ind i j); destruct b; cbn; split; auto; intros [X|X]; congruence.
Qed.
Lemma masked_also_ext p q m m' : (forall i j x, pixel m i j = Some x -> (p i j <-> q i j)) -> masked_also p m m' -> masked_also q m m'.
Proof.
  intros H [A B]. split; [exact A|]. intros i j x b P. destruct (B i j x b P) as (b' & P' & E). exists b'.
  split; [exact P'|]. rewrite E, (H i j (x, b) P). reflexivity.
Qed.
Lemma masked_also_trans p q m m1 m2 : masked_also p m m1 -> masked_also q m1 m2 ->
  masked_also (fun i j => p i j \/ q i j) m m2.
Proof.
  intros [A1 B1] [A2 B2]. split.
  - intros i j. rewrite A1. apply A2.
  - intros i j x b P. destruct (B1 i j x b P) as (b1 & P1 & E1). destruct (B2 i j x b1 P1) as (b2 & P2 & E2).
    exists b2. split; [exact P2|]. rewrite E2, E1. tauto.
Qed.

(** All two-dimensional variables of a dictionary are masked in the same places. *)
Definition dict_masked (p : nat -> nat -> Prop) (d d' : rdict) : Prop :=
  Forall2 (fun kv kv' : string * rvar => fst kv = fst kv' /\
    match snd kv with
    | Two m => exists m', snd kv' = Two m' /\ masked_also p m m'
    | Other l => snd kv' = Other l
    end) d d'.
Lemma mask_all_dict ind d : dict_masked (fun i j => get ind i j = true) d (mask_all ind d).
Proof.
  unfold mask_all. induction d as [|[k v] d IH]; cbn [map]; constructor; [|exact IH].
  cbn [fst snd]. split; [reflexivity|]. destruct v as [m|l]; [|reflexivity].
  eexists. split; [reflexivity|]. apply mask_indices_also.
Qed.
Lemma dict_masked_trans p q d d1 d2 : dict_masked p d d1 -> dict_masked q d1 d2 -> dict_masked (fun i j => p i j \/ q i j) d d2.
Proof.
  intros H. revert d2. induction H as [|kv kv1 d d1 [K V] _ IH]; intros d2 H2.
  - inversion H2. constructor.
  - inversion H2 as [|x kv2 y d2' [K2 V2] T]. subst. constructor; [|apply IH; exact T].
    split; [congruence|]. destruct (snd kv) as [m|l].
    + destruct V as (m1 & E1 & M1). rewrite E1 in V2. destruct V2 as (m2 & E2 & M2). exists m2. split; [exact E2|].
      exact (masked_also_trans p q m m1 m2 M1 M2).
    + rewrite V in V2. exact V2.
Qed.
Lemma dict_masked_ext p q d d' : (forall i j, p i j <-> q i j) -> dict_masked p d d' -> dict_masked q d d'.
Proof.
  intros H F. unfold dict_masked in *. induction F as [|kv kv' d d' [K V] _ IH]; constructor; [|exact IH].
  split; [exact K|]. destruct (snd kv) as [m|l]; [|exact V]. destruct V as (m' & E & M). exists m'. split; [exact E|].
  apply (masked_also_ext p q); [|exact M]. intros i j x _. apply H.
Qed.
Lemma dict_masked_image p d d' key m : dict_masked p d d' -> rimage d key = Ok m ->
  exists m', rimage d' key = Ok m' /\ masked_also p m m'.
Proof.
  intros F. unfold rimage. induction F as [|kv kv' d d' [K V] _ IH]; cbn [lookup]; [intros X; discriminate X|].
  destruct kv as [k v], kv' as [k' v']. cbn [fst snd] in *. subst k'. destruct (String.eqb key k); [|exact IH].
  destruct v as [x|l]; intros X; [|discriminate X]. injection X as <-. destruct V as (m' & -> & M). exists m'. auto.
Qed.

Lemma get_imap_hides m i j : get (imap hides m) i j = true <-> hidden_at m i j.
Proof.
  rewrite get_iff, pixel_imap. unfold hidden_at. destruct (pixel m i j) as [[x b]|]; cbn [option_map].
  - unfold hides. cbn [snd]. split.
    + intros X. assert (b = true) by congruence. subst b. eauto.
    + intros [y Y]. congruence.
  - split; [intros X; discriminate X|intros [y Y]; discriminate Y].
Qed.
Lemma get_imap_below m t i j : get (imap (fun x => qlt (raw x) t) m) i j = true <-> below_at m t i j.
Proof.
  rewrite get_iff, pixel_imap. unfold below_at. destruct (pixel m i j) as [[x b]|]; cbn [option_map].
  - unfold raw. cbn [fst]. split.
    + intros X. assert (Y : qlt x t = true) by congruence. apply qlt_iff in Y. exists x, b. auto.
    + intros (y & c & Y & L). assert (y = x) by congruence. subst y. apply qlt_iff in L. congruence.
  - split; [intros X; discriminate X|intros (y & c & Y & _); discriminate Y].
Qed.
Lemma hidden_also p m m' i j : masked_also p m m' -> (hidden_at m' i j <-> hidden_at m i j \/ (exists x, pixel m i j = Some x) /\ p i j).
Proof.
  intros [A B]. unfold hidden_at. split.
  - intros [x X]. destruct (pixel m i j) as [[y b]|] eqn:P.
    + destruct (B i j y b P) as (b' & P' & E). rewrite X in P'. assert (b' = true /\ y = x) as [-> ->] by (split; congruence).
      destruct (proj1 E eq_refl) as [->|C]; [left; eauto|right; eauto].
    + apply A in P. congruence.
  - intros [[x X]|[[[x b] X] C]]; destruct (B i j x _ X) as (b' & P' & E); exists x.
    + rewrite P'. do 2 f_equal. apply E. auto.
    + rewrite P'. do 2 f_equal. apply E. auto.
Qed.

(** All images have the same pixels. *)
Definition same_pixels (m m' : image (Q * bool)) : Prop := forall i j, pixel m i j = None <-> pixel m' i j = None.

Lemma screen_by_snr_ok t d snr : rimage d "SNR" = Ok snr ->
  exists d', screen_by_snr t d = Ok d' /\ dict_masked (below_at snr t) d d'.
Proof.
  intros R. unfold screen_by_snr. rewrite R. cbn [bind]. eexists. split; [reflexivity|].
  eapply dict_masked_ext; [|apply mask_all_dict]. intros i j. apply get_imap_below.
Qed.
Lemma mask_invalid_ok d z v : rimage d "Zh" = Ok z -> rimage d "v" = Ok v ->
  exists d', mask_invalid_data d = Ok d' /\ dict_masked (fun i j => hidden_at z i j \/ hidden_at v i j) d d'.
Proof.
  intros Z V. unfold mask_invalid_data. rewrite Z, V. cbn [bind]. eexists. split; [reflexivity|].
  eapply dict_masked_ext; [|eapply dict_masked_trans; apply mask_all_dict]. cbn beta. intros i j. rewrite !get_imap_hides. reflexivity.
Qed.
Lemma screen_radar_ok t d snr z v : rimage d "SNR" = Ok snr -> rimage d "Zh" = Ok z -> rimage d "v" = Ok v ->
  same_pixels z snr -> 
  exists d', screen_radar t d = Ok d' /\
    dict_masked (fun i j => below_at snr t i j \/ hidden_at z i j \/ hidden_at v i j) d d'.
Proof.
  intros Es Ez Ev Sz. unfold screen_radar. destruct (screen_by_snr_ok t d snr Es) as (d1 & -> & D1). cbn [bind].
  destruct (dict_masked_image _ _ _ _ _ D1 Ez) as (z1 & Ez1 & Mz). destruct (dict_masked_image _ _ _ _ _ D1 Ev) as (v1 & Ev1 & Mv).
  destruct (mask_invalid_ok d1 z1 v1 Ez1 Ev1) as (d2 & -> & D2). exists d2. split; [reflexivity|].
  eapply dict_masked_ext; [|eapply dict_masked_trans; [exact D1|exact D2]]. cbn beta. intros i j.
  rewrite (hidden_also _ _ _ i j Mz), (hidden_also _ _ _ i j Mv). split; [|tauto].
  intros [X|[[X|[_ X]]|[X|[_ X]]]]; tauto.
Qed.

(** ** Low transmit power *)
Definition power_factor (sn : string) (has_fzk100 : bool) : Q := if String.eqb sn "fzk" && negb has_fzk100 then 100%Q else 1%Q.
Lemma corrected_power sn has tpow : length (correct_fzk_tpow sn has tpow) = length tpow /\
  forall k x b, nth_error tpow k = Some (x, b) ->
    exists y, nth_error (correct_fzk_tpow sn has tpow) k = Some (y, b) /\ (y == x * power_factor sn has)%Q.
Proof.
  unfold correct_fzk_tpow, power_factor. destruct (String.eqb sn "fzk"), has; cbn [negb orb andb].
  - split; [reflexivity|]. intros k x b E. exists x. split; [exact E|]. lra.
  - split; [apply map_length|]. intros k x b E. rewrite nth_error_map', E. cbn [option_map]. eexists. split; [reflexivity|]. reflexivity.
  - split; [reflexivity|]. intros k x b E. exists x. split; [exact E|]. lra.
  - split; [reflexivity|]. intros k x b E. exists x. split; [exact E|]. lra.
Qed.

Definition strong_enough (mira35c : bool) (sn : string) (has : bool) (tpow : list (Q * bool)) (k : nat) : Prop :=
  exists x b, nth_error tpow k = Some (x, b) /\ ((if mira35c then 1 # 2 else 5) <= x * power_factor sn has)%Q.

Lemma filter_none {A} (f : A -> bool) l : length (filter f l) = 0 <-> forall x, In x l -> f x = false.
Proof.
  induction l as [|a l IH]; cbn [filter]; [split; [intros _ x []|reflexivity]|].
  destruct (f a) eqn:E; cbn [List.length].
  - split; [discriminate|]. intros H. specialize (H a (or_introl eq_refl)). congruence.
  - rewrite IH. split; intros H x; [intros [<-|I]; [exact E|exact (H x I)]|intros I; apply H; right; exact I].
Qed.

Lemma low_power_ok {P} c sn has tpow (r : instrument P) : length tpow = length (i_time r) ->
  (forall k, k < length tpow -> strong_enough c sn has tpow k) ->
  screen_low_power c sn has (Some tpow) r = Ok r.
Proof.
  intros L H. unfold screen_low_power, low_power_selection. destruct (corrected_power sn has tpow) as [Lc C].
  set (t := correct_fzk_tpow sn has tpow) in *. clearbody t.
  set (low := map (fun x => qlt (raw x) (if c then 1 # 2 else 5)) t).
  assert (N : length (filter (fun b => b) low) = 0).
  { apply filter_none. intros b I. apply In_nth_error in I as [k I]. unfold low in I. rewrite nth_error_map' in I.
    destruct (nth_error t k) as [[y h]|] eqn:T; cbn [option_map] in I; [|discriminate I].
    assert (Hk : k < length tpow) by (apply nth_error_Some_lt in T; lia).
    destruct (H k Hk) as (x & b' & X & S). destruct (C k x b' X) as (y' & Y & E). rewrite T in Y.
    assert (y' = y) by congruence. subst y'. assert (b = qlt y (if c then 1 # 2 else 5)) by (unfold raw in I; cbn [fst] in I; congruence).
    subst b. apply qlt_false. rewrite E. exact S. }
  rewrite N. reflexivity.
Qed.
Lemma low_power_some {P} c sn has tpow (r : instrument P) : length tpow = length (i_time r) ->
  (exists k, k < length tpow /\ ~ strong_enough c sn has tpow k) ->
  exists ind, StronglySorted lt ind /\ (forall k, In k ind <-> strong_enough c sn has tpow k) /\
    (ind = [] -> screen_low_power c sn has (Some tpow) r = Raise ValidTimeStampError) /\
    (ind <> [] -> exists r', screen_low_power c sn has (Some tpow) r = Ok r' /\
       rows_of ind (i_time r) (i_time r') /\ dict_follows 3 (length (i_time r)) ind (i_data r) (i_data r')).
Proof.
  intros L (k0 & Hk0 & W). unfold screen_low_power, low_power_selection. destruct (corrected_power sn has tpow) as [Lc C].
  set (t := correct_fzk_tpow sn has tpow) in *. clearbody t.
  set (low := map (fun x => qlt (raw x) (if c then 1 # 2 else 5)) t).
  assert (Low : forall k, nth_error (map negb low) k = Some true <-> strong_enough c sn has tpow k).
  { intros k. unfold low. rewrite !nth_error_map'. split.
    - destruct (nth_error t k) as [[y h]|] eqn:T; cbn [option_map]; [|intros X; discriminate X].
      intros X. assert (Y : qlt y (if c then 1 # 2 else 5) = false) by (apply negb_true_iff; unfold raw in X; cbn [fst] in X; congruence).
      apply qlt_false in Y. destruct (nth_error_lt_Some tpow k) as [[x b] E]; [apply nth_error_Some_lt in T; lia|].
      destruct (C k x b E) as (y' & T' & Q). rewrite T in T'. assert (y' = y) by congruence. subst y'.
      exists x, b. split; [exact E|]. rewrite <- Q. exact Y.
    - intros (x & b & E & S). destruct (C k x b E) as (y & T & Q). rewrite T. cbn [option_map]. f_equal.
      apply negb_true_iff. unfold raw. cbn [fst]. apply qlt_false. rewrite Q. exact S. }
  assert (N : 0 <? length (filter (fun b => b) low) = true).
  { apply Nat.ltb_lt. destruct (length (filter (fun b => b) low)) eqn:Z; [|lia]. exfalso. apply W. apply Low.
    rewrite nth_error_map'. destruct (nth_error_lt_Some low k0) as [b B]; [unfold low; rewrite map_length; lia|].
    rewrite B. cbn [option_map]. pose proof (proj1 (filter_none _ _) Z b (nth_error_In _ _ B)) as X. cbn beta in X. rewrite X. reflexivity. }
  rewrite N. exists (where1 (map negb low)). split; [apply where1_sorted|]. split; [intros k; rewrite where1_in; apply Low|].
  assert (Ln : length (map negb low) = length (i_time r)) by (unfold low; rewrite !map_length; lia).
  unfold screen_time_mask. split.
  - intros E. assert (X : existsb (fun b => b) (map negb low) = false).
    { apply Bool.not_true_iff_false. intros X. apply existsb_exists in X as (b & I & ->). apply In_nth_error in I as [k I].
      apply where1_in in I. rewrite E in I. destruct I. }
    rewrite X. reflexivity.
  - intros E. assert (X : existsb (fun b => b) (map negb low) = true).
    { destruct (where1 (map negb low)) as [|k ind] eqn:Wk; [congruence|]. apply existsb_exists. exists true. split; [|reflexivity].
      apply (nth_error_In _ k). apply where1_in. rewrite Wk. left. reflexivity. }
    rewrite X. apply Nat.eqb_eq in Ln. rewrite Ln. apply Nat.eqb_eq in Ln. apply screen_time_indices_ok; [exact E|].
    apply Forall_forall. intros k I. apply where1_in in I. apply nth_error_Some_lt in I. lia.
Qed.

(** ** Reading weather radar files *)
Lemma max_range_spec l : forall best, let m := max_range best l in
  In m (best :: l) /\ forall r, In r (best :: l) -> (last r 0 <= last m 0)%Q.
Proof.
  induction l as [|r l IH]; intros best m; cbn [max_range] in m.
  - subst m. split; [left; reflexivity|]. intros r [<-|[]]. lra.
  - set (b := if qgt (last r 0%Q) (last best 0%Q) then r else best) in *.
    destruct (IH b) as [I M]. fold m in I, M. assert (B : (last best 0 <= last b 0 /\ last r 0 <= last b 0)%Q).
    { subst b. destruct (qgt (last r 0%Q) (last best 0%Q)) eqn:G; [apply qgt_iff in G|apply qgt_false in G]; split; lra. }
    split.
    + destruct I as [<-|I]; [|right; right; exact I]. subst b. destruct (qgt _ _); [right; left|left]; reflexivity.
    + assert (Mb : (last b 0 <= last m 0)%Q) by (apply M; left; reflexivity).
      intros s [<-|[<-|Is]]; [lra|lra|]. apply M. right. exact Is.
Qed.

Lemma array_equal_iff a b : array_equal a b = true <-> Forall2 Qeq a b.
Proof.
  unfold array_equal. rewrite andb_true_iff, Nat.eqb_eq, forallb_forall. split.
  - revert b. induction a as [|x a IH]; intros [|y b] [L H]; try discriminate L; constructor.
    + apply Qeq_bool_iff. exact (H (x, y) (or_introl eq_refl)).
    + apply IH. split; [injection L as L; exact L|]. intros p I. apply H. right. exact I.
  - intros F. induction F as [|x y a b E F [L H]]; [split; [reflexivity|intros p []]|]. split; [cbn; congruence|].
    intros p [<-|I]; [apply Qeq_bool_iff; exact E|exact (H p I)].
Qed.

Lemma existsb_eqb k l : existsb (String.eqb k) l = true <-> In k l.
Proof.
  rewrite existsb_exists. split.
  - intros (x & I & E). apply String.eqb_eq in E. subst x. exact I.
  - intros I. exists k. split; [exact I|apply String.eqb_refl].
Qed.
Lemma first_keys_spec l : forall seen, NoDup (first_keys seen l) /\
  forall k, In k (first_keys seen l) <-> In k l /\ ~ In k seen.
Proof.
  induction l as [|a l IH]; intros seen; cbn [first_keys].
  - split; [constructor|]. intros k. cbn. tauto.
  - destruct (existsb (String.eqb a) seen) eqn:E.
    + apply existsb_eqb in E. destruct (IH seen) as [N I]. split; [exact N|]. intros k. rewrite I. cbn [In]. split.
      * intros [A B]. auto.
      * intros [[<-|A] B]; [destruct (B E)|auto].
    + assert (E' : ~ In a seen) by (intros X; apply existsb_eqb in X; congruence).
      destruct (IH (a :: seen)) as [N I]. split.
      * constructor; [|exact N]. intros X. apply I in X as [_ X]. apply X. left. reflexivity.
      * intros k. cbn [In]. rewrite I. cbn [In]. split.
        -- intros [<-|[A B]]; [auto|]. split; [auto|]. intros X. apply B. auto.
        -- intros [[<-|A] B]; [auto|]. destruct (string_dec a k) as [->|D]; [auto|]. right. split; [exact A|]. intros [X|X]; auto.
Qed.

(** The files of a radar: heights increase and are not empty, profiles fit them. *)
Definition good_file {S} (f : wr_file S) : Prop :=
  ascending (w_range f) /\ w_range f <> [] /\
  forall k values, lookup k (w_data f) = Some values -> length values = length (w_range f).

(** The profile of variable [key] of a file, on the target heights. *)
Definition profile_of {S} (target : list Q) (key : string) (f : wr_file S) (row : list (masked Q)) : Prop :=
  match lookup key (w_data f) with
  | Some values => from_nearest (w_range f) values target row
  | None => all_missing (length target) row
  end.

Lemma forall2_nth_l {A B} (R : A -> B -> Prop) l l' i x : Forall2 R l l' -> nth_error l i = Some x ->
  exists y, nth_error l' i = Some y /\ R x y.
Proof.
  intros F. revert i. induction F as [|a b l l' H F IH]; intros [|i] X; cbn [nth_error] in X |- *; try discriminate X.
  - assert (x = a) by congruence. subst x. eauto.
  - exact (IH i X).
Qed.
Lemma forall2_nth_r {A B} (R : A -> B -> Prop) l l' i y : Forall2 R l l' -> nth_error l' i = Some y ->
  exists x, nth_error l i = Some x /\ R x y.
Proof.
  intros F. revert i. induction F as [|a b l l' H F IH]; intros [|i] X; cbn [nth_error] in X |- *; try discriminate X.
  - assert (y = b) by congruence. subst y. eauto.
  - exact (IH i X).
Qed.

Lemma wr_block_ok {S} target key (f : wr_file S) : good_file f -> 
  exists row, wr_block target key f = Ok row /\ profile_of target key f row.
Proof.
  intros (As & Ne & Fit). unfold wr_block, profile_of. destruct (lookup key (w_data f)) as [values|] eqn:L.
  - specialize (Fit key values L). destruct (array_equal (w_range f) target) eqn:E.
    + apply array_equal_iff in E. exists values. split; [reflexivity|]. split.
      * rewrite Fit. clear - E. induction E; cbn; congruence.
      * intros j h T. destruct (forall2_nth_r _ _ _ _ _ E T) as (y & Y & Q). assert (In y (w_range f)) by (eapply nth_error_In; exact Y).
        split.
        -- intros [O|O]; exfalso; specialize (O y H); lra.
        -- intros _. destruct (nth_error_lt_Some values j) as [v V]; [rewrite Fit; eapply nth_error_Some_lt; exact Y|].
           exists j, y, v. split; [exact Y|]. split; [|auto]. intros y' _.
           assert (Z : (h - y == 0)%Q) by lra. rewrite Z. apply Qabs_nonneg.
    + destruct (interpolate_2D_ok (w_range f) [values] target As Ne) as (out & Eo & Lo & H).
      { constructor; [exact Fit|constructor]. }
      rewrite Eo. cbn [bind]. destruct out as [|row [|r2 out]]; try discriminate Lo. exists row. split; [reflexivity|].
      assert (Lr : length row = length target).
      { clear - Eo Ne. destruct (w_range f) as [|y0 r]; [congruence|]. unfold interpolate_2D_along_y in Eo.
        cbn [map sequence] in Eo. destruct (gather values (map (nearest_gate (y0 :: r)) target)) as [vals|e] eqn:G; cbn [bind] in Eo; [|discriminate Eo].
        assert (row = map2 (fun v (yn : Q) => if qlt yn (list_min y0 r) || qgt yn (list_max y0 r) then None else v) vals target) by congruence.
        subst row. rewrite map2_length. destruct (gather_rows_of _ _ (gather_inv _ _ _ G)) as (v' & Ev & [Lv _]). assert (v' = vals) by congruence. subst v'. rewrite map_length in Lv. lia. }
      split; [exact Lr|]. intros j h T. destruct (H 0 j h (Nat.lt_0_1) T) as (g & v & w & (y & Y & Nr) & Pz & Po & Out & In').
      unfold pixel in Pz, Po. cbn [nth_error] in Pz, Po. split.
      * intros O. rewrite Po. f_equal. apply Out. exact O.
      * intros O. exists g, y, v. split; [exact Y|]. split; [exact Nr|]. split; [exact Pz|]. rewrite Po. f_equal. apply In'. exact O.
  - exists (List.repeat None (length target)). split; [reflexivity|]. split; [apply repeat_length|].
    intros j x X. apply nth_error_In in X. apply repeat_spec in X. discriminate X.
Qed.

Lemma sequence_map_ok {A B} (f : A -> result B) (R : A -> B -> Prop) l :
  (forall x, In x l -> exists y, f x = Ok y /\ R x y) -> exists ys, sequence (map f l) = Ok ys /\ Forall2 R l ys.
Proof.
  induction l as [|x l IH]; intros H; [exists []; split; [reflexivity|constructor]|].
  destruct (H x (or_introl eq_refl)) as (y & E & r). destruct IH as (ys & Es & F); [intros z I; apply H; right; exact I|].
  exists (y :: ys). cbn [map sequence]. rewrite E, Es. split; [reflexivity|]. constructor; assumption.
Qed.

Lemma wr_read_ok {S} (files : list (option (wr_file S))) valid : valid = unmasked files -> valid <> [] -> Forall good_file valid ->
  exists r f_range f_last, wr_read files = Ok r /\ r_time r = map w_time valid /\
    In f_range valid /\ r_range r = w_range f_range /\
    (forall f, In f valid -> last (w_range f) 0 <= last (r_range r) 0)%Q /\
    nth_error valid (length valid - 1) = Some f_last /\ r_scalars r = w_scalars f_last /\
    NoDup (map fst (r_data r)) /\
    (forall k, In k (map fst (r_data r)) <-> exists f, In f valid /\ lookup k (w_data f) <> None) /\
    (forall k rows, In (k, rows) (r_data r) -> Forall2 (profile_of (r_range r) k) valid rows).
Proof.
  intros V Ne G. unfold wr_read. rewrite <- V. destruct valid as [|f0 rest] eqn:E0; [congruence|]. rewrite <- E0 in *.
  set (target := max_range (w_range f0) (map w_range rest)).
  set (keys := first_keys [] (flat_map (fun f => map fst (w_data f)) valid)).
  destruct (sequence_map_ok (fun key => bind (sequence (map (wr_block target key) valid)) (fun rows => Ok (key, rows)))
    (fun key kr => fst kr = key /\ Forall2 (profile_of target key) valid (snd kr)) keys) as (data & Ed & Fd).
  { intros key _. destruct (sequence_map_ok (wr_block target key) (profile_of target key) valid) as (rows & Er & Fr).
    { intros f I. apply wr_block_ok. rewrite Forall_forall in G. apply G. exact I. }
    rewrite Er. cbn [bind]. exists (key, rows). split; [reflexivity|]. split; [reflexivity|exact Fr]. }
  rewrite Ed. cbn [bind].
  destruct (max_range_spec (map w_range rest) (w_range f0)) as [It Mt]. fold target in It, Mt.
  assert (Mv : map w_range valid = w_range f0 :: map w_range rest) by (rewrite E0; reflexivity).
  rewrite <- Mv in It. apply in_map_iff in It as (fr & Efr & Ifr).
  assert (Kd : map (@fst string (image (masked Q))) data = keys).
  { clear - Fd. induction Fd as [|k kr l l' [H _] F IH]; cbn [map]; [reflexivity|]. f_equal; [exact H|exact IH]. }
  destruct (first_keys_spec (flat_map (fun f => map fst (w_data f)) valid) []) as [Nk Ik]. fold keys in Nk, Ik.
  exists (Build_wr_raw (map w_time valid) target data (w_scalars (last valid f0))), fr, (last valid f0).
  cbn [r_time r_range r_data r_scalars]. split; [reflexivity|]. split; [reflexivity|]. split; [exact Ifr|]. split; [congruence|].
  split; [intros f I; apply Mt; rewrite <- Mv; apply in_map; exact I|].
  split.
  { assert (X : forall (l : list (wr_file S)) a, l <> [] -> nth_error l (length l - 1) = Some (last l a)).
    { clear. induction l as [|b l IH]; intros a N; [congruence|]. destruct l as [|c l]; [reflexivity|].
      change (last (b :: c :: l) a) with (last (c :: l) a).
      replace (length (b :: c :: l) - 1) with (Datatypes.S (length (c :: l) - 1)) by (cbn; lia).
      cbn [nth_error]. apply IH. discriminate. }
    apply X. exact Ne. }
  split; [reflexivity|]. rewrite Kd. split; [exact Nk|]. split.
  - intros k. rewrite Ik, in_flat_map. split.
    + intros [(f & I & H) _]. exists f. split; [exact I|]. apply lookup_in. exact H.
    + intros (f & I & H). split; [|intros []]. exists f. split; [exact I|]. apply lookup_in. exact H.
  - intros k rows I. apply In_nth_error in I as [i I]. destruct (forall2_nth_r _ _ _ _ _ Fd I) as (key & _ & H & F).
    cbn [fst snd] in H, F. subst key. exact F.
Qed.

(** ** Selection of the day and sorting *)
Lemma select_from {A} mask : forall (l : list A) s, length mask = length l ->
  length (select mask l) = length (where_from s mask) /\
  forall i k, nth_error (where_from s mask) i = Some k ->
    exists x, s <= k /\ nth_error l (k - s) = Some x /\ nth_error (select mask l) i = Some x.
Proof.
  induction mask as [|b mask IH]; intros [|a l] s L; try discriminate L.
  - split; [reflexivity|]. intros [|i] k H; discriminate H.
  - injection L as L. destruct (IH l (S s) L) as [Ls H]. unfold select in *. cbn [combine filter fst where_from]. destruct b; cbn [app map List.length snd].
    + split; [congruence|]. intros [|i] k K; cbn [nth_error] in K |- *.
      * assert (k = s) by congruence. subst k. exists a. split; [lia|]. rewrite Nat.sub_diag. auto.
      * destruct (H i k K) as (x & A1 & A2 & A3). exists x. split; [lia|]. replace (k - s) with (S (k - S s)) by lia. auto.
    + split; [exact Ls|]. intros i k K. destruct (H i k K) as (x & A1 & A2 & A3). exists x. split; [lia|].
      replace (k - s) with (S (k - S s)) by lia. auto.
Qed.
Lemma select_rows {A} mask (l : list A) : length mask = length l -> rows_of (where1 mask) l (select mask l).
Proof.
  intros L. destruct (select_from mask l 0 L) as [Ls H]. split; [exact Ls|]. intros i k K.
  destruct (H i k K) as (x & _ & Ha & Hb). rewrite Nat.sub_0_r in Ha. eauto.
Qed.
Lemma rows_of_back {A} ind (l out : list A) i x : rows_of ind l out -> nth_error out i = Some x ->
  exists k, nth_error ind i = Some k /\ nth_error l k = Some x.
Proof.
  intros [L R] X. destruct (nth_error_lt_Some ind i) as [k K]; [apply nth_error_Some_lt in X; lia|].
  destruct (R i k K) as (y & Y & Z). exists k. split; [exact K|]. congruence.
Qed.
Lemma rows_of_trans {A} ind1 ind2 (l l1 l2 : list A) : rows_of ind1 l l1 -> rows_of ind2 l1 l2 ->
  (forall i, In i ind2 -> i < length ind1) -> rows_of (map (fun i => nth i ind1 0) ind2) l l2.
Proof.
  intros [L1 R1] [L2 R2] B. split; [rewrite map_length; exact L2|]. intros i k K. rewrite nth_error_map' in K.
  destruct (nth_error ind2 i) as [j|] eqn:J; cbn [option_map] in K; [|discriminate K].
  destruct (R2 i j J) as (x & X & Y). destruct (nth_error_lt_Some ind1 j) as [k' K']; [apply B; eapply nth_error_In; exact J|].
  rewrite (nth_error_nth _ _ 0 K') in K. assert (k' = k) by congruence. subst k'.
  destruct (R1 j k K') as (y & Yl & Y1). exists x. split; [congruence|exact Y].
Qed.

Lemma wr_day_iff day t : Z.eqb (wr_day t) day = true <-> of_day day t.
Proof.
  unfold wr_day, of_day. rewrite Z.eqb_eq. assert (D : (0 < 86400)%Q) by reflexivity.
  assert (M : forall x, (x <= t / 86400 <-> x * 86400 <= t)%Q).
  { intros x. assert (E : (t == (t / 86400) * 86400)%Q) by (field; discriminate).
    set (y := (t / 86400)%Q) in *. clearbody y. split; intros H; lra. }
  split.
  - intros <-. split.
    + apply M. apply Qfloor_le.
    + apply Qnot_le_lt. intros X. apply M in X. pose proof (Qlt_floor (t / 86400)). lra.
  - intros [A B]. apply M in A. assert (B' : (t / 86400 < inject_Z (day + 1))%Q).
    { apply Qnot_le_lt. intros X. apply M in X. lra. }
    apply Z.le_antisymm.
    + apply Z.lt_succ_r. rewrite Zlt_Qlt. apply Qle_lt_trans with (t / 86400)%Q; [apply Qfloor_le|exact B'].
    + rewrite <- (Qfloor_Z day). apply Qfloor_resp_le. exact A.
Qed.

(** What is kept of the files [valid]: the positions [ind]. *)
Definition kept_files (date : option Z) (times : list Q) (ind : list nat) : Prop :=
  forall i, In i ind <-> (first_occurrence times i /\ forall day t, date = Some day -> nth_error times i = Some t -> of_day day t).

Lemma dedup_rows {A} (times : list Q) (rows : list A) d : length rows = length times ->
  rows_of (unique_index times) rows (map (fun i => nth i rows d) (map snd (unique times))).
Proof.
  intros L. fold (unique_index times). split; [apply map_length|]. intros i k K. rewrite nth_error_map', K. cbn [option_map].
  pose proof (unique_bound times) as B. rewrite Forall_forall in B. specialize (B k (nth_error_In _ _ K)).
  destruct (nth_error_lt_Some rows k) as [x X]; [lia|]. exists x. split; [exact X|]. f_equal. apply nth_error_nth. exact X.
Qed.
Lemma unique_pair times t k : In (t, k) (unique times) -> nth_error times k = Some t.
Proof.
  assert (Hs : StronglySorted lex (sort_pairs (combine times (seq 0 (length times))))).
  { apply sort_pairs_sorted. apply combine_seq_sorted. }
  unfold unique. rewrite dedup_in; [|exact Hs|intros v q H; discriminate H]. intros [H _].
  apply (Permutation_in _ (sort_pairs_perm _)) in H. apply in_combine_seq in H as [_ H]. rewrite Nat.sub_0_r in H. exact H.
Qed.
Lemma unique_times times : rows_of (unique_index times) times (map fst (unique times)) /\ strictly_increasing (map fst (unique times)).
Proof.
  assert (H : rows_of (unique_index times) times (map fst (unique times))).
  { split; [unfold unique_index; rewrite !map_length; reflexivity|]. intros i k K. unfold unique_index in K. rewrite nth_error_map' in K.
    destruct (nth_error (unique times) i) as [[t j]|] eqn:U; cbn [option_map snd] in K; [|discriminate K].
    assert (j = k) by congruence. subst j. exists t. split; [|rewrite nth_error_map', U; reflexivity].
    exact (unique_pair times t k (nth_error_In _ _ U)). }
  split; [exact H|]. destruct (unique_spec times) as [_ S]. unfold strictly_increasing.
  assert (X : forall l out, rows_of l times out -> StronglySorted (times_lt times) l -> StronglySorted (fun a b => a < b)%Q out).
  { induction l as [|k l IH]; intros out [Lo Ro] Sl.
    - destruct out; [constructor|discriminate Lo].
    - destruct out as [|a out]; [discriminate Lo|]. apply StronglySorted_inv in Sl as [Sl Fl].
      assert (R' : rows_of l times out) by (split; [injection Lo as Lo; exact Lo|intros i j J; exact (Ro (Datatypes.S i) j J)]).
      constructor; [apply IH; assumption|]. destruct (Ro 0 k eq_refl) as (x & Xk & Xa). cbn [nth_error] in Xa.
      assert (x = a) by congruence. subst x. apply Forall_forall. intros b I. apply In_nth_error in I as [i I].
      destruct (rows_of_back _ _ _ _ _ R' I) as (j & J & Tj). rewrite Forall_forall in Fl.
      specialize (Fl j (nth_error_In _ _ J)). exact (Fl a b Xk Tj). }
  exact (X _ _ H S).
Qed.

Lemma sorted_nth_lt l : StronglySorted lt l -> forall i j a b, nth_error l i = Some a -> nth_error l j = Some b -> (i < j <-> a < b).
Proof.
  intros H. assert (X : forall i j a b, nth_error l i = Some a -> nth_error l j = Some b -> i < j -> a < b).
  { induction H as [|x l S IH F]; intros [|i] [|j] a b A B L; cbn [nth_error] in A, B; try discriminate A; try discriminate B; try lia.
    - assert (a = x) by congruence. subst a. rewrite Forall_forall in F. apply F. eapply nth_error_In. exact B.
    - apply (IH i j); [exact A|exact B|lia]. }
  intros i j a b A B. split; [apply X; assumption|]. intros L. destruct (Nat.lt_trichotomy i j) as [C|[C|C]]; [exact C| |].
  - subst j. assert (a = b) by congruence. lia.
  - pose proof (X j i b a B A C). lia.
Qed.

Lemma selected_files times day : let mask := map (fun t => Z.eqb (wr_day t) day) times in
  kept_files (Some day) times (map (fun i => nth i (where1 mask) 0) (unique_index (select mask times))).
Proof.
  intros mask. assert (Lm : length mask = length times) by (unfold mask; apply map_length).
  pose proof (select_rows mask times Lm) as Sr. pose proof (where1_sorted mask) as Sw.
  assert (Mk : forall k, In k (where1 mask) <-> exists t, nth_error times k = Some t /\ of_day day t).
  { intros k. rewrite where1_in. unfold mask. rewrite nth_error_map'. split.
    - destruct (nth_error times k) as [t|] eqn:T; cbn [option_map]; [|intros X; discriminate X]. intros X. exists t.
      split; [reflexivity|]. apply wr_day_iff. congruence.
    - intros (t & -> & D). cbn [option_map]. f_equal. apply wr_day_iff. exact D. }
  destruct (unique_spec (select mask times)) as [Us _].
  assert (Eqd : forall s t, (s == t)%Q -> of_day day t -> of_day day s).
  { intros s t E [A B]. split; rewrite E; assumption. }
  intros k. rewrite in_map_iff. split.
  - intros (j & E & I). apply Us in I as (x & X & First). destruct (rows_of_back _ _ _ _ _ Sr X) as (k' & K & T).
    rewrite (nth_error_nth _ _ 0 K) in E. subst k'. assert (D : of_day day x).
    { destruct (proj1 (Mk k) (nth_error_In _ _ K)) as (t & T' & D). assert (t = x) by congruence. subst t. exact D. }
    split.
    + exists x. split; [exact T|]. intros k' y L Y C. assert (Dy : of_day day y) by (apply (Eqd y x); [symmetry; exact C|exact D]).
      assert (I' : In k' (where1 mask)) by (apply Mk; exists y; auto). apply In_nth_error in I' as [j' J'].
      assert (L' : j' < j) by (apply (sorted_nth_lt _ Sw j' j k' k J' K); exact L).
      destruct (proj2 Sr j' k' J') as (y' & Y1 & Y2). assert (y' = y) by congruence. subst y'.
      exact (First j' y L' Y2 C).
    + intros day' t Ed T'. assert (day' = day) by congruence. assert (t = x) by congruence. subst day' t. exact D.
  - intros [(x & X & First) D]. specialize (D day x eq_refl X).
    assert (I : In k (where1 mask)) by (apply Mk; exists x; auto). apply In_nth_error in I as [j J].
    exists j. split; [apply (nth_error_nth _ _ 0 J)|]. apply Us. destruct (proj2 Sr j k J) as (x' & X1 & X2).
    assert (x' = x) by congruence. subst x'. exists x. split; [exact X2|]. intros j' y L Y C.
    destruct (rows_of_back _ _ _ _ _ Sr Y) as (k' & K' & T'). apply (First k' y); [|exact T'|exact C].
    apply (sorted_nth_lt _ Sw j' j k' k K' J). exact L.
Qed.

Lemma kept_rows {A} times day (l : list A) d : length l = length times ->
  let mask := map (fun t => Z.eqb (wr_day t) day) times in
  rows_of (map (fun i => nth i (where1 mask) 0) (unique_index (select mask times))) l
    (map (fun i => nth i (select mask l) d) (map snd (unique (select mask times)))).
Proof.
  intros L mask. assert (Lm : length mask = length times) by (unfold mask; apply map_length).
  pose proof (select_rows mask l ltac:(lia)) as Sl. pose proof (select_rows mask times Lm) as St.
  apply (rows_of_trans _ _ l (select mask l)); [exact Sl| |].
  - apply dedup_rows. rewrite (proj1 Sl), (proj1 St). reflexivity.
  - intros i I. pose proof (unique_bound (select mask times)) as B. rewrite Forall_forall in B. specialize (B i I).
    rewrite (proj1 St) in B. exact B.
Qed.

Lemma kept_times times day : let mask := map (fun t => Z.eqb (wr_day t) day) times in
  rows_of (map (fun i => nth i (where1 mask) 0) (unique_index (select mask times))) times
    (map fst (unique (select mask times))).
Proof.
  intros mask. assert (Lm : length mask = length times) by (unfold mask; apply map_length).
  pose proof (select_rows mask times Lm) as St.
  apply (rows_of_trans _ _ times (select mask times)); [exact St|apply unique_times|].
  intros i I. pose proof (unique_bound (select mask times)) as B. rewrite Forall_forall in B. specialize (B i I).
  rewrite (proj1 St) in B. exact B.
Qed.

Lemma wr_load_ok {S} date (files : list (option (wr_file S))) valid :
  valid = unmasked files -> valid <> [] -> Forall good_file valid ->
  exists hours r day ind, wr_load date files = Ok (hours, r, day) /\
    match date with Some d => day = d | None => forall f, nth_error valid 0 = Some f -> of_day day (w_time f) end /\
    rows_of ind (map w_time valid) (r_time r) /\ strictly_increasing (r_time r) /\
    kept_files date (map w_time valid) ind /\
    length hours = length (r_time r) /\
    (forall i t, nth_error (r_time r) i = Some t -> exists h, nth_error hours i = Some h /\ (h * 3600 == t - inject_Z day * 86400)%Q) /\
    (exists f, In f valid /\ r_range r = w_range f /\ forall g, In g valid -> last (w_range g) 0 <= last (w_range f) 0)%Q /\
    (exists f, nth_error valid (length valid - 1) = Some f /\ r_scalars r = w_scalars f) /\
    NoDup (map fst (r_data r)) /\
    (forall k, In k (map fst (r_data r)) <-> exists f, In f valid /\ lookup k (w_data f) <> None) /\
    (forall k rows, In (k, rows) (r_data r) -> length rows = length ind /\
       forall i j f, nth_error ind i = Some j -> nth_error valid j = Some f ->
         exists row, nth_error rows i = Some row /\ profile_of (r_range r) k f row).
Proof.
  intros V Ne G. destruct (wr_read_ok files valid V Ne G) as (r0 & fr & fl & E & Et & Ifr & Er & Mr & Nl & Es & Nd & Ik & Fr).
  unfold wr_load. rewrite E. cbn [bind].
  assert (Hours : forall day (ts : list Q), length (map (fun t => ((t - inject_Z day * 86400) / 3600)%Q) ts) = length ts /\
    forall i t, nth_error ts i = Some t -> exists h, nth_error (map (fun t => ((t - inject_Z day * 86400) / 3600)%Q) ts) i = Some h /\
      (h * 3600 == t - inject_Z day * 86400)%Q).
  { intros day ts. split; [apply map_length|]. intros i t T. rewrite nth_error_map', T. cbn [option_map]. eexists. split; [reflexivity|].
    field. }
  assert (Longest : exists f, In f valid /\ r_range r0 = w_range f /\ forall g, In g valid -> (last (w_range g) 0 <= last (w_range f) 0)%Q).
  { exists fr. split; [exact Ifr|]. split; [exact Er|]. rewrite <- Er. exact Mr. }
  assert (Lrows : forall k rows, In (k, rows) (r_data r0) -> length rows = length (r_time r0)).
  { intros k rows I. specialize (Fr k rows I). rewrite Et, map_length. clear - Fr. induction Fr; cbn; congruence. }
  destruct date as [day|]; cbn [wr_screen_time].
  - cbn [bind]. set (mask := map (fun t => Z.eqb (wr_day t) day) (r_time r0)).
    set (ind := map (fun i => nth i (where1 mask) 0) (unique_index (select mask (r_time r0)))).
    set (r := Build_wr_raw (select mask (r_time r0)) (r_range r0) (map (fun kv => (fst kv, select mask (snd kv))) (r_data r0)) (r_scalars r0)).
    exists (map (fun t => ((t - inject_Z day * 86400) / 3600)%Q) (r_time (wr_dedup r))), (wr_dedup r), day, ind.
    split; [reflexivity|]. split; [reflexivity|]. rewrite <- Et. cbn [wr_dedup r_time r_range r_data r_scalars r].
    split; [apply kept_times|]. split; [apply unique_times|]. split; [apply selected_files|].
    split; [apply (proj1 (Hours day _))|]. split; [apply (proj2 (Hours day _))|]. split; [exact Longest|].
    split; [exists fl; split; assumption|]. rewrite !map_map. cbn [fst]. split; [exact Nd|]. split; [exact Ik|].
    intros k rows I. apply in_map_iff in I as ([k2 rows2] & E1 & I).
    cbn [fst snd] in E1. assert (k2 = k) by congruence. subst k2.
    assert (rows = map (fun i => nth i (select mask rows2) []) (map snd (unique (select mask (r_time r0))))) by congruence. subst rows.
    pose proof (kept_rows (r_time r0) day rows2 [] (Lrows k rows2 I)) as Kr. cbv zeta in Kr. fold mask in Kr. fold ind in Kr.
    split; [exact (proj1 Kr)|]. intros i j f J F. destruct (proj2 Kr i j J) as (row & R1 & R2). exists row. split; [exact R2|].
    destruct (forall2_nth_r _ _ _ _ _ (Fr k rows2 I) R1) as (f' & F' & P). assert (f' = f) by congruence. subst f'. exact P.
  - destruct valid as [|f0 rest] eqn:E0; [congruence|]. rewrite <- E0 in *.
    assert (Et0 : r_time r0 = w_time f0 :: map w_time rest) by (rewrite Et, E0; reflexivity).
    rewrite Et0. cbn [bind].
    exists (map (fun t => ((t - inject_Z (wr_day (w_time f0)) * 86400) / 3600)%Q) (r_time (wr_dedup r0))), (wr_dedup r0), (wr_day (w_time f0)),
      (unique_index (r_time r0)).
    split; [reflexivity|]. split.
    { intros f F. rewrite E0 in F. cbn [nth_error] in F. assert (f = f0) by congruence. subst f. apply wr_day_iff. apply Z.eqb_refl. }
    rewrite <- Et. cbn [wr_dedup r_time r_range r_data r_scalars].
    split; [apply unique_times|]. split; [apply unique_times|]. split.
    { intros i. rewrite (proj1 (unique_spec (r_time r0)) i). split; [intros X; split; [exact X|]; intros d t D; discriminate D|intros [X _]; exact X]. }
    split; [apply (proj1 (Hours _ _))|]. split; [apply (proj2 (Hours _ _))|]. split; [exact Longest|].
    split; [exists fl; split; assumption|]. rewrite !map_map. cbn [fst]. split; [exact Nd|]. split; [exact Ik|].
    intros k rows I. apply in_map_iff in I as ([k1 rows1] & E1 & I). cbn [fst snd] in E1. assert (k1 = k) by congruence. subst k1.
    assert (rows = map (fun i => nth i rows1 []) (map snd (unique (r_time r0)))) by congruence. subst rows.
    pose proof (dedup_rows (r_time r0) rows1 [] (Lrows k rows1 I)) as Kr.
    split; [exact (proj1 Kr)|]. intros i j f J F. destruct (proj2 Kr i j J) as (row & R1 & R2). exists row. split; [exact R2|].
    destruct (forall2_nth_r _ _ _ _ _ (Fr k rows1 I) R1) as (f' & F' & P). assert (f' = f) by congruence. subst f'. exact P.
Qed.

(** ** Clutter and noise *)
Lemma still_echo_ok z : forall v j n nt, sized nt n z -> sized nt n v -> j < n ->
  unmasked (map2 (fun zr vr => let z := at_gate zr j in let v := at_gate vr j in
    if hides z || hides v || qlt (raw v) (-1) then None else Some (raw z)) z v) = still_echo z v j.
Proof.
  induction z as [|zr z IH]; intros v j n nt [Lz Rz] [Lv Rv] Hj; [reflexivity|].
  destruct v as [|vr v]; [cbn in Lz, Lv; lia|]. cbn [map2 unmasked still_echo].
  destruct (nth_error_lt_Some zr j) as [[x hx] X]; [rewrite (Rz 0 zr eq_refl); exact Hj|].
  destruct (nth_error_lt_Some vr j) as [[y hy] Y]; [rewrite (Rv 0 vr eq_refl); exact Hj|].
  cbv zeta. rewrite (at_gate_nth _ _ _ X), (at_gate_nth _ _ _ Y), X, Y. unfold hides, raw. cbn [fst snd].
  assert (IH' := IH v j n (nt - 1)). rewrite <- IH'; [|split; [cbn in Lz; lia|intros i; apply (Rz (S i))]|split; [cbn in Lv; lia|intros i; apply (Rv (S i))]|exact Hj].
  destruct hx, hy; cbn [orb]; try reflexivity. unfold qlt. destruct (Qle_bool (-1) y); cbn [negb]; reflexivity.
Qed.
Lemma fold_qsum l : (fold_right Qplus 0 l == qsum l)%Q.
Proof. induction l as [|x l IH]; cbn [fold_right qsum]; [reflexivity|]. rewrite IH. reflexivity. Qed.
Lemma clutter_gate_iff z v j n nt : sized nt n z -> sized nt n v -> j < n ->
  (match clutter_mean z v j with Some m => qgt m (-10) | None => false end = true <-> clutter_gate z v j).
Proof.
  intros Sz Sv Hj. unfold clutter_mean, ma_stat. pose proof (still_echo_ok z v j n nt Sz Sv Hj) as Se. cbv zeta in Se. rewrite Se. clear Se. unfold clutter_gate.
  destruct (still_echo z v j) as [|x l] eqn:E; [split; [discriminate|intros [N _]; congruence]|]. rewrite <- E.
  assert (P : (0 < inject_Z (Z.of_nat (length (still_echo z v j))))%Q).
  { rewrite E. change 0%Q with (inject_Z 0). rewrite <- Zlt_Qlt. cbn [List.length]. lia. }
  rewrite qgt_iff. unfold mean. pose proof (fold_qsum (still_echo z v j)) as Fs.
  set (c := inject_Z (Z.of_nat (length (still_echo z v j)))) in *. set (s := qsum (still_echo z v j)) in *.
  set (t := fold_right Qplus 0%Q (still_echo z v j)) in *.
  assert (Ne : still_echo z v j <> []) by (rewrite E; discriminate).
  clearbody c s t. clear E.
  assert (D : (t / c * c == t)%Q) by (field; lra). set (q := (t / c)%Q) in *. clearbody q. split.
  - intros H. split; [exact Ne|]. assert (0 < (q + 10) * c)%Q by (apply Qmult_lt_0_compat; lra). lra.
  - intros [_ H]. apply Qnot_le_lt. intros X. assert (0 <= (-10 - q) * c)%Q by (apply Qmult_le_0_compat; lra). lra.
Qed.

Lemma screen_clutter_ok n nt d z v : rimage d "Zh" = Ok z -> rimage d "v" = Ok v -> sized nt n z -> sized nt n v ->
  exists d', screen_clutter n d = Ok d' /\
    dict_masked (fun i j => (exists x, pixel z i j = Some x) /\ exists top, j <= top /\ top < 10 /\ top < n /\ clutter_gate z v top) d d'.
Proof.
  intros Z V Sz Sv. unfold screen_clutter. rewrite Z, V. cbn [bind].
  set (high := map (fun j => match clutter_mean z v j with Some m => qgt m (-10) | None => false end) (seq 0 (Nat.min 10 n))).
  assert (High : forall k, In k (where1 high) <-> k < 10 /\ k < n /\ clutter_gate z v k).
  { intros k. rewrite where1_in. split.
    - intros H. assert (K : k < Nat.min 10 n) by (apply nth_error_Some_lt in H; unfold high in H; rewrite map_length, seq_length in H; exact H).
      unfold high in H. rewrite nth_seq_map in H by exact K. split; [lia|]. split; [lia|].
      apply (clutter_gate_iff z v k n nt Sz Sv); [lia|]. congruence.
    - intros (A & B & C). unfold high. rewrite nth_seq_map by lia. f_equal. apply (clutter_gate_iff z v k n nt Sz Sv B). exact C. }
  pose proof (where1_sorted high) as Sh.
  destruct (rev (where1 high)) as [|top r] eqn:R.
  - exists d. split; [reflexivity|]. assert (E : where1 high = []) by (rewrite <- (rev_involutive (where1 high)), R; reflexivity).
    assert (No : forall k, ~ (k < 10 /\ k < n /\ clutter_gate z v k)) by (intros k X; apply High in X; rewrite E in X; exact X).
    clear - No. unfold dict_masked. induction d as [|[k [m|l]] d IH]; constructor; try exact IH; cbn [fst snd]; (split; [reflexivity|]).
    + exists m. split; [reflexivity|]. split; [reflexivity|]. intros i j x b P. exists b. split; [exact P|]. split; [auto|].
      intros [X|[_ (top & _ & X)]]; [exact X|destruct (No top X)].
    + reflexivity.
  - eexists. split; [reflexivity|]. eapply dict_masked_ext; [|apply mask_all_dict]. cbn beta. intros i j. rewrite get_iff, pixel_imapi.
    assert (It : In top (where1 high)) by (apply in_rev; rewrite R; left; reflexivity).
    assert (Mt : forall k, In k (where1 high) -> k <= top).
    { assert (E : where1 high = rev r ++ [top]) by (rewrite <- (rev_involutive (where1 high)), R; reflexivity).
      intros k I. apply In_nth_error in I as [a A]. assert (L : nth_error (where1 high) (length (rev r)) = Some top).
      { rewrite E, nth_error_app2, Nat.sub_diag by lia. reflexivity. }
      destruct (Nat.lt_ge_cases top k) as [C|C]; [|exact C].
      apply (sorted_nth_lt _ Sh _ _ _ _ L A) in C. apply nth_error_Some_lt in A. rewrite E, app_length in A. cbn in A. lia. }
    split.
    + destruct (pixel z i j) as [x|]; cbn [option_map]; [|intros X; discriminate X]. intros X.
      assert (Y : (j <? S top) = true) by congruence. apply Nat.ltb_lt in Y. split; [eauto|]. exists top. split; [lia|]. apply High. exact It.
    + intros [[x P] (k & K & C)]. apply High in C. rewrite P. cbn [option_map]. f_equal. apply Nat.ltb_lt. specialize (Mt k C). lia.
Qed.
Lemma screen_weather_radar_ok n nt d z v snr : rimage d "Zh" = Ok z -> rimage d "v" = Ok v -> rimage d "SNR" = Ok snr ->
  sized nt n z -> sized nt n v ->
  exists d', screen_weather_radar n d = Ok d' /\
    dict_masked (fun i j => (exists x, pixel z i j = Some x) /\ (exists top, j <= top /\ top < 10 /\ top < n /\ clutter_gate z v top)
      \/ below_at snr 0 i j) d d'.
Proof.
  intros Z V Sn Sz Sv. unfold screen_weather_radar. destruct (screen_clutter_ok n nt d z v Z V Sz Sv) as (d1 & -> & D1). cbn [bind].
  destruct (dict_masked_image _ _ _ _ _ D1 Sn) as (s1 & Es & Ms). unfold screen_noise. rewrite Es. cbn [bind].
  eexists. split; [reflexivity|]. eapply dict_masked_ext; [|eapply dict_masked_trans; [exact D1|apply mask_all_dict]].
  cbn beta. intros i j. rewrite get_imap_below.
  assert (B : below_at s1 0 i j <-> below_at snr 0 i j).
  { destruct Ms as [A B]. unfold below_at. split.
    - intros (x & b & P & L). destruct (pixel snr i j) as [[y c]|] eqn:Py; [|apply A in Py; congruence].
      destruct (B i j y c Py) as (c' & P' & _). rewrite P in P'. assert (y = x) by congruence. subst y. eauto.
    - intros (x & b & P & L). destruct (B i j x b P) as (c' & P' & _). eauto. }
  rewrite B. reflexivity.
Qed.
