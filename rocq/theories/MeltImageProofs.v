(** Proofs about the melting layer: temperature range, whole images, smoothing. *)
From Verif Require Import Base ArrayModel ArraySpec ArrayProofs FillModel FillProofs TimeModel TimeProofs GridModel GridProofs
  LayerModel ImageModel ImageProofs ImageSpec FallingProofs InstrumentProofs ClassifyModel DropletModel DropletSpec DropletProofs
  TelegramModel TelegramSpec TelegramProofs MeltModel MeltSpec MeltProofs.
From Coq Require Import Lqa Qabs String Ascii.
Open Scope string_scope.
Open Scope nat_scope.
Local Notation length := List.length (only parsing).

(** ** Temperature range of the model *)
Definition lower_case (c : ascii) : Prop := ~ 65 <= nat_of_ascii c <= 90.
Lemma lower_ascii_same c d : lower_case c -> lower_ascii d = c <-> same_letter c d.
Proof.
  intros H. unfold same_letter, lower_ascii.
  destruct ((65 <=? nat_of_ascii d) && (nat_of_ascii d <=? 90)) eqn:E.
  - apply andb_true_iff in E as [E1 E2]. apply Nat.leb_le in E1. apply Nat.leb_le in E2. split.
    + intros <-. right. exists (nat_of_ascii d). split; [lia|]. split; [reflexivity|]. symmetry. apply ascii_nat_embedding.
    + intros [<-|(n & Hn & -> & ->)]; [exfalso; apply H; lia|].
      rewrite nat_ascii_embedding by lia. reflexivity.
  - apply andb_false_iff in E. rewrite Nat.leb_gt, Nat.leb_gt in E. split.
    + intros ->. left. reflexivity.
    + intros [->|(n & Hn & -> & ->)]; [reflexivity|]. exfalso. rewrite nat_ascii_embedding in E by lia. lia.
Qed.
Fixpoint all_lower (s : string) : Prop := match s with EmptyString => True | String c r => lower_case c /\ all_lower r end.
Lemma lower_same s : all_lower s -> forall t, lower t = s <-> same_text s t.
Proof.
  induction s as [|c s IH]; intros A t; destruct t as [|d t]; cbn [lower same_text]; try (split; [discriminate|intros []]).
  - split; auto.
  - destruct A as [A1 A2]. rewrite <- (IH A2 t), <- (lower_ascii_same c d A1). split.
    + intros E. split; congruence.
    + intros [-> ->]. reflexivity.
Qed.
Lemma lower_append s t : lower (s ++ t) = lower s ++ lower t.
Proof. induction s as [|c s IH]; [reflexivity|]. cbn [append lower]. rewrite IH. reflexivity. Qed.
Lemma lower_split t a b : lower t = a ++ b -> exists u v, t = u ++ v /\ lower u = a /\ lower v = b.
Proof.
  revert t. induction a as [|c a IH]; intros t E.
  - exists "", t. auto.
  - destruct t as [|d t]; [discriminate|]. cbn [lower append] in E. injection E as E1 E2.
    destruct (IH t E2) as (u & v & -> & <- & <-). exists (String d u), v. split; [reflexivity|]. cbn [lower]. rewrite E1. auto.
Qed.
Lemma contains_lower s t : all_lower s -> contains s (lower t) = true <-> occurs_any_case s t.
Proof.
  intros A. rewrite contains_iff. unfold occurs, occurs_any_case. split.
  - intros (x & y & E). apply lower_split in E as (u & v & -> & _ & E). apply lower_split in E as (m & w & -> & E & _).
    exists u, m, w. split; [reflexivity|]. apply lower_same; assumption.
  - intros (u & m & w & -> & S). exists (lower u), (lower w). rewrite !lower_append.
    f_equal. f_equal. apply lower_same; assumption.
Qed.
Lemma gdas1_lower : all_lower "gdas1".
Proof. unfold all_lower, lower_case. repeat split; cbn; lia. Qed.
Lemma temperature_range_spec model :
  (occurs_any_case "gdas1" model -> find_model_temperature_range model = (- (8), 6)%Q) /\
  (~ occurs_any_case "gdas1" model -> find_model_temperature_range model = (- (4), 3)%Q).
Proof.
  unfold find_model_temperature_range. pose proof (contains_lower "gdas1" model gdas1_lower) as C. split; intros H.
  - apply C in H. rewrite H. reflexivity.
  - destruct (contains "gdas1" (lower model)); [exfalso; apply H, C; reflexivity|reflexivity].
Qed.

(** ** Whole images *)
Record well_formed (o : melt_obs) : Prop := {
  wf_tw : shaped (length (mo_tw o)) (length (mo_height o)) (mo_tw o);
  wf_z : shaped (length (mo_tw o)) (length (mo_height o)) (mo_z o);
  wf_v : shaped (length (mo_tw o)) (length (mo_height o)) (mo_v o);
  wf_ldr : forall m, mo_ldr o = Some m -> shaped (length (mo_tw o)) (length (mo_height o)) m;
  wf_width : forall m, mo_width o = Some m -> shaped (length (mo_tw o)) (length (mo_height o)) m }.

(** The gates of the melting layer in profile [i]. *)
Definition layer_gate (o : melt_obs) (cold warm : Q) (i j : nat) : Prop :=
  exists tw z v ldr width, nth_error (mo_tw o) i = Some tw /\ nth_error (mo_z o) i = Some z /\ nth_error (mo_v o) i = Some v /\
    row_at (mo_ldr o) i ldr /\ row_at (mo_width o) i width /\
    melting_gate cold warm (mo_height o) tw z (map visible v) (nth_error (map data v)) ldr width j.

Lemma shaped_row {A} n g (m : image A) i : shaped n g m -> i < n -> exists row, nth_error m i = Some row /\ length row = g /\ nth i m [] = row.
Proof.
  intros [H1 H2] L. destruct (nth_error_lt_Some m i ltac:(lia)) as [row E]. exists row. split; [exact E|].
  split; [exact (H2 _ _ E)|]. apply nth_error_nth. exact E.
Qed.

(** Everything about one profile of a well-formed observation. *)
Lemma profile_setup o i tw : well_formed o -> nth_error (mo_tw o) i = Some tw ->
  exists z v ldr width, nth_error (mo_z o) i = Some z /\ nth_error (mo_v o) i = Some v /\
    row_at (mo_ldr o) i ldr /\ row_at (mo_width o) i width /\
    nth i (mo_z o) [] = z /\ nth i (mo_v o) [] = v /\
    match mo_ldr o with None => ldr = None | Some m => ldr = Some (nth i m []) end /\
    match mo_width o with None => width = None | Some m => width = Some (nth i m []) end /\
    length z = length tw /\ length v = length tw /\ (forall l, ldr = Some l -> length l = length tw) /\
    (forall l, width = Some l -> length l = length tw) /\ length (mo_height o) = length tw.
Proof.
  intros W E. assert (L := nth_error_Some_lt _ _ _ E). assert (Lt := proj2 (wf_tw o W) _ _ E).
  destruct (shaped_row _ _ _ i (wf_z o W) L) as (z & Ez & Lz & Nz). destruct (shaped_row _ _ _ i (wf_v o W) L) as (v & Ev & Lv & Nv).
  exists z, v, (option_map (fun m => nth i m []) (mo_ldr o)), (option_map (fun m => nth i m []) (mo_width o)).
  assert (Rl : forall m : option (image (masked Q)), (forall m', m = Some m' -> shaped (length (mo_tw o)) (length (mo_height o)) m') ->
    row_at m i (option_map (fun m => nth i m []) m) /\
    match m with None => option_map (fun m => nth i m []) m = None | Some m' => option_map (fun m => nth i m []) m = Some (nth i m' []) end /\
    forall l, option_map (fun m => nth i m []) m = Some l -> length l = length tw).
  { intros [m|] H; cbn [option_map row_at].
    - destruct (shaped_row _ _ _ i (H m eq_refl) L) as (l & El & Ll & Nl). rewrite Nl.
      split; [exact El|split; [reflexivity|]]. intros l' X. assert (l' = l) by congruence. subst. congruence.
    - split; [exact I|split; [reflexivity|discriminate]]. }
  destruct (Rl _ (wf_ldr o W)) as (R1 & R2 & R3). destruct (Rl _ (wf_width o W)) as (R4 & R5 & R6).
  repeat split; try assumption; congruence.
Qed.
Lemma row_at_unique {A} (m : option (image A)) i r r' : row_at m i r -> row_at m i r' -> r = r'.
Proof. destruct m, r, r'; cbn; intros; congruence || contradiction. Qed.

Lemma range_order model : (fst (find_model_temperature_range model) < snd (find_model_temperature_range model))%Q.
Proof. unfold find_model_temperature_range. destruct (contains _ _); reflexivity. Qed.

Lemma nth_error_enumerate {A} (l : list A) i : nth_error (enumerate l) i = option_map (fun x => (i, x)) (nth_error l i).
Proof. unfold enumerate. rewrite nth_error_enumerate_from. reflexivity. Qed.

Lemma forall2_nth {A B} (P : A -> B -> Prop) l l' : Forall2 P l l' -> forall i,
  match nth_error l i, nth_error l' i with Some x, Some y => P x y | None, None => True | _, _ => False end.
Proof. induction 1 as [|x y l l' H F IH]; intros [|i]; cbn; auto. apply IH. Qed.

Section Whole.
  Variables (o : melt_obs) (cold warm : Q).
  Hypothesis W : well_formed o.
  Hypothesis Range : find_model_temperature_range (mo_model_type o) = (cold, warm).
  Lemma CW : (cold < warm)%Q.
  Proof. pose proof (range_order (mo_model_type o)) as H. rewrite Range in H. exact H. Qed.

  Lemma find_melting_exact w :
    (forall i tw a b, nth_error (mo_tw o) i = Some tw -> spans (warm_between cold warm tw) a b -> a < b -> mo_ldr o <> None ->
       S b < length (mo_height o)) ->
    (forall i tw v a b, nth_error (mo_tw o) i = Some tw -> nth_error (mo_v o) i = Some v -> spans (warm_between cold warm tw) a b ->
       nonflat (within a b (nth_error (map data v)))) ->
    exists out, find_melting_layer w false o = Ok out /\ shaped (length (mo_tw o)) (length (mo_height o)) out /\
      forall i j, pixel out i j = Some true <-> layer_gate o cold warm i j.
  Proof.
    intros NT NF. unfold find_melting_layer.
    destruct (sequence_forall2 (fun p => melting_profile o (fst p) (snd p))
      (fun p out => length out = length (mo_height o) /\ forall j, nth_error out j = Some true <-> layer_gate o cold warm (fst p) j)
      (enumerate (mo_tw o))) as (out & E & F).
    { apply Forall_forall. intros [i tw] Hin. apply In_nth_error in Hin as [k Hk]. rewrite nth_error_enumerate in Hk.
      destruct (nth_error (mo_tw o) k) as [tw'|] eqn:Et; [|discriminate]. cbn [option_map] in Hk.
      assert (k = i) by congruence. assert (tw' = tw) by congruence. subst k tw'. cbn [fst snd].
      destruct (profile_setup o i tw W Et) as (z & v & ldr & width & Ez & Ev & Rl & Rw & Nz & Nv & Ml & Mw & Lz & Lv & Ll & Lw & Lh).
      destruct (melting_profile_exact o i tw z v ldr width cold warm Range CW Nz Nv Ml Mw Lz Lv Ll Lw Lh) as (out & Eo & Lo & G).
      - intros a b l Sp Lab El. rewrite <- Lh. apply (NT i tw a b Et Sp Lab). intros X. rewrite X in Ml. congruence.
      - intros a b Sp. exact (NF i tw v a b Et Ev Sp).
      - exists out. split; [exact Eo|]. split; [congruence|]. intros j. rewrite G. unfold gate, layer_gate. split.
        + intros H. exists tw, z, v, ldr, width. repeat split; assumption.
        + intros (tw' & z' & v' & ldr' & width' & E1 & E2 & E3 & R1 & R2 & H).
          assert (tw' = tw) by congruence. assert (z' = z) by congruence. assert (v' = v) by congruence.
          rewrite (row_at_unique _ _ _ _ R1 Rl), (row_at_unique _ _ _ _ R2 Rw) in H. subst. exact H. }
    rewrite E. cbn [bind]. exists out. split; [reflexivity|].
    assert (N := forall2_nth _ _ _ F).
    assert (Len : length out = length (mo_tw o)).
    { rewrite <- (forall2_length _ _ _ F). unfold enumerate. apply enumerate_from_length. }
    split; [split; [exact Len|]|].
    - intros i row Hr. specialize (N i). rewrite Hr, nth_error_enumerate in N. destruct (nth_error (mo_tw o) i); cbn in N; [apply N|contradiction].
    - intros i j. specialize (N i). rewrite nth_error_enumerate in N. unfold pixel.
      destruct (nth_error out i) as [row|] eqn:Er, (nth_error (mo_tw o) i) as [tw|] eqn:Et; cbn in N; try contradiction.
      + apply N.
      + split; [discriminate|]. intros (tw & z & v & ldr & width & X & _). congruence.
  Qed.

  Lemma find_melting_top w sm i tw a b : nth_error (mo_tw o) i = Some tw -> spans (warm_between cold warm tw) a b -> a < b ->
    S b = length (mo_height o) -> mo_ldr o <> None ->
    exists e, find_melting_layer w sm o = Raise e.
  Proof.
    intros Et Sp L Sb NL. unfold find_melting_layer.
    assert (X : exists e, sequence (map (fun p => melting_profile o (fst p) (snd p)) (enumerate (mo_tw o))) = Raise e).
    { destruct (profile_setup o i tw W Et) as (z & v & ldr & width & Ez & Ev & Rl & Rw & Nz & Nv & Ml & Mw & Lz & Lv & Ll & Lw & Lh).
      assert (R : melting_profile o i tw = Raise IndexError).
      { apply (melting_profile_top o i tw z v ldr cold warm Range CW Nz Nv Ml Lz Lv Ll Lh a b Sp L); [lia|].
        destruct (mo_ldr o); [|congruence]. rewrite Ml. discriminate. }
      assert (Hin : In (i, tw) (enumerate (mo_tw o))).
      { apply (nth_error_In _ i). rewrite nth_error_enumerate, Et. reflexivity. }
      revert Hin. generalize (enumerate (mo_tw o)). induction l as [|p l IH]; intros Hin; [destruct Hin|].
      cbn [map sequence]. destruct (melting_profile o (fst p) (snd p)) as [y|e] eqn:Ep; [|cbn; eauto].
      destruct Hin as [->|Hin]; [cbn in Ep; congruence|]. destruct (IH Hin) as [e ->]. cbn [bind]. eauto. }
    destruct X as [e ->]. cbn [bind]. eauto.
  Qed.
End Whole.

(** ** Consequences for one profile *)
Lemma melting_gate_range cold warm height tw z v recorded ldr width j :
  melting_gate cold warm height tw z v recorded ldr width j ->
  exists a b, warm_between cold warm tw a /\ warm_between cold warm tw b /\ a <= j <= b.
Proof.
  intros (a & b & (Sa & Sb & _) & L & _ & D). exists a, b. split; [exact Sa|]. split; [exact Sb|].
  destruct D as [(l & p & base & top & _ & (Pk & Bo & To) & _ & J1 & J2)|(_ & base & top & m & LR & _ & _ & J1 & J2)].
  - destruct Pk as [Hp _]. destruct (top_of_bounds _ _ _ _ _ _ To) as [_ T].
    assert (a <= base).
    { destruct Bo as (q & x & _ & _ & Ex & _). unfold within in Ex. destruct (a <=? base) eqn:X; [apply Nat.leb_le; exact X|discriminate]. }
    assert (a <= (base + p) / 2) by (apply Nat.div_le_lower_bound; lia). lia.
  - assert (top < b) by apply LR. lia.
Qed.
Lemma melting_gate_falling cold warm height tw z v recorded ldr width j :
  melting_gate cold warm height tw z v recorded ldr width j ->
  exists k x a b, (warm_between cold warm tw a /\ warm_between cold warm tw b /\ a <= k <= b) /\
    nth_error v k = Some (Some x) /\ (x < - (3 # 2))%Q /\ k <= j.
Proof.
  intros (a & b & (Sa & Sb & _) & L & _ & D).
  destruct D as [(l & p & base & top & _ & (Pk & Bo & To) & Di & J1 & J2)|(_ & base & top & m & LR & SR & Ne & J1 & J2)].
  - destruct Di as (lp & lb & zb & vb & _ & _ & _ & Evb & _ & _ & _ & Hv). exists base, vb, a, b.
    assert (B := base_in_range _ _ _ _ _ Bo). destruct Pk as [Hp _].
    assert (a <= base).
    { destruct Bo as (q & x & _ & _ & Ex & _). unfold within in Ex. destruct (a <=? base) eqn:X; [apply Nat.leb_le; exact X|discriminate]. }
    assert (base <= (base + p) / 2) by (apply Nat.div_le_lower_bound; lia).
    split; [split; [exact Sa|split; [exact Sb|lia]]|]. split; [exact Evb|]. split; [exact Hv|lia].
  - destruct SR as (vb & vt & hb & ht & Evb & _ & _ & _ & (_ & _ & Hv) & _). exists base, vb, a, b.
    destruct LR as (X1 & X2 & X3 & _).
    assert (base <= a + m).
    { destruct (Nat.le_gt_cases base (a + m)) as [X|X]; [exact X|]. exfalso.
      assert (Q : (inject_Z (Z.of_nat (top - a)) - inject_Z (Z.of_nat top - Z.of_nat base) / 2 - inject_Z (Z.of_nat m) <= 1 # 2)%Q).
      { destruct Ne as [[N1 N2]|[[N|N] _]]; lra. }
      set (q := inject_Z (Z.of_nat (top - a))) in *. 
      assert (Q2 : (2 * (q - inject_Z (Z.of_nat top - Z.of_nat base) / 2 - inject_Z (Z.of_nat m)) ==
                  inject_Z (2 * Z.of_nat (top - a) - (Z.of_nat top - Z.of_nat base) - 2 * Z.of_nat m))%Q).
      { unfold q. unfold Z.sub. rewrite !inject_Z_plus, !inject_Z_opp, !inject_Z_mult, inject_Z_plus, inject_Z_opp. 
        change (inject_Z 2) with 2%Q. field. }
      assert (Q3 : (inject_Z (2 * Z.of_nat (top - a) - (Z.of_nat top - Z.of_nat base) - 2 * Z.of_nat m) <= inject_Z 1)%Q).
      { rewrite <- Q2. change (inject_Z 1) with 1%Q. revert Q. generalize (q - inject_Z (Z.of_nat top - Z.of_nat base) / 2 - inject_Z (Z.of_nat m))%Q.
        intros x Hx. lra. }
      rewrite <- Zle_Qle in Q3. lia. }
    split; [split; [exact Sa|split; [exact Sb|lia]]|]. split; [exact Evb|]. split; [lra|lia].
Qed.

(** ** Smoothing *)
Local Notation reflect := MeltModel.reflect (only parsing).
Lemma reflect_inside n i : i < n -> reflect n (Z.of_nat i) = i.
Proof.
  intros H. unfold reflect. rewrite Z.mod_small by lia.
  replace (Z.of_nat i <? Z.of_nat n)%Z with true by (symmetry; apply Z.ltb_lt; lia). lia.
Qed.
Lemma reflect_cases n k : 0 < n -> exists q, (k = Z.of_nat (reflect n k) + 2 * Z.of_nat n * q \/
  k = 2 * Z.of_nat n - 1 - Z.of_nat (reflect n k) + 2 * Z.of_nat n * q)%Z /\ reflect n k < n.
Proof.
  intros P. exists (k / (2 * Z.of_nat n))%Z. unfold reflect.
  pose proof (Z.div_mod k (2 * Z.of_nat n) ltac:(lia)) as D. pose proof (Z.mod_pos_bound k (2 * Z.of_nat n) ltac:(lia)) as B.
  set (m := (k mod (2 * Z.of_nat n))%Z) in *. set (q := (k / (2 * Z.of_nat n))%Z) in *. clearbody m q.
  destruct (m <? Z.of_nat n)%Z eqn:E.
  - apply Z.ltb_lt in E. rewrite Z2Nat.id by lia. split; [left|]; lia.
  - apply Z.ltb_ge in E. rewrite Z2Nat.id by lia. split; [right|]; lia.
Qed.
(** A reflected position is never further away. *)
Lemma reflect_close n i k : i < n -> (Z.abs (Z.of_nat (reflect n (Z.of_nat i + k)) - Z.of_nat i) <= Z.abs k)%Z.
Proof.
  intros H. destruct (reflect_cases n (Z.of_nat i + k) ltac:(lia)) as (q & C & R).
  set (r := reflect n (Z.of_nat i + k)) in *. clearbody r.
  assert (T : (q = 0 \/ 1 <= q \/ q <= -1)%Z) by lia.
  destruct T as [->|[T|T]].
  - lia.
  - assert (2 * Z.of_nat n <= 2 * Z.of_nat n * q)%Z by nia. lia.
  - assert (2 * Z.of_nat n * q <= - (2 * Z.of_nat n))%Z by nia. lia.
Qed.
(** Which offsets lead to a position far from the ends. *)
Lemma reflect_far n i i' k : i < n -> i' < n -> 8 <= i' -> i' + 8 < n -> (Z.abs k <= 8)%Z ->
  reflect n (Z.of_nat i + k) = i' -> k = (Z.of_nat i' - Z.of_nat i)%Z.
Proof.
  intros H H' F1 F2 K E. destruct (reflect_cases n (Z.of_nat i + k) ltac:(lia)) as (q & C & R). rewrite E in C.
  assert (T : (q = 0 \/ 1 <= q \/ q = -1 \/ q <= -2)%Z) by lia.
  destruct T as [->|[T|[->|T]]].
  - lia.
  - assert (2 * Z.of_nat n <= 2 * Z.of_nat n * q)%Z by nia. lia.
  - lia.
  - assert (2 * Z.of_nat n * q <= 2 * Z.of_nat n * -2)%Z by nia. lia.
Qed.

Definition total (f : Z -> Q) (l : list Z) : Q := fold_right Qplus 0%Q (map f l).
Lemma total_positive f l : (0 < total f l)%Q -> exists k, In k l /\ (0 < f k)%Q.
Proof.
  induction l as [|x l IH]; unfold total; cbn [map fold_right]; intros H; [lra|].
  destruct (Qlt_le_dec 0 (f x)) as [X|X]; [exists x; split; [left; reflexivity|exact X]|].
  destruct IH as (k & Hk & F); [unfold total; lra|]. exists k. split; [right; exact Hk|exact F].
Qed.
Lemma total_nonneg f l : (forall k, In k l -> 0 <= f k)%Q -> (0 <= total f l)%Q.
Proof.
  induction l as [|x l IH]; intros H; unfold total; cbn [map fold_right]; [lra|].
  assert (A := H x (or_introl eq_refl)). assert (B : (0 <= total f l)%Q) by (apply IH; intros k Hk; apply H; right; exact Hk).
  unfold total in B. lra.
Qed.
Lemma total_one f l k : (forall k, In k l -> 0 <= f k)%Q -> In k l -> (f k <= total f l)%Q.
Proof.
  induction l as [|x l IH]; intros H Hk; [destruct Hk|]. unfold total. cbn [map fold_right].
  assert (B : (0 <= total f l)%Q) by (apply total_nonneg; intros y Hy; apply H; right; exact Hy).
  destruct Hk as [->|Hk].
  - unfold total in B. lra.
  - assert (C : (f k <= total f l)%Q) by (apply IH; [intros y Hy; apply H; right; exact Hy|exact Hk]).
    assert (A := H x (or_introl eq_refl)). unfold total in C. lra.
Qed.
Lemma total_two f l k k' : (forall k, In k l -> 0 <= f k)%Q -> In k l -> In k' l -> k <> k' -> (f k + f k' <= total f l)%Q.
Proof.
  induction l as [|x l IH]; intros H Hk Hk' N; [destruct Hk|]. unfold total. cbn [map fold_right].
  assert (H' : forall k, In k l -> (0 <= f k)%Q) by (intros y Hy; apply H; right; exact Hy).
  assert (A := H x (or_introl eq_refl)).
  destruct Hk as [->|Hk], Hk' as [->|Hk'].
  - congruence.
  - pose proof (total_one f l k' H' Hk') as C. unfold total in C. lra.
  - pose proof (total_one f l k H' Hk) as C. unfold total in C. lra.
  - pose proof (IH H' Hk Hk' N) as C. unfold total in C. lra.
Qed.
Lemma total_single f l k : NoDup l -> (forall x, In x l -> x <> k -> (f x == 0)%Q) -> (0 <= f k)%Q -> (total f l <= f k)%Q.
Proof.
  induction l as [|x l IH]; intros ND H Pk; unfold total; cbn [map fold_right]; [lra|].
  inversion ND as [|? ? N1 N2]; subst. destruct (Z.eq_dec x k) as [->|N].
  - assert (T : (total f l == 0)%Q).
    { clear IH ND N2. induction l as [|y l IH]; unfold total; cbn [map fold_right]; [reflexivity|].
      rewrite (H y) by (cbn in *; tauto || (intros ->; apply N1; left; reflexivity)).
      assert (X : (total f l == 0)%Q).
      { apply IH; [intros z [Hz|Hz] Nz; apply H; cbn; auto|intros Hk; apply N1; right; exact Hk]. }
      unfold total in X. rewrite X. reflexivity. }
    unfold total in T. rewrite T. lra.
  - assert (E := H x (or_introl eq_refl) N). assert (C : (total f l <= f k)%Q) by (apply IH; [exact N2|intros y Hy; apply H; right; exact Hy|exact Pk]).
    unfold total in C. lra.
Qed.

Definition offsets : list Z := map (fun k => Z.of_nat k - 8)%Z (seq 0 17).
Lemma in_offsets k : In k offsets <-> (Z.abs k <= 8)%Z.
Proof.
  unfold offsets. rewrite in_map_iff. split.
  - intros (x & <- & Hx). apply in_seq in Hx. lia.
  - intros H. exists (Z.to_nat (k + 8)). split; [lia|]. apply in_seq. lia.
Qed.
Lemma nodup_offsets : NoDup offsets.
Proof. unfold offsets. apply FinFun.Injective_map_NoDup; [intros x y E; lia|apply seq_NoDup]. Qed.

Section Smooth.
  Variables (w : nat -> Q) (layer : image bool).
  Let n := length layer.
  Let term i j k := (w (Z.abs_nat k) * (if ImageModel.get layer (reflect n (Z.of_nat i + k)) j then 1 else 0))%Q.
  Hypothesis NN : forall k, k <= 8 -> (0 <= w k)%Q.

  Lemma smooth_pixel i j b : pixel (smooth_layer w layer) i j = Some b <->
    (pixel layer i j <> None /\ (b = true <-> (1 # 5 < total (term i j) offsets)%Q)).
  Proof.
    unfold smooth_layer. rewrite pixel_imapi. fold n. change (map (fun k : nat => (Z.of_nat k - 8)%Z) (seq 0 17)) with offsets.
    change (fold_right Qplus 0%Q (map (fun k => (w (Z.abs_nat k) * (if ImageModel.get layer (reflect n (Z.of_nat i + k)) j then 1 else 0))%Q) offsets))
      with (total (term i j) offsets).
    rewrite <- qlt_iff. destruct (pixel layer i j) as [x|]; cbn [option_map]; split.
    - intros [= <-]. split; [discriminate|reflexivity].
    - intros [_ H]. f_equal. destruct b, (qlt _ _); try reflexivity; exfalso; destruct H as [H1 H2]; [discriminate (H1 eq_refl)|discriminate (H2 eq_refl)].
    - discriminate.
    - intros [H _]. congruence.
  Qed.
  Lemma smooth_true i j : pixel (smooth_layer w layer) i j = Some true <->
    (pixel layer i j <> None /\ (1 # 5 < total (term i j) offsets)%Q).
  Proof. rewrite smooth_pixel. split; intros [H1 H2]; (split; [exact H1|]); [apply H2; reflexivity|tauto]. Qed.

  Lemma term_nonneg i j k : In k offsets -> (0 <= term i j k)%Q.
  Proof.
    intros H. apply in_offsets in H. unfold term. assert (X := NN (Z.abs_nat k) ltac:(lia)).
    destruct (ImageModel.get _ _ _); lra.
  Qed.
  Lemma pixel_row i j : pixel layer i j <> None -> i < n.
  Proof. unfold pixel. destruct (nth_error layer i) eqn:E; [|congruence]. intros _. exact (nth_error_Some_lt _ _ _ E). Qed.
  Lemma term_at i j i' : i' < n -> (Z.abs (Z.of_nat i' - Z.of_nat i) <= 8)%Z -> pixel layer i' j = Some true ->
    (term i j (Z.of_nat i' - Z.of_nat i) == w (Z.abs_nat (Z.of_nat i' - Z.of_nat i)))%Q.
  Proof.
    intros L K P. unfold term. replace (Z.of_nat i + (Z.of_nat i' - Z.of_nat i))%Z with (Z.of_nat i') by lia.
    rewrite reflect_inside by exact L. unfold ImageModel.get. rewrite P. ring.
  Qed.

  (** Near a detection. *)
  Lemma smooth_near i j : pixel (smooth_layer w layer) i j = Some true ->
    exists i', (Z.abs (Z.of_nat i' - Z.of_nat i) <= 8)%Z /\ pixel layer i' j = Some true.
  Proof.
    intros H. apply smooth_true in H as [P H]. apply pixel_row in P.
    destruct (total_positive (term i j) offsets) as (k & Hk & F); [lra|]. apply in_offsets in Hk.
    exists (reflect n (Z.of_nat i + k)). split; [pose proof (reflect_close n i k P); lia|].
    unfold term in F. destruct (ImageModel.get layer (reflect n (Z.of_nat i + k)) j) eqn:G.
    - apply get_iff in G. exact G.
    - assert ((w (Z.abs_nat k) * 0 == 0)%Q) by ring. lra.
  Qed.
  (** A detection in one profile only. *)
  Lemma smooth_lone i0 j : (forall k, k <= 8 -> (w k <= w 0)%Q) -> (w 0 <= 1 # 5)%Q -> 8 <= i0 -> i0 + 8 < n ->
    (forall i, pixel layer i j = Some true -> i = i0) -> forall i, pixel (smooth_layer w layer) i j <> Some true.
  Proof.
    intros Mono Small F1 F2 Only i H. apply smooth_true in H as [P H]. apply pixel_row in P.
    assert (Zero : forall x, In x offsets -> x <> (Z.of_nat i0 - Z.of_nat i)%Z -> (term i j x == 0)%Q).
    { intros x Hx Nx. apply in_offsets in Hx. unfold term.
      destruct (ImageModel.get layer (reflect n (Z.of_nat i + x)) j) eqn:G; [|ring]. exfalso.
      apply get_iff in G. apply Only in G. apply Nx. apply (reflect_far n i i0 x); try assumption; lia. }
    destruct (Z_le_gt_dec (Z.abs (Z.of_nat i0 - Z.of_nat i)) 8) as [K|K].
    - assert (X := total_single (term i j) offsets (Z.of_nat i0 - Z.of_nat i) nodup_offsets Zero
        (term_nonneg i j _ (proj2 (in_offsets _) K))).
      assert (Y : (term i j (Z.of_nat i0 - Z.of_nat i) <= w 0)%Q).
      { unfold term. assert (A := Mono (Z.abs_nat (Z.of_nat i0 - Z.of_nat i)) ltac:(lia)). assert (B := NN (Z.abs_nat (Z.of_nat i0 - Z.of_nat i)) ltac:(lia)).
        destruct (ImageModel.get _ _ _); lra. }
      lra.
    - destruct (total_positive (term i j) offsets) as (k & Hk & F); [lra|].
      rewrite Zero in F; [lra|exact Hk|]. intros ->. apply in_offsets in Hk. lia.
  Qed.
  (** Two detections whose weights exceed the limit. *)
  Lemma smooth_two i j i1 i2 : i1 <> i2 -> pixel layer i j <> None -> i1 < n -> i2 < n ->
    (Z.abs (Z.of_nat i1 - Z.of_nat i) <= 8)%Z -> (Z.abs (Z.of_nat i2 - Z.of_nat i) <= 8)%Z ->
    pixel layer i1 j = Some true -> pixel layer i2 j = Some true ->
    (1 # 5 < w (Z.abs_nat (Z.of_nat i1 - Z.of_nat i)) + w (Z.abs_nat (Z.of_nat i2 - Z.of_nat i)))%Q ->
    pixel (smooth_layer w layer) i j = Some true.
  Proof.
    intros N P L1 L2 K1 K2 P1 P2 S. apply smooth_true. split; [exact P|].
    pose proof (total_two (term i j) offsets (Z.of_nat i1 - Z.of_nat i) (Z.of_nat i2 - Z.of_nat i)
      (term_nonneg i j) (proj2 (in_offsets _) K1) (proj2 (in_offsets _) K2) ltac:(lia)) as T.
    rewrite (term_at i j i1 L1 K1 P1), (term_at i j i2 L2 K2 P2) in T. lra.
  Qed.
  (** At the ends a detection counts twice. *)
  Lemma smooth_end i j : n <> 0 -> (i = 0 \/ S i = n) -> pixel layer i j = Some true -> (1 # 5 < w 0 + w 1)%Q ->
    pixel (smooth_layer w layer) i j = Some true.
  Proof.
    intros N0 E P S. apply smooth_true. split; [congruence|].
    assert (L : i < n) by (apply (pixel_row i j); congruence).
    set (k := if i =? 0 then (-1)%Z else 1%Z).
    assert (R : reflect n (Z.of_nat i + k) = i).
    { unfold k. destruct (i =? 0) eqn:X.
      - apply Nat.eqb_eq in X. subst i. destruct (reflect_cases n (Z.of_nat 0 + -1) ltac:(lia)) as (q & C & B).
        set (r := reflect n (Z.of_nat 0 + -1)) in *. clearbody r.
        assert (T : (q = -1 \/ 0 <= q \/ q <= -2)%Z) by lia. destruct T as [->|[T|T]]; [lia| |].
        + assert (0 <= 2 * Z.of_nat n * q)%Z by nia. lia.
        + assert (2 * Z.of_nat n * q <= 2 * Z.of_nat n * -2)%Z by nia. lia.
      - apply Nat.eqb_neq in X. destruct E as [E|E]; [lia|].
        destruct (reflect_cases n (Z.of_nat i + 1) ltac:(lia)) as (q & C & B).
        set (r := reflect n (Z.of_nat i + 1)) in *. clearbody r.
        assert (T : (q = 0 \/ 1 <= q \/ q <= -1)%Z) by lia. destruct T as [->|[T|T]]; [lia| |].
        + assert (2 * Z.of_nat n <= 2 * Z.of_nat n * q)%Z by nia. lia.
        + assert (2 * Z.of_nat n * q <= - (2 * Z.of_nat n))%Z by nia. lia. }
    assert (Hk : Z.abs_nat k = 1) by (unfold k; destruct (i =? 0); reflexivity).
    assert (K8 : (Z.abs k <= 8)%Z) by lia.
    assert (K0 : 0%Z <> k) by lia.
    pose proof (total_two (term i j) offsets 0 k (term_nonneg i j) (proj2 (in_offsets 0) ltac:(lia)) (proj2 (in_offsets k) K8) K0) as T.
    unfold term in T at 1 2. rewrite Hk, R, Z.add_0_r, reflect_inside in T by exact L. unfold ImageModel.get in T. rewrite P in T.
    change (Z.abs_nat 0) with 0 in T. lra.
  Qed.
End Smooth.
