(** Properties C41-C44, C47, C52: instrument routines. *)
From Verif Require Import Base GridModel OutputModel InstrumentModel InstrumentSpec InstrumentProofs.
From Coq Require Import Lqa.
Open Scope nat_scope.
Local Notation length := List.length (only parsing).

(** ** C41: cumulative amounts. *)
(** Gaps stay where they are and the first value becomes zero. *)
Theorem C41_starts_at_zero : forall x0 rest,
  exists out, normalize_cumulative_amount (Some x0 :: rest) = Ok out /\
    length out = S (length rest) /\
    (forall i, nth_error out i = Some None <-> nth_error (Some x0 :: rest) i = Some None) /\
    exists z, nth_error out 0 = Some (Some z) /\ (z == 0)%Q.
Proof.
  intros x0 rest. eexists. split; [reflexivity|].
  destruct (amount_shape x0 rest _ eq_refl) as [L N]. split; [exact L|]. split; [exact N|].
  exact (amount_first x0 rest _ eq_refl).
Qed.
Theorem C41_never_decreases : forall x0 rest out,
  normalize_cumulative_amount (Some x0 :: rest) = Ok out ->
  (forall i x, nth_error (Some x0 :: rest) i = Some (Some x) -> (0 <= x)%Q) ->
  forall i j a b, i < j -> nth_error out i = Some (Some a) -> nth_error out j = Some (Some b) -> (a <= b)%Q.
Proof. intros x0 rest out H P i j. exact (amount_monotone x0 rest out H P j i). Qed.
Theorem C41_increments : forall x0 rest out,
  normalize_cumulative_amount (Some x0 :: rest) = Ok out ->
  forall i j x y, next_valid (Some x0 :: rest) i j x y -> (x <= y)%Q ->
  exists a b, nth_error out i = Some (Some a) /\ nth_error out j = Some (Some b) /\ (b - a == y - x)%Q.
Proof.
  intros x0 rest out H i j x y N L. destruct (amount_step x0 rest out H i j x y N) as (a & b & A & B & S & _).
  exists a, b. auto.
Qed.
(** The increment at a reset.  Missing: only the first reset of the series is
    covered, because later ones are over-counted, see below. *)
Theorem C41_reset_partial : forall x0 rest out,
  normalize_cumulative_amount (Some x0 :: rest) = Ok out ->
  forall i j x y, next_valid (Some x0 :: rest) i j x y -> (y < x)%Q ->
  (forall k, k < j -> ~ reset_at (Some x0 :: rest) k) ->
  exists a b, nth_error out i = Some (Some a) /\ nth_error out j = Some (Some b) /\ (b - a == y)%Q.
Proof. exact amount_first_reset. Qed.
(** Exactly what a reset adds: [a + x0 - x] is what earlier resets have added. *)
Theorem C41_reset_exact : forall x0 rest out,
  normalize_cumulative_amount (Some x0 :: rest) = Ok out ->
  forall i j x y, next_valid (Some x0 :: rest) i j x y -> (y < x)%Q ->
  exists a b, nth_error out i = Some (Some a) /\ nth_error out j = Some (Some b) /\
    (b - a == y + (a + x0 - x))%Q.
Proof.
  intros x0 rest out H i j x y N L. destruct (amount_step x0 rest out H i j x y N) as (a & b & A & B & _ & S).
  exists a, b. auto.
Qed.
Definition ex_amount : list (masked Q) :=
  [Some 0; Some 3; Some 0; Some 2; None; Some 0; Some 1]%Q.
Theorem C41_reset_refuted : exists raw out i j x y a b,
  normalize_cumulative_amount raw = Ok out /\
  (forall k z, nth_error raw k = Some (Some z) -> (0 <= z)%Q) /\
  next_valid raw i j x y /\ (y < x)%Q /\
  nth_error out i = Some (Some a) /\ nth_error out j = Some (Some b) /\ ~ (b - a == y)%Q.
Proof.
  exists ex_amount. eexists. exists 3, 5, 2%Q, 0%Q. do 2 eexists.
  split; [reflexivity|]. split; [|split; [|split; [|split; [reflexivity|split; [reflexivity|]]]]].
  - intros [|[|[|[|[|[|[|[|k]]]]]]]] z H; try discriminate; injection H as <-; discriminate.
  - split; [lia|]. split; [reflexivity|]. split; [reflexivity|].
    intros k K. assert (k = 4) by lia. subst. reflexivity.
  - reflexivity.
  - vm_compute. discriminate.
Qed.
(** A gap at the beginning hides the whole series. *)
Theorem C41_leading_gap_refuted : exists raw out,
  normalize_cumulative_amount raw = Ok out /\
  (exists i x, nth_error raw i = Some (Some x)) /\
  forall i z, nth_error out i = Some z -> z = None.
Proof.
  exists [None; Some 1%Q; Some 2%Q]. eexists. split; [reflexivity|]. split.
  - exists 1, 1%Q. reflexivity.
  - exact (proj2 (amount_leading_gap [Some 1%Q; Some 2%Q] _ eq_refl)).
Qed.
Theorem C41_leading_gap_exact : forall rest,
  exists out, normalize_cumulative_amount (None :: rest) = Ok out /\
    length out = S (length rest) /\ forall i z, nth_error out i = Some z -> z = None.
Proof. intros rest. eexists. split; [reflexivity|]. exact (amount_leading_gap rest _ eq_refl). Qed.
Print Assumptions C41_starts_at_zero.
Print Assumptions C41_never_decreases.
Print Assumptions C41_increments.
Print Assumptions C41_reset_partial.
Print Assumptions C41_reset_exact.
Print Assumptions C41_reset_refuted.
Print Assumptions C41_leading_gap_refuted.
Print Assumptions C41_leading_gap_exact.
Example C41_nonvacuous :
  exists out, normalize_cumulative_amount ex_amount = Ok out /\
    Forall2 (fun x y => match x, y with Some a, Some b => (a == b)%Q | None, None => True | _, _ => False end)
      out [Some 0; Some 3; Some 3; Some 5; None; Some 8; Some 9]%Q /\
  next_valid ex_amount 1 2 3%Q 0%Q /\ forall k, k < 2 -> ~ reset_at ex_amount k.
Proof.
  eexists. split; [reflexivity|]. split; [|split].
  - repeat constructor.
  - split; [lia|]. split; [reflexivity|]. split; [reflexivity|]. intros k K. lia.
  - intros k K (i & x & y & (I & A & B & _) & L).
    assert (k = 1) by lia. subst k. assert (i = 0) by lia. subst i.
    injection A as <-. injection B as <-. discriminate.
Qed.

(** ** C42: RPG angles. *)
(** [l] lists elevation, azimuth and encoded value. *)
Theorem C42_first_encoding : forall l : list (Q * Q * Q),
  Forall (fun t => tenths (snd (fst t)) /\ encoded_v1 (fst (fst t)) (snd (fst t)) (snd t)) l ->
  exists e a, decode_angles (map snd l) 1 = Ok (e, a) /\
    Forall2 Qeq e (map (fun t => fst (fst t)) l) /\ Forall2 Qeq a (map (fun t => snd (fst t)) l).
Proof.
  intros l F. eexists. eexists. split; [reflexivity|].
  induction F as [|[[e a] x] l [T E] _ [IH1 IH2]]; [split; constructor|].
  cbn [fst snd] in T, E. destruct (decode_v1_spec e a x T E) as [A B]. split; constructor; assumption.
Qed.
Theorem C42_second_encoding : forall l : list (Q * Q * Q),
  Forall (fun t => encoded_v2 (fst (fst t)) (snd (fst t)) (snd t)) l ->
  exists e a, decode_angles (map snd l) 2 = Ok (e, a) /\
    Forall2 Qeq e (map (fun t => fst (fst t)) l) /\ Forall2 Qeq a (map (fun t => snd (fst t)) l).
Proof.
  intros l F. eexists. eexists. split; [reflexivity|].
  induction F as [|[[e a] x] l E _ [IH1 IH2]]; [split; constructor|].
  cbn [fst snd] in E. destruct (decode_v2_spec e a x E) as [A B]. split; constructor; assumption.
Qed.
Theorem C42_other_versions : forall x version, (version <> 1)%Z -> (version <> 2)%Z ->
  decode_angles x version = Raise NotImplementedError.
Proof.
  intros x v H1 H2. unfold decode_angles.
  apply Z.eqb_neq in H1, H2. rewrite H1, H2. reflexivity.
Qed.
Print Assumptions C42_first_encoding.
Print Assumptions C42_second_encoding.
Print Assumptions C42_other_versions.
Example C42_nonvacuous :
  (tenths (1805 # 10) /\ encoded_v1 120 (1805 # 10) 1180520 /\ encoded_v1 (-5 # 2) 90 (-180005 # 2) /\
   encoded_v2 (-123 # 100) (4567 # 100) (-12304567))%Q /\
  exists e a, decode_angles [1180520; (-180005 # 2)]%Q 1 = Ok (e, a) /\
    Forall2 Qeq e [120; -5 # 2]%Q /\ Forall2 Qeq a [1805 # 10; 90]%Q.
Proof.
  split; [split; [|split; [|split]]|].
  - exists 1805%Z. split; [lia|reflexivity].
  - right. right. repeat split; reflexivity || discriminate.
  - right. left. repeat split; reflexivity.
  - exists (-123)%Z, 4567%Z. split; [lia|]. split; [reflexivity|]. split; [reflexivity|].
    right. split; [lia|reflexivity].
  - do 2 eexists. split; [reflexivity|]. split; repeat constructor; reflexivity.
Qed.

(** ** C43: chirp values at range gates. *)
(** The RPG reader: every profile has a value per gate, that of its chirp. *)
Theorem C43_rpg : forall A n (nyq : list (list (masked A))) starts,
  length starts <= length nyq ->
  (forall t v s, nth_error nyq t = Some v -> nth_error starts t = Some s ->
     length (compress v) = length (compress s) /\ good_starts (compress s) 0 n) ->
  exists out, expand_nyquist n nyq starts = Ok out /\ length out = length starts /\
    forall t row v s, nth_error out t = Some row -> nth_error nyq t = Some v ->
      nth_error starts t = Some s -> expanded (compress s) (compress v) n row.
Proof. exact expand_nyquist_spec. Qed.
(** Start indices that do not begin at zero are rejected, unless one gate only
    is left, whose value is then used for all gates. *)
Theorem C43_rpg_rejects : forall A n (nyq : list (masked A)) starts s0,
  length (compress nyq) = length (compress starts) ->
  (exists r, compress starts = s0 :: r) -> StronglySorted Z.le (compress starts) ->
  Forall (fun s => (s <= Z.of_nat n)%Z) (compress starts) ->
  (s0 <> 0)%Z -> (Z.of_nat n - s0 <> 1)%Z ->
  expand_profile n nyq starts = Raise ValueError.
Proof. exact expand_rejects. Qed.
(** Categorize: values per chirp, given once or per profile, start indices from 0
    or from 1.  Missing: files with a single profile, see below. *)
Theorem C43_categorize_partial : forall A (fvel : nd A) starts n_time n_height n_seg,
  0 < n_seg -> by_chirp fvel n_height -> shaped fvel n_time n_seg -> shaped starts n_time n_seg ->
  (forall t row, t < n_time -> profile_of starts n_time t row ->
     exists first, (first = 0 \/ first = 1)%Z /\ good_starts row first n_height) ->
  exists out, expand_folding fvel (Some starts) n_time n_height = Ok out /\
    length out = n_time /\
    forall t row, nth_error out t = Some row ->
      exists v s first, profile_of fvel n_time t v /\ profile_of starts n_time t s /\
        (first = 0 \/ first = 1)%Z /\ (exists r, s = first :: r) /\
        expanded (map (fun k => (k - first)%Z) s) v n_height row.
Proof. exact expand_folding_spec. Qed.
Theorem C43_per_gate_kept : forall A (rows : list (list A)) starts n_time n_height,
  length rows = n_time -> Forall (fun r => length r = n_height) rows ->
  expand_folding (Nd2 rows n_height) starts n_time n_height = Ok rows.
Proof. exact expand_folding_same. Qed.
Theorem C43_one_value : forall A (a : A) fvel starts n_time n_height,
  fvel = Nd0 a \/ fvel = Nd1 [a] ->
  exists out, expand_folding fvel starts n_time n_height = Ok out /\ length out = n_time /\
    forall t row, nth_error out t = Some row -> length row = n_height /\
      forall g, g < n_height -> nth_error row g = Some a.
Proof.
  intros A a fvel starts nt nh H. eexists. split; [exact (expand_folding_scalar A a fvel starts nt nh H)|].
  split; [apply repeat_length|]. intros t row R. apply nth_error_In, repeat_spec in R. subst row.
  split; [apply repeat_length|]. intros g G. apply nth_error_repeat', G.
Qed.
(** A file with one profile and one value per chirp: rejected. *)
Theorem C43_single_profile_refuted : exists (fvel : nd Q) starts n_time n_height n_seg,
  1 < n_seg /\ shaped fvel n_time n_seg /\ shaped starts n_time n_seg /\
  (forall t row, t < n_time -> profile_of starts n_time t row -> good_starts row 0 n_height) /\
  expand_folding fvel (Some starts) n_time n_height = Raise ValueError.
Proof.
  exists (Nd2 [[5; 3]]%Q 2), (Nd2 [[0; 2]]%Z 2), 1, 4, 2.
  split; [lia|]. split; [|split; [|split]].
  - split; [reflexivity|]. split; [repeat constructor|]. left. reflexivity.
  - split; [reflexivity|]. split; [repeat constructor|]. left. reflexivity.
  - intros t row T P. assert (row = [0; 2]%Z).
    { assert (t = 0) by lia. subst t. destruct P as [[_ P]|P]; injection P as ->; reflexivity. }
    subst row. split; [exists [2%Z]; reflexivity|]. split; repeat constructor; lia.
  - reflexivity.
Qed.
Print Assumptions C43_rpg.
Print Assumptions C43_rpg_rejects.
Print Assumptions C43_categorize_partial.
Print Assumptions C43_per_gate_kept.
Print Assumptions C43_one_value.
Print Assumptions C43_single_profile_refuted.
Example C43_nonvacuous :
  expand_nyquist 5 [[Some 9%Q; None; Some 7%Q]; [Some 4%Q; Some 3%Q; Some 2%Q]]
    [[Some 0; Some 2; None]; [Some 0; Some 1; Some 3]]%Z = Ok [[9; 9; 7; 7; 7]; [4; 3; 3; 2; 2]]%Q /\
  expand_folding (Nd1 [9; 7]%Q) (Some (Nd2 [[0; 2]; [1; 2]]%Z 2)) 2 4 = Ok [[9; 9; 7; 7]; [9; 7; 7; 7]]%Q /\
  good_starts [0; 2]%Z 0 5 /\ good_starts [1; 2]%Z 1 4 /\ by_chirp (Nd1 [9; 7]%Q) 4.
Proof.
  split; [reflexivity|]. split; [reflexivity|]. split; [|split].
  - split; [exists [2%Z]; reflexivity|]. split; repeat constructor; lia.
  - split; [exists [2%Z]; reflexivity|]. split; repeat constructor; lia.
  - cbn. lia.
Qed.

(** ** C44: disdrometer bins. *)
Theorem C44_bins : forall n_values spreads start b,
  create_vectors n_values spreads start = Ok b ->
  length (b_bounds b) = length (bin_widths spreads n_values) /\
  length (b_mid b) = length (bin_widths spreads n_values) /\
  length (b_spread b) = length (bin_widths spreads n_values) /\
  forall i w, nth_error (bin_widths spreads n_values) i = Some w ->
    exists lo up mid s, nth_error (b_bounds b) i = Some (lo, up) /\
      nth_error (b_mid b) i = Some mid /\ nth_error (b_spread b) i = Some s /\
      (up == lo + w)%Q /\ (mid == (lo + up) / 2)%Q /\ (s == w)%Q /\ (i = 0 -> (lo == start)%Q) /\
      (forall lo' up', nth_error (b_bounds b) (S i) = Some (lo', up') -> (lo' == up)%Q).
Proof. exact create_vectors_spec. Qed.
(** The number of bins is the sum of the counts. *)
Theorem C44_number : forall n_values spreads start b,
  create_vectors n_values spreads start = Ok b -> length (b_mid b) = list_sum n_values.
Proof.
  intros n sp start b H. destruct (create_vectors_spec n sp start b H) as (_ & -> & _).
  destruct (Nat.eq_dec (length sp) (length n)) as [L|L].
  - clear H. revert n L. induction sp as [|s sp IH]; intros [|k n] L; try discriminate; [reflexivity|].
    cbn [bin_widths]. rewrite app_length, repeat_length, IH by (cbn in L; lia). reflexivity.
  - exfalso. destruct (bin_loop_fails sp n start (or_introl L)) as (e & E).
    unfold create_vectors in H. rewrite E in H. discriminate.
Qed.
(** It succeeds exactly for lists of equal length without empty classes. *)
Theorem C44_succeeds_iff : forall n_values spreads start,
  (exists b, create_vectors n_values spreads start = Ok b) <->
  length spreads = length n_values /\ Forall (fun n => 0 < n) n_values.
Proof.
  intros n sp start. split.
  - intros (b & H). unfold create_vectors in H.
    destruct (Nat.eq_dec (length sp) (length n)) as [L|L].
    + split; [exact L|]. destruct (Exists_dec (fun k => k = 0) n (fun k => Nat.eq_dec k 0)) as [X|X].
      * destruct (bin_loop_fails sp n start (or_intror X)) as (e & E). rewrite E in H. discriminate.
      * apply Forall_forall. intros k K. destruct k; [|lia]. exfalso. apply X, Exists_exists. eauto.
    + destruct (bin_loop_fails sp n start (or_introl L)) as (e & E). rewrite E in H. discriminate.
  - intros [L F]. destruct (bin_loop_ok sp n start L F) as (l & E).
    unfold create_vectors. rewrite E. eexists. reflexivity.
Qed.
Print Assumptions C44_bins.
Print Assumptions C44_number.
Print Assumptions C44_succeeds_iff.
Example C44_nonvacuous :
  exists b, create_vectors [2; 3] [1 # 2; 1]%Q 1%Q = Ok b /\
    Forall2 (fun x y => (fst x == fst y /\ snd x == snd y)%Q) (b_bounds b)
      [(1, 3 # 2); (3 # 2, 2); (2, 3); (3, 4); (4, 5)]%Q /\ length (b_mid b) = 5.
Proof. eexists. split; [reflexivity|]. split; repeat constructor; reflexivity. Qed.

(** ** C47: radar band. *)
Theorem C47_band : forall f b, get_wl_band f = Ok b <->
  match b with
  | BandX => 8 < f /\ f < 12 | BandKa => 27 < f /\ f < 40 | BandW => 75 < f /\ f < 110
  end%Q.
Proof. exact band_spec. Qed.
Theorem C47_error : forall f, (exists e, get_wl_band f = Raise e) <->
  get_wl_band f = Raise ValueError /\ ~ (8 < f /\ f < 12)%Q /\ ~ (27 < f /\ f < 40)%Q /\ ~ (75 < f /\ f < 110)%Q.
Proof.
  intros f. split.
  - intros (e & H). pose proof (band_error f e H). subst e. split; [exact H|].
    split; [|split]; intros X;
      [apply (proj2 (band_spec f BandX)) in X|apply (proj2 (band_spec f BandKa)) in X|
       apply (proj2 (band_spec f BandW)) in X]; congruence.
  - intros [H _]. eauto.
Qed.
(** A frequency outside all intervals is an error. *)
Theorem C47_outside : forall f,
  ~ (8 < f /\ f < 12)%Q -> ~ (27 < f /\ f < 40)%Q -> ~ (75 < f /\ f < 110)%Q ->
  get_wl_band f = Raise ValueError.
Proof.
  intros f X K W. destruct (get_wl_band f) as [b|e] eqn:E.
  - apply band_spec in E. destruct b; contradiction.
  - f_equal. exact (band_error f e E).
Qed.
Print Assumptions C47_band.
Print Assumptions C47_error.
Print Assumptions C47_outside.
Example C47_nonvacuous : get_wl_band 94%Q = Ok BandW /\ get_wl_band 12%Q = Raise ValueError.
Proof. split; reflexivity. Qed.

(** ** C52: rebinning a radar. *)
(** Files with nyquist_velocity.  Missing: files with prf only, see below. *)
Theorem C52_nyquist_partial : forall A rebin_db rebin_mean rebin_std rebin_velocity max_folding
  prf_to_folding expand file (z v n f v' : A),
  lookup "Zh" file = Some z -> lookup "v" file = Some v -> lookup "nyquist_velocity" file = Some n ->
  expand n = Ok f -> rebin_velocity f v = Ok v' ->
  exists out, open_and_rebin A rebin_db rebin_mean rebin_std rebin_velocity max_folding
      prf_to_folding expand file = Ok out /\
    lookup "Z" out = Some (rebin_db z) /\ lookup "v" out = Some v' /\
    lookup "v_sigma" out = Some (rebin_std v) /\
    lookup "nyquist_velocity" out = Some (max_folding f) /\
    (forall key, In key ["ldr"; "sldr"]%string -> lookup key out = option_map rebin_db (lookup key file)) /\
    (forall key, In key ["width"; "rainfall_rate"]%string ->
       lookup key out = option_map rebin_mean (lookup key file)) /\
    (forall key, ~ In key ["Z"; "v"; "v_sigma"; "nyquist_velocity"; "ldr"; "sldr"; "width"; "rainfall_rate"]%string ->
       lookup key out = None).
Proof. exact rebin_nyquist. Qed.
(** Without nyquist_velocity the call always fails, with RuntimeError if the
    folding velocity can be determined from prf. *)
Theorem C52_prf_always_fails : forall A rebin_db rebin_mean rebin_std rebin_velocity max_folding
  prf_to_folding expand file (z v : A),
  lookup "Zh" file = Some z -> lookup "v" file = Some v -> lookup "nyquist_velocity" file = None ->
  exists e, open_and_rebin A rebin_db rebin_mean rebin_std rebin_velocity max_folding
      prf_to_folding expand file = Raise e /\
    forall p f v', lookup "prf" file = Some p -> bind (prf_to_folding p) expand = Ok f ->
      rebin_velocity f v = Ok v' -> e = RuntimeError.
Proof. exact rebin_no_nyquist. Qed.
Theorem C52_prf_refuted : exists (file : dict Q) z v p f v' prf_to_folding expand rebin_velocity,
  lookup "Zh" file = Some z /\ lookup "v" file = Some v /\ lookup "prf" file = Some p /\
  bind (prf_to_folding p) expand = Ok f /\ rebin_velocity f v = Ok v' /\
  open_and_rebin Q (fun x => x) (fun x => x) (fun x => x) rebin_velocity (fun x => x)
    prf_to_folding expand file = Raise RuntimeError.
Proof.
  exists [("Zh", 1%Q); ("v", 2%Q); ("prf", 3%Q)]%string, 1%Q, 2%Q, 3%Q, 3%Q, 2%Q, Ok, Ok, (fun _ v => Ok v).
  repeat split; reflexivity.
Qed.
Theorem C52_no_data : forall A rebin_db rebin_mean rebin_std rebin_velocity max_folding
  prf_to_folding expand (file : dict A),
  lookup "Zh" file = None \/ lookup "v" file = None ->
  open_and_rebin A rebin_db rebin_mean rebin_std rebin_velocity max_folding prf_to_folding expand file
    = Raise KeyError.
Proof. exact rebin_no_data. Qed.
Print Assumptions C52_nyquist_partial.
Print Assumptions C52_prf_always_fails.
Print Assumptions C52_prf_refuted.
Print Assumptions C52_no_data.
Example C52_nonvacuous :
  open_and_rebin Q (fun x => x + 10)%Q (fun x => x) (fun x => x * 2)%Q (fun f v => Ok (f + v)%Q) (fun x => x)
    Ok Ok [("Zh", 1%Q); ("v", 2%Q); ("nyquist_velocity", 5%Q); ("ldr", 7%Q); ("time", 0%Q)]%string
  = Ok [("Z", 11%Q); ("v_sigma", 4%Q); ("v", 7%Q); ("ldr", 17%Q); ("nyquist_velocity", 5%Q)]%string.
Proof. reflexivity. Qed.
