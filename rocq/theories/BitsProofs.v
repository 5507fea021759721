From Verif Require Import Base BitsModel.
Open Scope Z_scope.

Lemma land_pow2_pos x n : 0 <= n ->
  (0 <? Z.land x (Z.shiftl 1 n)) = Z.testbit x n.
Proof.
  intros Hn. rewrite Z.shiftl_1_l.
  destruct (Z.testbit x n) eqn:E.
  - apply Z.ltb_lt.
    assert (H : Z.testbit (Z.land x (2 ^ n)) n = true).
    { rewrite Z.land_spec, E, Z.pow2_bits_true by lia. reflexivity. }
    assert (0 <= Z.land x (2 ^ n)).
    { apply Z.land_nonneg. right. lia. }
    assert (Z.land x (2 ^ n) <> 0).
    { intros Hz. rewrite Hz, Z.bits_0 in H. discriminate. }
    lia.
  - apply Z.ltb_ge.
    assert (H : Z.land x (2 ^ n) = 0); [|lia].
    apply Z.bits_inj'. intros m Hm. rewrite Z.land_spec, Z.bits_0.
    destruct (Z.eq_dec n m) as [->|Hne].
    + rewrite E. reflexivity.
    + rewrite Z.pow2_bits_false by lia. apply andb_false_r.
Qed.

Lemma isbit_testbit x n : 0 <= n -> isbit x n = Ok (Z.testbit x n).
Proof.
  intros Hn. unfold isbit. destruct (Z.ltb_spec n 0); [lia|].
  f_equal. apply land_pow2_pos. lia.
Qed.

Lemma bit_testbit x n : 0 <= n -> bit x n = Z.testbit x n.
Proof. intros Hn. unfold bit. rewrite isbit_testbit by exact Hn. reflexivity. Qed.

Lemma setbit_ok x n : 0 <= n -> setbit x n = Ok (Z.lor x (2 ^ n)).
Proof.
  intros Hn. unfold setbit. destruct (Z.ltb_spec n 0); [lia|].
  rewrite Z.shiftl_1_l. reflexivity.
Qed.

Lemma setbit_spec x n y m : setbit x n = Ok y -> 0 <= m ->
  isbit y m = if m =? n then Ok true else isbit x m.
Proof.
  unfold setbit. destruct (Z.ltb_spec n 0) as [|Hn]; [discriminate|].
  intros [= <-] Hm. rewrite !isbit_testbit by lia.
  rewrite Z.lor_spec, Z.shiftl_1_l.
  destruct (Z.eqb_spec m n) as [->|Hne].
  - rewrite Z.pow2_bits_true by lia. rewrite orb_true_r. reflexivity.
  - rewrite Z.pow2_bits_false by lia. rewrite orb_false_r. reflexivity.
Qed.

Lemma bit_error x n : isbit x n = Raise ValueError <-> n < 0.
Proof.
  unfold isbit. destruct (Z.ltb_spec n 0); split; intros; try reflexivity; try lia; discriminate.
Qed.
Lemma setbit_error x n : setbit x n = Raise ValueError <-> n < 0.
Proof.
  unfold setbit. destruct (Z.ltb_spec n 0); split; intros; try reflexivity; try lia; discriminate.
Qed.

(** Bits of the packed value. *)
Lemma shift_b2z_testbit i b n : 0 <= i -> 0 <= n ->
  Z.testbit (Z.shiftl 1 i * Z.b2z b) n = (b && (n =? i)).
Proof.
  intros Hi Hn. rewrite Z.shiftl_1_l. destruct b; simpl Z.b2z.
  - rewrite Z.mul_1_r. destruct (Z.eqb_spec n i) as [->|Hne].
    + rewrite Z.pow2_bits_true by lia. reflexivity.
    + rewrite Z.pow2_bits_false by lia. reflexivity.
  - rewrite Z.mul_0_r, Z.bits_0. reflexivity.
Qed.

Lemma pack_from_spec fields : forall i q n, 0 <= i -> 0 <= n ->
  Z.testbit (pack_from i fields q) n =
  Z.testbit q n || (if i <=? n then nth (Z.to_nat (n - i)) fields false else false).
Proof.
  induction fields as [|b rest IH]; intros i q n Hi Hn.
  - simpl. destruct (i <=? n); [destruct (Z.to_nat (n - i))|]; rewrite orb_false_r; reflexivity.
  - cbn [pack_from]. rewrite IH by lia. rewrite Z.lor_spec, shift_b2z_testbit by lia.
    destruct (Z.eqb_spec n i) as [->|Hne].
    + destruct (Z.leb_spec (i + 1) i); [lia|]. destruct (Z.leb_spec i i); [|lia].
      rewrite Z.sub_diag. simpl. rewrite andb_true_r, orb_false_r. reflexivity.
    + rewrite andb_false_r, orb_false_r. f_equal.
      destruct (Z.leb_spec i n), (Z.leb_spec (i + 1) n); try lia; try reflexivity.
      replace (Z.to_nat (n - i)) with (S (Z.to_nat (n - (i + 1)))) by lia. reflexivity.
Qed.

Lemma classes_to_bits_spec fields n : 0 <= n ->
  Z.testbit (classes_to_bits fields) n = nth (Z.to_nat n) fields false.
Proof.
  intros Hn. unfold classes_to_bits. rewrite pack_from_spec by lia.
  rewrite Z.bits_0, Z.sub_0_r. destruct (Z.leb_spec 0 n); [reflexivity|lia].
Qed.

Lemma pack_from_nonneg fields : forall i q, 0 <= i -> 0 <= q -> 0 <= pack_from i fields q.
Proof.
  induction fields as [|b rest IH]; intros i q Hi Hq; simpl; [exact Hq|].
  apply IH; [lia|]. apply Z.lor_nonneg. split; [exact Hq|].
  apply Z.mul_nonneg_nonneg; [rewrite Z.shiftl_1_l; lia|destruct b; simpl; lia].
Qed.

Lemma classes_to_bits_bound fields :
  0 <= classes_to_bits fields < 2 ^ Z.of_nat (length fields).
Proof.
  assert (Hnn : 0 <= classes_to_bits fields) by (apply pack_from_nonneg; lia).
  split; [exact Hnn|].
  destruct (Z.eq_dec (classes_to_bits fields) 0) as [->|Hne]; [lia|].
  apply Z.log2_lt_pow2; [lia|].
  destruct (Z.lt_ge_cases (Z.log2 (classes_to_bits fields)) (Z.of_nat (length fields)))
    as [|Hge]; [assumption|].
  exfalso. pose proof (Z.bit_log2 (classes_to_bits fields) ltac:(lia)) as Hb.
  rewrite classes_to_bits_spec in Hb by apply Z.log2_nonneg.
  rewrite nth_overflow in Hb by lia. discriminate.
Qed.

Lemma category_roundtrip c :
  read_category_bits (classes_to_bits (category_fields c)) = c.
Proof.
  unfold read_category_bits. rewrite !bit_testbit by lia.
  rewrite !classes_to_bits_spec by lia. destruct c; reflexivity.
Qed.

Lemma quality_roundtrip q :
  read_quality_bits (classes_to_bits (quality_fields q)) = q.
Proof.
  unfold read_quality_bits. rewrite !bit_testbit by lia.
  rewrite !classes_to_bits_spec by lia. destruct q; reflexivity.
Qed.

Lemma category_image_roundtrip m : read_category (write_category m) = m.
Proof.
  unfold read_category, write_category. rewrite imap_imap.
  rewrite (imap_ext _ (fun x => x)); [apply imap_id|exact category_roundtrip].
Qed.

Lemma quality_image_roundtrip m : read_quality (write_quality m) = m.
Proof.
  unfold read_quality, write_quality. rewrite imap_imap.
  rewrite (imap_ext _ (fun x => x)); [apply imap_id|exact quality_roundtrip].
Qed.

(** Bounds of every stored pixel. *)
Lemma category_image_bound m i j v :
  pixel (write_category m) i j = Some v -> 0 <= v < 64.
Proof.
  unfold write_category. rewrite pixel_imap.
  destruct (pixel m i j) as [c|]; simpl; [|discriminate].
  intros [= <-]. exact (classes_to_bits_bound (category_fields c)).
Qed.
Lemma quality_image_bound m i j v :
  pixel (write_quality m) i j = Some v -> 0 <= v < 1024.
Proof.
  unfold write_quality. rewrite pixel_imap.
  destruct (pixel m i j) as [c|]; simpl; [|discriminate].
  intros [= <-]. exact (classes_to_bits_bound (quality_fields c)).
Qed.

(** The meaning of the stored bits, as documented in the file: bit k of the
    stored integer is flag k. *)
Lemma category_bit_meaning c :
  let v := classes_to_bits (category_fields c) in
  Z.testbit v 0 = droplet c /\ Z.testbit v 1 = falling c /\ Z.testbit v 2 = freezing c /\
  Z.testbit v 3 = melting c /\ Z.testbit v 4 = aerosol c /\ Z.testbit v 5 = insect c.
Proof. cbv zeta. rewrite !classes_to_bits_spec by lia. repeat split. Qed.
Lemma quality_bit_meaning q :
  let v := classes_to_bits (quality_fields q) in
  Z.testbit v 0 = radar q /\ Z.testbit v 1 = lidar q /\ Z.testbit v 2 = clutter q /\
  Z.testbit v 3 = molecular q /\ Z.testbit v 4 = attenuated_liquid q /\
  Z.testbit v 5 = corrected_liquid q /\ Z.testbit v 6 = attenuated_rain q /\
  Z.testbit v 7 = corrected_rain q /\ Z.testbit v 8 = attenuated_melting q /\
  Z.testbit v 9 = corrected_melting q.
Proof. cbv zeta. rewrite !classes_to_bits_spec by lia. repeat split. Qed.

Lemma setbit_idempotent x n y : setbit x n = Ok y -> setbit y n = Ok y.
Proof.
  unfold setbit. destruct (n <? 0); [discriminate|]. intros [= <-]. f_equal.
  rewrite <- Z.lor_assoc, Z.lor_diag. reflexivity.
Qed.
Lemma setbit_comm x n m :
  bind (setbit x n) (fun y => setbit y m) = bind (setbit x m) (fun y => setbit y n).
Proof.
  unfold setbit. destruct (n <? 0) eqn:En, (m <? 0) eqn:Em; simpl; rewrite ?En, ?Em; try reflexivity.
  f_equal. rewrite <- !Z.lor_assoc. f_equal. apply Z.lor_comm.
Qed.
