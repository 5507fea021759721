(** Proofs about the rain flag and the screening of radar data. *)
From Verif Require Import Base ArrayModel ArrayProofs FillModel TimeModel GridModel OutputModel ClassifyModel ImageModel RadarModel
  TimeSpec TimeProofs GridSpec GridProofs FillProofs ImageProofs DropletProofs RadarSpec.
From Coq Require Import Qabs Qround String Lqa.
Open Scope string_scope.
Open Scope nat_scope.
Open Scope list_scope.
Local Notation length := List.length (only parsing).
Local Notation get := ImageModel.get (only parsing).

(** ** Images *)
Lemma sized_pixel {A} nt n (m : image A) i j : sized nt n m -> i < nt -> j < n ->
  exists row x, nth_error m i = Some row /\ nth_error row j = Some x /\ pixel m i j = Some x.
Proof.
  intros [L R] Hi Hj. destruct (nth_error_lt_Some m i) as [row E]; [lia|].
  destruct (nth_error_lt_Some row j) as [x X]; [rewrite (R i row E); exact Hj|].
  exists row, x. unfold pixel. rewrite E. auto.
Qed.

Lemma at_gate_nth row j x : nth_error row j = Some x -> at_gate row j = x.
Proof. intros H. unfold at_gate. apply nth_error_nth. exact H. Qed.

Lemma nth_seq_map {A} (f : nat -> A) n k : k < n -> nth_error (map f (seq 0 n)) k = Some (f k).
Proof.
  intros H. rewrite nth_error_map'.
  rewrite (nth_error_nth' _ 0) by (rewrite seq_length; exact H).
  rewrite seq_nth by exact H. reflexivity.
Qed.

(** ** The gate used for rain *)
Lemma masked_column nt n z k : sized nt n z -> k < n ->
  forallb (fun row => hides (at_gate row k)) z = true <-> empty_gate z k.
Proof.
  intros [L R] Hk. rewrite forallb_forall. split.
  - intros H i x P. unfold pixel in P. destruct (nth_error z i) as [row|] eqn:E; [|discriminate P].
    specialize (H row (nth_error_In _ _ E)). rewrite (at_gate_nth _ _ _ P) in H. discriminate H.
  - intros H row I. apply In_nth_error in I as [i E].
    destruct (nth_error_lt_Some row k) as [[x b] X]; [rewrite (R i row E); exact Hk|].
    rewrite (at_gate_nth _ _ _ X). destruct b; [reflexivity|]. exfalso. apply (H i x).
    unfold pixel. rewrite E. exact X.
Qed.

Lemma rain_gate_lowest nt n z k : sized nt n z -> lowest_gate n z k -> rain_gate n z = Ok (k + 3).
Proof.
  intros Sz [Hk D]. unfold rain_gate, argmax_bool.
  set (all_masked := map (fun j => forallb (fun row => hides (at_gate row j)) z) (seq 0 n)).
  assert (Nth : forall j, j < n -> nth_error (map negb all_masked) j =
    Some (negb (forallb (fun row => hides (at_gate row j)) z))).
  { intros j Hj. rewrite nth_error_map'. unfold all_masked. rewrite nth_seq_map by exact Hj. reflexivity. }
  assert (Len : length (map negb all_masked) = n).
  { rewrite map_length. unfold all_masked. rewrite map_length. apply seq_length. }
  destruct (map negb all_masked) as [|b0 l0] eqn:E; [cbn in Len; lia|]. rewrite <- E in *. clear E b0 l0.
  cbn [bind]. do 2 f_equal.
  assert (F := first_true_spec (map negb all_masked)).
  destruct (first_true (map negb all_masked)) as [i|].
  - destruct F as [Fi Fb]. assert (Hi : i < n) by (apply nth_error_Some_lt in Fi; lia).
    rewrite (Nth i Hi) in Fi. assert (Ni : ~ empty_gate z i).
    { intros X. apply (masked_column nt n z i Sz Hi) in X. rewrite X in Fi. discriminate Fi. }
    destruct D as [[Nk B]|[_ B]].
    + destruct (Nat.lt_trichotomy i k) as [C|[C|C]].
      * exfalso. apply Ni. apply B. exact C.
      * lia.
      * exfalso. specialize (Fb k C). rewrite (Nth k Hk) in Fb. apply Nk.
        apply (masked_column nt n z k Sz Hk).
        injection Fb as Fb; apply negb_false_iff; exact Fb.
    + exfalso. apply Ni. apply B. exact Hi.
  - destruct D as [[Nk B]|[-> B]]; [|reflexivity].
    exfalso. specialize (F k). rewrite Len, (Nth k Hk) in F. specialize (F Hk). apply Nk.
    apply (masked_column nt n z k Sz Hk). injection F as F; apply negb_false_iff; exact F.
Qed.

Lemma lowest_gate_exists nt n z : sized nt n z -> 0 < n -> exists k, lowest_gate n z k.
Proof.
  intros Sz Hn.
  assert (F := first_true_spec (map (fun j => negb (forallb (fun row => hides (at_gate row j)) z)) (seq 0 n))).
  destruct (first_true _) as [i|].
  - destruct F as [Fi Fb]. assert (Hi : i < n) by (apply nth_error_Some_lt in Fi; rewrite map_length, seq_length in Fi; exact Fi).
    exists i. split; [exact Hi|]. left. rewrite nth_seq_map in Fi by exact Hi. split.
    + intros X. apply (masked_column nt n z i Sz Hi) in X. rewrite X in Fi. discriminate Fi.
    + intros j Hj. specialize (Fb j Hj). rewrite nth_seq_map in Fb by lia.
      apply (masked_column nt n z j Sz); [lia|]. injection Fb as Fb; apply negb_false_iff; exact Fb.
  - exists 0. split; [exact Hn|]. right. split; [reflexivity|]. intros j Hj.
    specialize (F j). rewrite map_length, seq_length, nth_seq_map in F by exact Hj. specialize (F Hj).
    apply (masked_column nt n z j Sz Hj). injection F as F; apply negb_false_iff; exact F.
Qed.

(** ** Radar echo *)
Definition depol {A} (ldr sldr : option A) : option A := match ldr with Some m => Some m | None => sldr end.

Lemma column_value {A} nt n (m : image entry) (f : entry -> A) g i : sized nt n m -> i < nt -> g < n ->
  exists x, pixel m i g = Some x /\ nth_error (map (fun row => f (at_gate row g)) m) i = Some (f x).
Proof.
  intros Sz Hi Hg. destruct (sized_pixel nt n m i g Sz Hi Hg) as (row & x & R & X & P).
  exists x. split; [exact P|]. rewrite nth_error_map', R. cbn [option_map]. rewrite (at_gate_nth _ _ _ X). reflexivity.
Qed.

Lemma echo_ok nt n z v ldr sldr k : sized nt n z -> sized nt n v ->
  (forall m, depol ldr sldr = Some m -> sized nt n m) -> lowest_gate n z k -> k + 3 < n ->
  exists echo, find_rain_from_radar_echo n z v ldr sldr = Ok echo /\ length echo = nt /\
    forall i, i < nt -> exists b, nth_error echo i = Some b /\
      (b = true <-> echo_of_rain z v (depol ldr sldr) (k + 3) i).
Proof.
  intros Sz Sv Sl Lk Hk. unfold find_rain_from_radar_echo. rewrite (rain_gate_lowest nt n z k Sz Lk). cbn [bind].
  assert (E : (k + 3 <? n) = true) by (apply Nat.ltb_lt; exact Hk). rewrite E. clear E.
  set (g := k + 3) in *.
  set (low := match ldr, sldr with
      | Some m, _ => map (fun row => qlt (raw (at_gate row g)) (-15)) m
      | None, Some m => map (fun row => qlt (raw (at_gate row g)) (-15)) m
      | None, None => map (fun _ : list entry => qlt (-15 - 1) (-15)) z
      end).
  assert (Low : length low = nt /\ forall i, i < nt -> exists b, nth_error low i = Some b /\
     (b = true <-> forall m, depol ldr sldr = Some m -> exists y, pixel m i g = Some y /\ fst y < -15)%Q).
  { assert (Case : forall m, depol ldr sldr = Some m ->
       low = map (fun row => qlt (raw (at_gate row g)) (-15)) m).
    { intros m. unfold depol, low. destruct ldr as [m1|]; [intros X; injection X as ->; reflexivity|].
      intros ->. reflexivity. }
    destruct (depol ldr sldr) as [m|] eqn:D.
    - rewrite (Case m eq_refl). specialize (Sl m eq_refl). split; [rewrite map_length; apply Sl|].
      intros i Hi. destruct (column_value nt n m (fun y => qlt (raw y) (-15)) g i Sl Hi Hk) as (x & P & X).
      exists (qlt (raw x) (-15)). split; [exact X|]. rewrite qlt_iff. split.
      + intros Q m' M. injection M as <-. exists x. split; [exact P|exact Q].
      + intros Q. destruct (Q m eq_refl) as (y & P' & Y). rewrite P in P'. injection P' as <-. exact Y.
    - assert (low = map (fun _ : list entry => qlt (-15 - 1) (-15)) z) as ->.
      { unfold depol in D. unfold low. destruct ldr; [discriminate D|]. rewrite D. reflexivity. }
      split; [rewrite map_length; apply Sz|]. intros i Hi. exists true. split.
      + rewrite nth_error_map'. destruct (nth_error_lt_Some z i) as [row ->]; [rewrite (proj1 Sz); exact Hi|]. reflexivity.
      + split; [intros _ m M; discriminate M|reflexivity]. }
  destruct Low as [Ll Lb]. eexists. split; [reflexivity|]. split.
  - rewrite !map2_length, !map_length, (proj1 Sz), (proj1 Sv), Ll. lia.
  - intros i Hi. rewrite !nth_error_map2.
    destruct (column_value nt n z (fun x => negb (hides x) && qgt (raw x) 3) g i Sz Hi Hk) as (x & Px & ->).
    destruct (column_value nt n v (fun y => qlt (raw y) 0) g i Sv Hi Hk) as (y & Py & ->).
    destruct (Lb i Hi) as (b & -> & Hb). eexists. split; [reflexivity|].
    rewrite !andb_true_iff, negb_true_iff, qgt_iff, qlt_iff, Hb. unfold echo_of_rain. split.
    + intros [[[X1 X2] Y] B]. split; [|split].
      * exists (fst x). split; [|exact X2]. rewrite Px. destruct x as [a h]. cbn in X1 |- *. rewrite X1. reflexivity.
      * exists y. split; [exact Py|exact Y].
      * exact B.
    + intros ((a & Pa & Ga) & (c & Pc & Gc) & B). rewrite Px in Pa. assert (x = (a, false)) by congruence. subst x.
      rewrite Py in Pc. assert (c = y) by congruence. subst c. split; [split; [split|]|]; [reflexivity|exact Ga|exact Gc|exact B].
Qed.

Lemma echo_too_high nt n z v ldr sldr k : sized nt n z -> lowest_gate n z k -> n <= k + 3 ->
  find_rain_from_radar_echo n z v ldr sldr = Raise IndexError.
Proof.
  intros Sz Lk Hk. unfold find_rain_from_radar_echo. rewrite (rain_gate_lowest nt n z k Sz Lk). cbn [bind].
  assert (E : (k + 3 <? n) = false) by (apply Nat.ltb_ge; exact Hk). rewrite E. reflexivity.
Qed.

(** ** Disdrometer and temperature *)
(** The disdrometer of [nt] profiles. *)
Definition fits (nt : nat) (d : option disdrometer) : Prop :=
  forall d', d = Some d' -> length (d_rate d') = nt /\ length (d_particles d') = nt /\
    forall w, d_wawa d' = Some w -> length w = nt.
(** Both quantities are measured at profile [i]. *)
Definition measures (d : option disdrometer) (i : nat) (r p : Q) : Prop :=
  exists d', d = Some d' /\ nth_error (d_rate d') i = Some (Some r) /\ nth_error (d_particles d') i = Some (Some p).

Lemma disdrometer_ok nt d : fits nt d ->
  length (find_rain_from_disdrometer nt d) = nt /\
  forall i, i < nt -> exists b, nth_error (find_rain_from_disdrometer nt d) i = Some b /\
    match b with
    | Some b => exists r p, measures d i r p /\ (b = true <-> measured_rain r p)
    | None => forall r p, ~ measures d i r p
    end.
Proof.
  intros F. destruct d as [d|]; cbn [find_rain_from_disdrometer].
  - destruct (F d eq_refl) as (Lr & Lp & _). split; [rewrite map2_length, Lr, Lp; lia|].
    intros i Hi. rewrite nth_error_map2.
    destruct (nth_error_lt_Some (d_rate d) i) as [r R]; [lia|]. destruct (nth_error_lt_Some (d_particles d) i) as [p P]; [lia|].
    rewrite R, P. eexists. split; [reflexivity|].
    assert (No : r = None \/ p = None -> forall r' p', ~ measures (Some d) i r' p').
    { intros N r' p' (d' & E & R' & P'). injection E as <-. rewrite R in R'. rewrite P in P'. destruct N; congruence. }
    destruct r as [r|]; [|apply No; auto]. destruct p as [p|]; [|apply No; auto].
    exists r, p. split; [exists d; auto|]. rewrite andb_true_iff, !qgt_iff. unfold measured_rain. split; intros [A B]; split; lra.
  - split; [apply repeat_length|]. intros i Hi. exists None. split.
    + apply nth_error_repeat. exact Hi.
    + intros r p (d' & E & _). discriminate E.
Qed.

(** Whether profile [i] is liquid: by the present weather code (which may be masked),
    or by the wet bulb temperature in the lowest gate with values everywhere. *)
Definition liquid_at (n : nat) (tw : image (masked Q)) (d : option disdrometer) (i : nat) (b : masked bool) : Prop :=
  (exists d' w c, d = Some d' /\ d_wawa d' = Some w /\ nth_error w i = Some c /\
     match c, b with
     | Some c, Some b => b = true <-> (57 <= c /\ c <= 68)%Q
     | None, None => True
     | _, _ => False
     end) \/
  ((forall d', d = Some d' -> d_wawa d' = None) /\
   exists k t, k < n /\ full_gate tw k /\ (forall j, j < k -> ~ full_gate tw j) /\
     pixel tw i k = Some (Some t) /\ exists b', b = Some b' /\ (b' = true <-> (27816 # 100 < t)%Q)).

Lemma full_column nt n tw k : sized nt n tw -> k < n ->
  forallb (fun row => negb (is_masked (nth k row None))) tw = true <-> full_gate tw k.
Proof.
  intros [L R] Hk. rewrite forallb_forall. split.
  - intros H i Hi. destruct (nth_error_lt_Some tw i Hi) as [row E].
    specialize (H row (nth_error_In _ _ E)). destruct (nth_error_lt_Some row k) as [x X]; [rewrite (R i row E); exact Hk|].
    rewrite (nth_error_nth _ _ None X) in H. destruct x as [t|]; [|discriminate H].
    exists t. unfold pixel. rewrite E. exact X.
  - intros H row I. apply In_nth_error in I as [i E].
    destruct (H i (nth_error_Some_lt _ _ _ E)) as [t P]. unfold pixel in P. rewrite E in P.
    rewrite (nth_error_nth _ _ None P). reflexivity.
Qed.

Lemma liquid_ok nt n tw d : sized nt n tw -> fits nt d ->
  ((exists d' w, d = Some d' /\ d_wawa d' = Some w) \/ exists k, k < n /\ full_gate tw k) ->
  exists liquid, liquid_rain_only n tw d = Ok liquid /\ length liquid = nt /\
    forall i, i < nt -> exists b, nth_error liquid i = Some b /\ liquid_at n tw d i b.
Proof.
  intros St F H.
  assert (Code : forall d' w, d = Some d' -> d_wawa d' = Some w ->
    liquid_rain_only n tw d = Ok (map (option_map (fun w => Qle_bool 57 w && Qle_bool w 68)) w)).
  { intros d' w -> W. destruct d' as [dr dp dw]. cbn in W. subst dw. reflexivity. }
  assert (Temp : (forall d', d = Some d' -> d_wawa d' = None) -> liquid_rain_only n tw d =
      match first_true (map (fun j => forallb (fun row => negb (is_masked (nth j row None))) tw) (seq 0 n)) with
      | None => Raise IndexError
      | Some j => Ok (map (fun row => option_map (fun t => qgt t (T0 + 5)) (nth j row None)) tw)
      end).
  { intros N. destruct d as [d'|]; [|reflexivity]. specialize (N d' eq_refl). destruct d' as [dr dp dw].
    cbn in N. subst dw. reflexivity. }
  destruct (match d with Some d' => d_wawa d' | None => None end) as [w|] eqn:W.
  - destruct d as [d'|]; [|discriminate W]. rewrite (Code d' w eq_refl W). eexists. split; [reflexivity|].
    destruct (F d' eq_refl) as (_ & _ & Lw). split; [rewrite map_length; apply Lw; exact W|].
    intros i Hi. rewrite nth_error_map'. destruct (nth_error_lt_Some w i) as [c C]; [rewrite (Lw w W); exact Hi|].
    rewrite C. eexists. split; [reflexivity|]. left. exists d', w, c. split; [reflexivity|]. split; [exact W|]. split; [exact C|].
    destruct c as [c|]; cbn [option_map]; [|exact I]. rewrite andb_true_iff, !Qle_bool_iff. reflexivity.
  - assert (N : forall d', d = Some d' -> d_wawa d' = None) by (intros d' ->; exact W).
    destruct H as [(d' & w & -> & W')|(k & Hk & Fk)]; [congruence|].
    rewrite (Temp N).
    assert (Ft := first_true_spec (map (fun j => forallb (fun row => negb (is_masked (nth j row None))) tw) (seq 0 n))).
    destruct (first_true _) as [j|].
    + destruct Ft as [Fj Fb]. assert (Hj : j < n) by (apply nth_error_Some_lt in Fj; rewrite map_length, seq_length in Fj; exact Fj).
      rewrite nth_seq_map in Fj by exact Hj. assert (Fj' : full_gate tw j) by (apply (full_column nt n tw j St Hj); congruence).
      eexists. split; [reflexivity|]. split; [rewrite map_length; apply St|].
      intros i Hi. destruct (Fj' i) as [t P]; [rewrite (proj1 St); exact Hi|].
      assert (P' := P). unfold pixel in P'. destruct (nth_error tw i) as [row|] eqn:E; [|discriminate P'].
      rewrite nth_error_map', E. cbn [option_map]. rewrite (nth_error_nth _ _ None P').
      eexists. split; [reflexivity|]. right. split; [exact N|]. exists j, t. split; [exact Hj|]. split; [exact Fj'|].
      split; [|split; [exact P|]].
      * intros j' Hj' X. apply (full_column nt n tw j' St) in X; [|lia]. specialize (Fb j' Hj').
        rewrite nth_seq_map in Fb by lia. rewrite X in Fb. discriminate Fb.
      * cbn [option_map]. eexists. split; [reflexivity|]. rewrite qgt_iff. unfold T0. split; intros X; lra.
    + exfalso. specialize (Ft k). rewrite map_length, seq_length, nth_seq_map in Ft by exact Hk.
      specialize (Ft Hk). apply (full_column nt n tw k St Hk) in Fk. rewrite Fk in Ft. discriminate Ft.
Qed.

Lemma rain_exact nt n z v ldr sldr tw d k : sized nt n z -> sized nt n v ->
  (forall m, depol ldr sldr = Some m -> sized nt n m) -> sized nt n tw -> fits nt d ->
  lowest_gate n z k -> k + 3 < n ->
  ((exists d' w, d = Some d' /\ d_wawa d' = Some w) \/ exists k, k < n /\ full_gate tw k) ->
  exists out, find_profiles_with_rain n z v ldr sldr tw d = Ok out /\ length out = nt /\
    forall i, i < nt -> exists b l, nth_error out i = Some b /\ liquid_at n tw d i l /\
      (b = None <-> l = None) /\
      (b = Some true <-> l = Some true /\
         ((exists r p, measures d i r p /\ measured_rain r p) \/
          ((forall r p, ~ measures d i r p) /\ echo_of_rain z v (depol ldr sldr) (k + 3) i))).
Proof.
  intros Sz Sv Sl St F Lk Hk H. unfold find_profiles_with_rain.
  destruct (echo_ok nt n z v ldr sldr k Sz Sv Sl Lk Hk) as (echo & -> & Le & He). cbn [bind].
  rewrite (proj1 Sz). destruct (disdrometer_ok nt d F) as [Ld Hd].
  destruct (liquid_ok nt n tw d St F H) as (liquid & -> & Ll & Hl). cbn [bind].
  eexists. split; [reflexivity|]. split; [rewrite !map2_length, Le, Ld, Ll; lia|].
  intros i Hi. rewrite !nth_error_map2.
  destruct (He i Hi) as (e & -> & E). destruct (Hd i Hi) as (r & -> & R). destruct (Hl i Hi) as (l & -> & L).
  eexists. exists l. split; [reflexivity|]. split; [exact L|].
  destruct l as [l|]; cbn [option_map]; [|split; [split; reflexivity|split; [intros X; discriminate X|intros [X _]; discriminate X]]].
  split; [split; intros X; discriminate X|].
  destruct r as [r|].
  - destruct R as (rr & p & M & Mr). destruct (andb r l) eqn:A.
    + apply andb_true_iff in A as [-> ->]. split; [|reflexivity]. intros _. split; [reflexivity|]. left.
      exists rr, p. split; [exact M|apply Mr; reflexivity].
    + split; [intros X; discriminate X|]. intros [X Y]. injection X as ->. rewrite andb_true_r in A. subst r.
      exfalso. destruct Y as [(r' & p' & M' & Q)|[N _]]; [|exact (N _ _ M)].
      assert (r' = rr /\ p' = p) as [-> ->].
      { destruct M as (d1 & D1 & A1 & B1), M' as (d2 & D2 & A2 & B2). split; congruence. }
      apply Mr in Q. discriminate Q.
  - destruct (andb e l) eqn:A.
    + apply andb_true_iff in A as [-> ->]. split; [|reflexivity]. intros _. split; [reflexivity|]. right.
      split; [exact R|apply E; reflexivity].
    + split; [intros X; discriminate X|]. intros [X Y]. injection X as ->. rewrite andb_true_r in A. subst e.
      exfalso. destruct Y as [(r' & p' & M' & Q)|[_ Q]]; [exact (R _ _ M')|]. apply E in Q. discriminate Q.
Qed.
