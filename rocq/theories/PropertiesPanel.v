(** Properties C196 and C197: time axis, sources and hatched area of figures. *)
From Verif Require Import Base PanelModel PanelSpec.
From Coq Require Import String Ascii.
Open Scope string_scope.
Open Scope nat_scope.
Open Scope list_scope.
Local Notation length := List.length (only parsing).

Lemma among_iff : forall k l, among k l = true <-> In k l.
Proof.
  intros k l. unfold among. rewrite existsb_exists. split.
  - intros (x & I & E). apply String.eqb_eq in E. subst. exact I.
  - intros I. exists k. split; [exact I|apply String.eqb_refl].
Qed.
Lemma satellite_iff : forall ft names,
  (String.eqb ft "cpr-validation" && (among "echo_cpr" names || among "v_cpr" names)) ||
  (String.eqb ft "cpr-tc-validation" && among "target_classification_cpr" names) = true <-> satellite_times ft names.
Proof.
  intros ft names. unfold satellite_times. rewrite Bool.orb_true_iff, !Bool.andb_true_iff, Bool.orb_true_iff, !String.eqb_eq, !among_iff. reflexivity.
Qed.

(** ** C196: the time axis *)

(** Simulations are drawn along the track in kilometres. *)
Theorem C196_track : forall names file,
  match file "along_track_sat" with
  | None => get_time "cpr-simulation" names file = Raise KeyError
  | Some x => exists y, get_time "cpr-simulation" names file = Ok y /\ Forall2 (fun metres km => (km * 1000 == metres)%Q) x y
  end.
Proof.
  intros names file. unfold get_time. cbn [String.eqb]. change (String.eqb "cpr-simulation" "cpr-simulation") with true. cbv iota zeta.
  destruct (file "along_track_sat") as [x|]; [|reflexivity]. cbn [bind]. eexists. split; [reflexivity|].
  induction x as [|v x IH]; constructor; [|exact IH]. rewrite <- Qmult_assoc. change ((1 # 1000) * 1000)%Q with (1000 # 1000)%Q. setoid_replace (1000 # 1000)%Q with 1%Q by reflexivity. apply Qmult_1_r.
Qed.
Print Assumptions C196_track.

(** All others with the times of the satellite or of the site. *)
Theorem C196_times : forall file_type names file, file_type <> "cpr-simulation" -> exists k,
  (satellite_times file_type names /\ k = "time_cpr" \/ ~ satellite_times file_type names /\ k = "time") /\
  get_time file_type names file = match file k with Some x => Ok x | None => Raise KeyError end.
Proof.
  intros ft names file N. unfold get_time. apply String.eqb_neq in N. rewrite N. pose proof (satellite_iff ft names) as S.
  destruct (_ || _).
  - exists "time_cpr". split; [left; split; [apply S; reflexivity|reflexivity]|reflexivity].
  - exists "time". split; [right; split; [intros H; apply S in H; discriminate|reflexivity]|reflexivity].
Qed.
Print Assumptions C196_times.

Lemma steps_eq : forall r, r <> 0 -> (25 + r - 1) / r = S (24 / r).
Proof.
  intros r N. replace (25 + r - 1) with (24 + 1 * r) by lia. rewrite Nat.div_add by exact N. lia.
Qed.
Lemma clock_iff : forall h, h < 100 -> clock h (two_digits h ++ ":00")%string.
Proof.
  intros h H. exists (h / 10), (h mod 10), (digit (h / 10)), (digit (h mod 10)).
  assert (A : h / 10 < 10) by (apply Nat.div_lt_upper_bound; lia). assert (B : h mod 10 < 10) by (apply Nat.mod_upper_bound; lia).
  assert (D : forall n, n < 10 -> nth_error digit_chars n = Some (digit n)) by (intros n L; do 10 (destruct n as [|n]; [reflexivity|]); lia).
  split; [reflexivity|]. split; [apply D, A|]. split; [apply D, B|]. apply Nat.div_mod. lia.
Qed.

(** Every tick has a label: its hour, but nothing at the edges unless they are wanted. *)
Theorem C196_labels : forall resolution edges, resolution <> 0 ->
  length (tick_labels resolution edges) = length (ticks resolution) /\
  (forall h, In h (ticks resolution) <-> h <= 24 /\ exists i, h = i * resolution) /\
  forall i h, nth_error (ticks resolution) i = Some h -> exists t, nth_error (tick_labels resolution edges) i = Some t /\
    h = i * resolution /\
    ((edges = true \/ (h <> 0 /\ h <> 24)) -> clock h t) /\ (edges = false -> h = 0 \/ h = 24 -> t = "").
Proof.
  intros r e N. unfold tick_labels, label_hours, ticks. rewrite (steps_eq r N).
  assert (Top : forall i, i < S (24 / r) <-> i * r <= 24).
  { intros i. split; intros H.
    - transitivity (24 / r * r); [apply Nat.mul_le_mono_r; lia|]. rewrite Nat.mul_comm. apply Nat.mul_div_le, N.
    - apply Nat.lt_succ_r. apply Nat.div_le_lower_bound; [exact N|]. rewrite Nat.mul_comm. exact H. }
  split; [rewrite !map_length; reflexivity|]. split.
  - intros h. rewrite in_map_iff. split.
    + intros (i & <- & I). apply in_seq in I. split; [apply Top; lia|exists i; reflexivity].
    + intros (L & i & ->). exists i. split; [reflexivity|]. apply in_seq. apply Top in L. lia.
  - intros i h H. rewrite map_map, nth_error_map. rewrite nth_error_map in H. destruct (nth_error (seq 0 (S (24 / r))) i) as [j|] eqn:E; [|discriminate].
    assert (J : j < S (24 / r)) by (apply nth_error_In, in_seq in E; lia).
    assert (I : i < S (24 / r)) by (rewrite <- (seq_length (S (24 / r)) 0); apply nth_error_Some; congruence).
    assert (j = i). { rewrite (nth_error_nth' _ 0) in E by (rewrite seq_length; exact I). rewrite seq_nth in E by exact I. cbn [Nat.add] in E. congruence. }
    subst j. cbn [option_map] in *. assert (h = i * r) by congruence. subst h. clear H E. apply Top in J. set (h := i * r) in *. clearbody h.
    eexists. split; [reflexivity|]. split; [reflexivity|]. split.
    + intros C. assert (X : (if e then (0 <=? h) && (h <=? 24) else (0 <? h) && (h <? 24)) = true).
      { destruct e.
        - apply Bool.andb_true_iff. split; apply Nat.leb_le; lia.
        - destruct C as [C|C]; [discriminate|]. apply Bool.andb_true_iff. split; apply Nat.ltb_lt; lia. }
      rewrite X. apply clock_iff. lia.
    + intros -> [-> | ->]; reflexivity.
Qed.
Print Assumptions C196_labels.

(** Only figures for the validation of the satellite have no label. *)
Theorem C196_label : forall file_type,
  (xlabel file_type = None <-> file_type = "cpr-validation") /\
  (xlabel file_type = Some "Distance along track (km)" <-> file_type = "cpr-simulation") /\
  (file_type <> "cpr-validation" -> file_type <> "cpr-simulation" -> xlabel file_type = Some "Time (UTC)").
Proof.
  intros ft. unfold xlabel. destruct (String.eqb_spec ft "cpr-validation") as [->|N1]; [|destruct (String.eqb_spec ft "cpr-simulation") as [->|N2]].
  - split; [split; reflexivity|]. split; [split; discriminate|intros H; contradiction].
  - split; [split; discriminate|]. split; [split; reflexivity|intros _ H; contradiction].
  - split; [split; [discriminate|contradiction]|]. split; [split; [discriminate|contradiction]|reflexivity].
Qed.
Print Assumptions C196_label.

Example C196_nonvacuous : tick_labels 4 false = [""; "04:00"; "08:00"; "12:00"; "16:00"; "20:00"; ""] /\ ticks 4 = [0; 4; 8; 12; 16; 20; 24] /\
  tick_labels 5 true = ["00:00"; "05:00"; "10:00"; "15:00"; "20:00"] /\
  satellite_times "cpr-validation" ["v_cpr"] /\
  get_time "cpr-validation" ["v_cpr"] (fun k => if String.eqb k "time_cpr" then Some [1%Q] else None) = Ok [1%Q] /\
  get_time "cpr-validation" ["cloud_top_height"] (fun k => if String.eqb k "time_cpr" then Some [1%Q] else None) = Raise KeyError.
Proof. split; [reflexivity|]. split; [reflexivity|]. split; [reflexivity|]. split; [left; split; [reflexivity|right; left; reflexivity]|]. split; reflexivity. Qed.

(** ** C197: sources, hatched area and metadata *)

Lemma newline_iff : forall s, has_newline s = true <-> has_line_break s.
Proof.
  intros s. unfold has_line_break. induction s as [|c s IH]; cbn [has_newline].
  - split; [discriminate|]. intros (a & b & E). destruct a; discriminate.
  - rewrite Bool.orb_true_iff, Ascii.eqb_eq, IH. split.
    + intros [->|(a & b & ->)]; [exists "", s; reflexivity|exists (String c a), b; reflexivity].
    + intros (a & b & E). destruct a as [|x a]; cbn [append] in E; [left; congruence|right]. exists a, b. congruence.
Qed.
(** The source of the variable, otherwise that of the file; several of them have lines. *)
Theorem C197_source : forall variable file,
  (source_text variable file = None <-> (variable = None \/ variable = Some "") /\ file = None) /\
  forall t, source_text variable file = Some t -> exists s word, t = ("Data " ++ word ++ ":" ++ String (ascii_of_nat 10) s)%string /\
    (has_line_break s /\ word = "sources" \/ ~ has_line_break s /\ word = "source") /\
    ((variable = Some s /\ s <> "") \/ ((variable = None \/ variable = Some "") /\ file = Some s)).
Proof.
  intros v f. unfold source_text. set (src := match v with Some EmptyString => f | Some s => Some s | None => f end).
  assert (S : forall s, src = Some s <-> (v = Some s /\ s <> "") \/ ((v = None \/ v = Some "") /\ f = Some s)).
  { intros s. unfold src. destruct v as [[|c w]|].
    - split; [intros H; right; auto|intros [[H1 H2]|[_ H]]; [congruence|exact H]].
    - split; [intros H; left; split; [exact H|intros ->; discriminate]|intros [[H _]|[[H|H] _]]; [exact H|discriminate|discriminate]].
    - split; [intros H; right; auto|intros [[H _]|[_ H]]; [discriminate|exact H]]. }
  assert (Sn : src = None <-> (v = None \/ v = Some "") /\ f = None).
  { unfold src. destruct v as [[|c w]|]; split; [auto|intros [_ H]; exact H|discriminate|intros [[H|H] _]; discriminate|auto|intros [_ H]; exact H]. }
  clearbody src. split.
  - rewrite <- Sn. destruct src; cbn; split; congruence.
  - intros t H. destruct src as [s|]; [|discriminate]. cbn [option_map] in H. exists s, (if has_newline s then "sources" else "source"). split; [congruence|]. split.
    + pose proof (newline_iff s) as Nl. destruct (has_newline s); [left; split; [apply Nl; reflexivity|reflexivity]|right; split; [intros X; apply Nl in X; discriminate|reflexivity]].
    + apply S. reflexivity.
Qed.
Print Assumptions C197_source.

(** The figure is hatched from the last height up to its upper end. *)
Theorem C197_hatched : forall height max_y,
  (height = None -> out_of_range height max_y = Ok None) /\
  (height = Some [] <-> out_of_range height max_y = Raise IndexError) /\
  forall l top, height = Some (l ++ [top]) ->
    ((top < max_y)%Q -> out_of_range height max_y = Ok (Some (top, max_y))) /\ ((max_y <= top)%Q -> out_of_range height max_y = Ok None).
Proof.
  intros h m. split; [intros ->; reflexivity|]. split.
  - destruct h as [[|a l]|]; cbn; split; try congruence. destruct (Qle_bool m (last l a)); discriminate.
  - intros l top ->. assert (L : out_of_range (Some (l ++ [top])) m = if Qle_bool m top then Ok None else Ok (Some (top, m))).
    { destruct l as [|a l]; [reflexivity|]. cbn [app out_of_range]. rewrite last_last. reflexivity. }
    rewrite L. split; intros H.
    + destruct (Qle_bool m top) eqn:E; [|reflexivity]. apply Qle_bool_iff in E. exfalso. exact (Qlt_not_le _ _ H E).
    + apply Qle_bool_iff in H. rewrite H. reflexivity.
Qed.
Print Assumptions C197_hatched.

(** Metadata: those of the options, of the file type, the general ones, the default, in this
    order; without a label they get the units of the variable. *)
Theorem C197_meta : forall options tables fallbacks default file_type name units,
  exists m, (options = Some m \/ options = None /\
      ((exists t, tables (match file_type with Some t => t | None => "" end) = Some t /\ t name = Some m) \/
       (forall t, tables (match file_type with Some t => t | None => "" end) = Some t -> t name = None) /\
         (fallbacks name = Some m \/ fallbacks name = None /\ default = m))) /\
    let r := read_plot_meta options tables fallbacks default file_type name units in
    p_other r = p_other m /\ (p_clabel m = None -> p_clabel r = Some units) /\ (p_clabel m <> None -> p_clabel r = p_clabel m).
Proof.
  intros o tb fb d ft name u. unfold read_plot_meta.
  set (m := match o with Some m => m | None => _ end). exists m. split.
  - unfold m. destruct o as [x|]; [left; reflexivity|]. right. split; [reflexivity|]. cbv zeta.
    destruct (tb (match ft with Some t => t | None => "" end)) as [t|] eqn:T; [destruct (t name) as [x|] eqn:X|].
    + left. exists t. auto.
    + right. split; [intros t' H; congruence|]. destruct (fb name); auto.
    + right. split; [discriminate|]. destruct (fb name); auto.
  - clearbody m. cbv zeta. destruct (p_clabel m) eqn:E; cbn; split; auto; split; congruence.
Qed.
Print Assumptions C197_meta.

Example C197_nonvacuous : source_text (Some "") (Some "Mira") = Some ("Data source:" ++ String (ascii_of_nat 10) "Mira")%string /\
  out_of_range (Some [1%Q; 8%Q]) 12 = Ok (Some (8%Q, 12%Q)) /\ out_of_range (Some [1%Q; 13%Q]) 12 = Ok None /\
  read_plot_meta None (fun _ => None) (fun k => if String.eqb k "Z" then Some {| p_clabel := None; p_other := 3 |} else None) {| p_clabel := None; p_other := 0 |} None "Z" "dBZ"
    = {| p_clabel := Some "dBZ"; p_other := 3 |}.
Proof. repeat split. Qed.
