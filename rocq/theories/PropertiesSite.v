(** Properties C45, C46: epoch and site coordinates. *)
From Verif Require Import Base OutputModel OutputSpec SiteModel SiteSpec SiteProofs.
From Coq Require Import Lqa.
Local Open Scope string_scope.
Local Notation length := List.length (only parsing).

(** ** C45: epoch. *)
(** The date is the third word of the text, without commas and up to a "T": three
    integers separated by "-" or by ".". *)
Theorem C45_date_returned : forall now units ws w d y m e,
  words_of units ws -> nth_error ws 2 = Some w -> date_text w d -> date_fields d [y; m; e] ->
  looks_like_date now y m e -> calendar_day y m e -> get_epoch now units = Ok (y, m, e).
Proof. intros now units ws w d y m e W N D F. exact (proj1 (epoch_fields now units ws W w d N D y m e F)). Qed.
(** The fallback: no third word, no integers, or numbers out of range. *)
Theorem C45_fallback : forall now units ws,
  words_of units ws ->
  (length ws < 3)%nat \/
  (exists w d, nth_error ws 2 = Some w /\ date_text w d /\
     (~ (exists l, date_fields d l) \/
      exists y m e, date_fields d [y; m; e] /\ ~ looks_like_date now y m e)) ->
  get_epoch now units = Ok (2001, 1, 1)%Z.
Proof.
  intros now units ws W [S|(w & d & N & D & [X|(y & m & e & F & X)])].
  - exact (epoch_short now units ws W S).
  - exact (epoch_no_fields now units ws W w d N D X).
  - exact (proj2 (proj2 (epoch_fields now units ws W w d N D y m e F)) X).
Qed.
(** Exactly when it raises: the number of fields is not three, or the day does not
    exist in that month. *)
Theorem C45_raises_iff : forall now units ex,
  get_epoch now units = Raise ex <->
  ex = ValueError /\ exists ws w d l, words_of units ws /\ nth_error ws 2 = Some w /\
    date_text w d /\ date_fields d l /\
    (length l <> 3%nat \/
     exists y m e, l = [y; m; e] /\ looks_like_date now y m e /\ ~ calendar_day y m e).
Proof.
  intros now units ex. split.
  - intros H. pose proof (words_exist units) as W. destruct (nth_error (words units) 2) as [w|] eqn:N.
    + set (d := before_char "T" (remove_char "," w)).
      assert (D : date_text w d) by (apply date_text_iff; reflexivity).
      destruct (read_fields d) as [l|] eqn:R.
      * assert (F : date_fields d l) by (apply date_fields_iff; exact R).
        destruct (Nat.eq_dec (length l) 3) as [L|L].
        -- destruct l as [|y [|m [|e [|? ?]]]]; try discriminate.
           destruct (epoch_fields now units _ W w d N D y m e F) as (P1 & P2 & P3).
           assert (K : looks_like_date now y m e \/ ~ looks_like_date now y m e).
           { unfold looks_like_date. lia. }
           destruct K as [K|K]; [|rewrite (P3 K) in H; discriminate].
           assert (Cd : calendar_day y m e \/ ~ calendar_day y m e).
           { destruct (e <=? month_days y m)%Z eqn:Z.
             - left. apply (month_days_iff y m e); [destruct K; lia..|exact Z].
             - right. intros X. apply (month_days_iff y m e) in X; [congruence|destruct K; lia..]. }
           destruct Cd as [Cd|Cd]; [rewrite (P1 K Cd) in H; discriminate|].
           rewrite (P2 K Cd) in H. injection H as <-. split; [reflexivity|].
           exists (words units), w, d, [y; m; e]. repeat (split; [assumption|]).
           right. exists y, m, e. auto.
        -- rewrite (epoch_other_count now units _ W w d N D l F L) in H. injection H as <-.
           split; [reflexivity|]. exists (words units), w, d, l. repeat (split; [assumption|]). auto.
      * rewrite (epoch_no_fields now units _ W w d N D) in H; [discriminate|].
        intros (l & F). apply date_fields_iff in F. congruence.
    + rewrite (epoch_short now units _ W) in H; [discriminate|].
      apply nth_error_None in N. lia.
  - intros (-> & ws & w & d & l & W & N & D & F & [L|(y & m & e & -> & K & Cd)]).
    + exact (epoch_other_count now units ws W w d N D l F L).
    + exact (proj1 (proj2 (epoch_fields now units ws W w d N D y m e F)) K Cd).
Qed.
Theorem C45_never_raises_refuted : exists now units, get_epoch now units = Raise ValueError.
Proof. exists 2026%Z, "hours since 2021-05". reflexivity. Qed.
Theorem C45_impossible_day_refuted : exists now units ws w d y m e,
  words_of units ws /\ nth_error ws 2 = Some w /\ date_text w d /\ date_fields d [y; m; e] /\
  looks_like_date now y m e /\ get_epoch now units = Raise ValueError.
Proof.
  exists 2026%Z, "days since 2021-02-30T00:00:00", (words "days since 2021-02-30T00:00:00"),
    "2021-02-30T00:00:00", "2021-02-30", 2021%Z, 2%Z, 30%Z.
  split; [apply words_exist|]. split; [reflexivity|]. split; [apply date_text_iff; reflexivity|].
  split; [apply date_fields_iff; reflexivity|]. split; [unfold looks_like_date; lia|reflexivity].
Qed.
Print Assumptions C45_date_returned.
Print Assumptions C45_fallback.
Print Assumptions C45_raises_iff.
Print Assumptions C45_never_raises_refuted.
Print Assumptions C45_impossible_day_refuted.
Example C45_nonvacuous :
  get_epoch 2026 "seconds since 2024-02-29T12:00:00, UTC" = Ok (2024, 2, 29)%Z /\
  get_epoch 2026 "hours since 1.5.2021" = Ok (2001, 1, 1)%Z /\
  words_of "seconds since 2024.2.29" ["seconds"; "since"; "2024.2.29"] /\
  date_text "2024.2.29" "2024.2.29" /\ date_fields "2024.2.29" [2024; 2; 29]%Z /\
  calendar_day 2024 2 29.
Proof.
  split; [reflexivity|]. split; [reflexivity|]. split; [exact (words_exist "seconds since 2024.2.29")|].
  split; [apply date_text_iff; reflexivity|]. split; [apply date_fields_iff; reflexivity|].
  apply month_days_iff; [lia|lia|reflexivity].
Qed.

(** ** C46: site coordinates. *)
(** The source of every stored coordinate is the preferred one, and what is stored
    are its values or their mean.  Missing: longitudes above 180 degrees and the
    sign of a global attribute, see below. *)
Theorem C46_preference_partial : forall cosdeg gps site_meta file data out,
  add_site_geolocation cosdeg gps site_meta file data = Ok out ->
  forall k, match out k with
            | Some (c, s) => exists l, preferred attribute_reading gps site_meta file data k l s /\
                has_value l /\ stores c l
            | None => ~ exists l s, preferred attribute_reading gps site_meta file data k l s
            end.
Proof. exact geolocation_spec. Qed.
(** The preferred source and values are unique. *)
Theorem C46_preference_unique : forall gps site_meta file data k l s l' s',
  preferred attribute_reading gps site_meta file data k l s ->
  preferred attribute_reading gps site_meta file data k l' s' ->
  s = s' /\ Forall2 (fun x y => match x, y with
                                | Some p, Some q => (p == q)%Q | None, None => True | _, _ => False
                                end) l l'.
Proof. exact pref_unique. Qed.
(** A site that does not move gets its mean position, a moving one all positions. *)
Theorem C46_stationary : forall cosdeg gps site_meta file data out ca sa co so,
  add_site_geolocation cosdeg gps site_meta file data = Ok out ->
  out Lat = Some (ca, sa) -> out Lon = Some (co, so) ->
  exists la lo mn mx, preferred attribute_reading gps site_meta file data Lat la sa /\
    preferred attribute_reading gps site_meta file data Lon lo so /\ extremes la mn mx /\
    (within la (1 # 100) /\ within lo ((1 # 100) / cosdeg ((mn + mx) / 2)) ->
     exists m m', ca = CFloat m /\ co = CFloat m' /\ mean_of la m /\ mean_of lo m')%Q /\
    (~ (within la (1 # 100) /\ within lo ((1 # 100) / cosdeg ((mn + mx) / 2))) ->
     ca = CArray la /\ co = CArray lo)%Q.
Proof. exact geolocation_still. Qed.
Theorem C46_altitude : forall cosdeg gps site_meta file data out c s,
  add_site_geolocation cosdeg gps site_meta file data = Ok out -> out Alt = Some (c, s) ->
  exists l, preferred attribute_reading gps site_meta file data Alt l s /\
    ((forall p q, In (Some p) l -> In (Some q) l -> (p - q < 100)%Q) ->
     exists m, c = CFloat m /\ mean_of l m) /\
    ((exists p q, In (Some p) l /\ In (Some q) l /\ (100 <= p - q)%Q) -> c = CArray l).
Proof. exact geolocation_altitude. Qed.
(** It fails exactly if a global attribute has to be used and has no number. *)
Theorem C46_raises_iff : forall cosdeg gps site_meta file data,
  (exists e, add_site_geolocation cosdeg gps site_meta file data = Raise e) <->
  exists k f a, ~ (exists l, gps_reading gps file data k l) /\ site_meta k = None /\
    file = Some f /\ (forall l, rf_var f k = Some l -> ~ has_value l) /\
    rf_attr f k = Some a /\ a <> "Unknown" /\ forall r, ~ attribute_reading a r.
Proof.
  intros c gps sm file data. split.
  - intros (e & H). destruct (geolocation_raises c gps sm file data e H) as (_ & k & U1 & U2 & f & a & U).
    exists k, f, a. auto.
  - intros (k & f & a & U1 & U2 & U).
    destruct (add_site_geolocation c gps sm file data) as [out|e] eqn:E; [|eauto]. exfalso.
    assert (U' : unreadable gps sm file data k) by (split; [exact U1|split; [exact U2|eauto]]).
    apply find_coord_raises in U'. destruct U' as (e & R). unfold add_site_geolocation in E.
    destruct k; rewrite R in E; cbn [bind] in E.
    + discriminate.
    + destruct (find_coord gps sm file data Lat); discriminate.
    + destruct (find_coord gps sm file data Lat); [|discriminate].
      destruct (find_coord gps sm file data Lon); discriminate.
Qed.
Definition ex_cos (q : Q) : Q := 1%Q.
Definition no_data (k : coord_key) : option (list (masked Q)) := None.
Theorem C46_longitude_refuted : exists gps site_meta file data out q s,
  add_site_geolocation ex_cos gps site_meta file data = Ok out /\
  out Lon = Some (CFloat q, s) /\ (180 < q)%Q.
Proof.
  exists false, (fun k => Some (match k with Lat => 60 | Lon => 200 | Alt => 5 end)%Q), None, no_data.
  eexists. do 2 eexists. split; [reflexivity|]. split; reflexivity.
Qed.
Theorem C46_sign_refuted : exists gps site_meta file data out f q s,
  file = Some f /\ rf_attr f Lon = Some "-70.5" /\
  add_site_geolocation ex_cos gps site_meta file data = Ok out /\
  out Lon = Some (CFloat q, s) /\ (q == 705 # 10)%Q.
Proof.
  set (f := {| rf_var := no_data; rf_attr := fun k => match k with Lon => Some "-70.5" | Lat => Some "53 N" | Alt => None end |}).
  exists false, (fun _ => None), (Some f), no_data. eexists. exists f. do 2 eexists.
  split; [reflexivity|]. split; [reflexivity|]. split; [reflexivity|]. split; reflexivity.
Qed.
(** How a global attribute is read: everything but digits and points is dropped,
    so no reading is negative. *)
Theorem C46_attribute_never_negative : forall a q, attribute_reading a q -> (0 <= q)%Q.
Proof.
  assert (P : forall s n, plain s n -> (0 <= n)%Z).
  { intros s n H. induction H as [|s z c d H IH Hd]; [lia|]. apply digit_range in Hd. lia. }
  intros a q (_ & t & _ & [(_ & n & H & E)|(x & y & n & m & _ & _ & Hn & Hm & E)]).
  - rewrite E. change 0%Q with (inject_Z 0). rewrite <- Zle_Qle. exact (P _ _ H).
  - pose proof (pow10_pos (String.length y)) as T. apply P in Hn, Hm.
    destruct (Qlt_le_dec q 0) as [L|L]; [|exact L]. exfalso.
    assert (X : (0 <= q * inject_Z (10 ^ Z.of_nat (String.length y)))%Q).
    { rewrite E. change 0%Q with (inject_Z 0). rewrite <- Zle_Qle. nia. }
    assert (Y : (0 < inject_Z (10 ^ Z.of_nat (String.length y)))%Q).
    { change 0%Q with (inject_Z 0). rewrite <- Zlt_Qlt. exact T. }
    nra.
Qed.
Print Assumptions C46_preference_partial.
Print Assumptions C46_preference_unique.
Print Assumptions C46_stationary.
Print Assumptions C46_altitude.
Print Assumptions C46_raises_iff.
Print Assumptions C46_longitude_refuted.
Print Assumptions C46_sign_refuted.
Print Assumptions C46_attribute_never_negative.
Example C46_nonvacuous :
  exists out, add_site_geolocation ex_cos true (fun k => match k with Lat => None | _ => Some 7%Q end)
    (Some {| rf_var := fun k => match k with Lat => Some [Some 0%Q; None; Some 50%Q; Some 52%Q]
                                           | Lon => Some [None; Some 0%Q] | Alt => Some [Some 3%Q] end;
             rf_attr := fun _ => None |}) no_data = Ok out /\
    out Lat = Some (CArray [None; None; Some 50%Q; Some 52%Q], GPS) /\
    out Lon = Some (CArray [Some 7%Q], SiteMeta) /\
    exists q, out Alt = Some (CFloat q, SiteMeta) /\ (q == 7)%Q.
Proof. eexists. split; [reflexivity|]. split; [reflexivity|]. split; [reflexivity|]. eexists. split; reflexivity. Qed.
