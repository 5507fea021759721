(** Properties C09-C12 and C29: time screening, sorting and alignment. *)
From Verif Require Import Base ArrayModel ArrayProofs TimeModel TimeSpec TimeProofs.
From Coq Require Import Lqa String.
Open Scope nat_scope.

(** ** C09: find_valid_time_indices.  [idx] is any result of [np.argsort(time)]. *)
Theorem C09_wanted_day_once_in_order : forall idx time epoch day,
  is_argsort time idx -> (exists t, In t time /\ on_date epoch day t) ->
  exists ind, find_valid_time_indices idx time epoch day = Ok ind /\
    Forall (fun i => i < List.length time) ind /\ ind <> [] /\
    (exists times, rows_of ind time times /\ strictly_increasing times) /\
    (forall i, In i ind -> exists t, nth_error time i = Some t /\ on_date epoch day t) /\
    (forall t, In t time -> on_date epoch day t ->
       exists k s, In k ind /\ nth_error time k = Some s /\ (s == t)%Q).
Proof.
  intros idx time epoch day Ha Hex.
  destruct (find_valid_ok idx time epoch day Ha Hex) as (ind & E & Hb & Hne & Hs & Hd & Hc).
  exists ind. split; [exact E|]. split; [exact Hb|]. split; [exact Hne|]. split; [|auto].
  destruct (gather_rows_of time ind Hb) as (times & _ & Hr). exists times. split; [exact Hr|].
  eapply rows_of_sorted; eauto.
Qed.
Theorem C09_error_exactly_without_timestamps : forall idx time epoch day, is_argsort time idx ->
  (find_valid_time_indices idx time epoch day = Raise ValidTimeStampError <->
   ~ exists t, In t time /\ on_date epoch day t).
Proof.
  intros idx time epoch day Ha. split.
  - intros H Hex. destruct (find_valid_ok idx time epoch day Ha Hex) as (ind & E & _). congruence.
  - apply find_valid_error. exact Ha.
Qed.
(** The date is the exact one for every timestamp from the start of the day up to
    one microsecond before its end. *)
Theorem C09_date_is_exact : forall epoch day t,
  (inject_Z (day * 86400000000 - epoch) <= t * 1000000)%Q ->
  (t * 1000000 <= inject_Z ((day + 1) * 86400000000 - epoch - 1))%Q ->
  on_date epoch day t /\ forall day', on_date epoch day' t -> day' = day.
Proof.
  intros epoch day t H1 H2. pose proof (on_date_exact epoch day t H1 H2) as H. split; [exact H|].
  intros day' H'. apply day_of_iff in H, H'. congruence.
Qed.
Print Assumptions C09_wanted_day_once_in_order.
Print Assumptions C09_error_exactly_without_timestamps.
Print Assumptions C09_date_is_exact.
(** The docstring example: 1e6 s is on another day. *)
Example C09_nonvacuous :
  find_valid_time_indices (argsort [5; 1; 1000000; 3; 1]%Q) [5; 1; 1000000; 3; 1]%Q 0 0 = Ok [1; 3; 0] /\
  is_argsort [5; 1; 1000000; 3; 1]%Q (argsort [5; 1; 1000000; 3; 1]%Q) /\
  find_valid_time_indices (argsort [5]%Q) [5]%Q 0 1 = Raise ValidTimeStampError.
Proof. split; [vm_compute; reflexivity|]. split; [apply argsort_is_argsort|vm_compute; reflexivity]. Qed.

(** ** C10: screen_by_time keeps everything aligned. *)
Theorem C10_aligned : forall (P : Type) idx time (data : dict P) epoch day,
  is_argsort time idx -> (exists t, In t time /\ on_date epoch day t) ->
  (forall k len, In (k, VList len) data -> len <= 1) ->
  exists ind time' data', screen_by_time idx time data epoch day = Ok (time', data') /\
    rows_of ind time time' /\ strictly_increasing time' /\
    (forall t, In t time' -> on_date epoch day t) /\
    (forall t, In t time -> on_date epoch day t -> exists s, In s time' /\ (s == t)%Q) /\
    dict_follows 3 (List.length time) ind data data'.
Proof. intros P idx time data epoch day. apply screen_by_time_ok. Qed.
(** A list of more than one element is rejected. *)
Theorem C10_list_rejected : forall (P : Type) idx time (data : dict P) epoch day k len,
  is_argsort time idx -> (exists t, In t time /\ on_date epoch day t) ->
  In (k, VList len) data -> 1 < len ->
  screen_by_time idx time data epoch day = Raise ValueError.
Proof. exact @screen_by_time_list. Qed.
(** "Other arrays are unchanged" fails for an array along another dimension that
    happens to have as many entries as there are timestamps: its entries are
    selected and reordered like a time-dependent array. *)
Theorem C10_coincident_length_refuted : exists idx time (data : dict Q) time' data',
  is_argsort time idx /\
  screen_by_time idx time data 0 0 = Ok (time', data') /\
  data = [("range"%string, VArr 1 [100; 200; 300]%Q)] /\
  data' = [("range"%string, VArr 1 [300; 100]%Q)].
Proof.
  exists (argsort [20; 90000; 10]%Q), [20; 90000; 10]%Q, [("range"%string, VArr 1 [100; 200; 300]%Q)].
  do 2 eexists. split; [apply argsort_is_argsort|]. split; [vm_compute; reflexivity|]. split; reflexivity.
Qed.
Print Assumptions C10_aligned.
Print Assumptions C10_list_rejected.
Print Assumptions C10_coincident_length_refuted.
Example C10_nonvacuous :
  screen_by_time (argsort [20; 90000; 10]%Q) [20; 90000; 10]%Q
    [("beta"%string, VArr 2 [[1]; [2]; [3]]); ("range"%string, VArr 1 [[7]; [8]]);
     ("altitude"%string, VScalar [5])] 0 0
  = Ok ([10; 20]%Q, [("beta"%string, VArr 2 [[3]; [1]]); ("range"%string, VArr 1 [[7]; [8]]);
     ("altitude"%string, VScalar [5])]).
Proof. vm_compute. reflexivity. Qed.

(** ** C11: instrument records. *)
Theorem C11_duplicates_removed : forall (P : Type) (r : instrument P), i_time r <> [] ->
  exists ind r', remove_duplicate_timestamps r = Ok r' /\
    rows_of ind (i_time r) (i_time r') /\ strictly_increasing (i_time r') /\
    (forall i, In i ind <-> first_occurrence (i_time r) i) /\
    (forall t, In t (i_time r') -> In t (i_time r)) /\
    (forall t, In t (i_time r) -> exists s, In s (i_time r') /\ (s == t)%Q) /\
    dict_follows 3 (List.length (i_time r)) ind (i_data r) (i_data r').
Proof. exact @remove_duplicates_ok. Qed.
Theorem C11_sorted : forall (P : Type) (r : instrument P) ind, i_time r <> [] -> is_argsort (i_time r) ind ->
  exists r', sort_timestamps ind r = Ok r' /\
    rows_of ind (i_time r) (i_time r') /\ StronglySorted Qle (i_time r') /\
    Permutation (i_time r') (i_time r) /\
    dict_follows 3 (List.length (i_time r)) ind (i_data r) (i_data r').
Proof. exact @sort_timestamps_ok. Qed.
(** An empty record is rejected by both. *)
Theorem C11_empty_rejected : forall (P : Type) (data : dict P),
  remove_duplicate_timestamps (Build_instrument [] data) = Raise ValidTimeStampError /\
  sort_timestamps [] (Build_instrument [] data) = Raise ValidTimeStampError.
Proof. intros P data. split; reflexivity. Qed.
Print Assumptions C11_duplicates_removed.
Print Assumptions C11_sorted.
Print Assumptions C11_empty_rejected.
Example C11_nonvacuous :
  remove_duplicate_timestamps
    (Build_instrument [3; 1; 3; 2; 1]%Q [("Z"%string, VArr 2 [10; 11; 12; 13; 14])])
  = Ok (Build_instrument [1; 2; 3]%Q [("Z"%string, VArr 2 [11; 13; 10])]).
Proof. vm_compute. reflexivity. Qed.

(** ** C12: seconds to hours. *)
Theorem C12_range : forall time out, seconds2hours time = Ok out ->
  List.length out = List.length time /\ Forall (fun h => 0 <= h /\ h <= 24)%Q out.
Proof. exact seconds2hours_range. Qed.
Theorem C12_order_preserved : forall time d out,
  seconds2hours time = Ok out -> strictly_increasing time ->
  Forall (fun t => inject_Z d * 86400 <= t /\ t <= inject_Z d * 86400 + 86400)%Q time ->
  strictly_increasing out.
Proof. exact seconds2hours_increasing. Qed.
(** With at least two timestamps the result is the exact number of hours since the
    start of the day, a final midnight being 24. *)
Theorem C12_exact_hours : forall time d out,
  seconds2hours time = Ok out -> strictly_increasing time ->
  Forall (fun t => inject_Z d * 86400 <= t /\ t <= inject_Z d * 86400 + 86400)%Q time ->
  2 <= List.length time ->
  forall i t, nth_error time i = Some t ->
    exists h, nth_error out i = Some h /\ (h == (t - inject_Z d * 86400) / 3600)%Q.
Proof. exact seconds2hours_value. Qed.
Theorem C12_total : forall time, time <> [] -> exists out, seconds2hours time = Ok out.
Proof. intros [|t r] H; [congruence|]. eexists. reflexivity. Qed.
(** A record with a single timestamp at the start of its day is moved to its end. *)
Example C12_single_midnight_becomes_24 : exists time out, strictly_increasing time /\
  Forall (fun t => 0 <= t /\ t < 86400)%Q time /\
  seconds2hours time = Ok out /\ out = [24%Q].
Proof.
  exists [0%Q], [24%Q]. split; [repeat constructor|]. split; [repeat constructor; discriminate|].
  split; [vm_compute; reflexivity|reflexivity].
Qed.
Print Assumptions C12_range.
Print Assumptions C12_order_preserved.
Print Assumptions C12_exact_hours.
Print Assumptions C12_total.
Example C12_nonvacuous :
  (match seconds2hours [86400; 129600; 172800]%Q with Ok l => map Qred l | Raise _ => [] end) = [0; 12; 24]%Q.
Proof. vm_compute. reflexivity. Qed.

(** ** C29: categorize time steps. *)
Theorem C29_valid_points : forall (P : Type) time radar_gap lidar_gap model_gap (data : dict P),
  strictly_increasing time ->
  exists ind,
    StronglySorted lt ind /\
    (forall i, In i ind <-> i < List.length time /\ ~ In i radar_gap /\ ~ In i lidar_gap /\ ~ In i model_gap) /\
    (List.length ind < 2 ->
       screen_categorize time radar_gap lidar_gap model_gap data = Raise ValidTimeStampError) /\
    (2 <= List.length ind -> exists time' data',
       screen_categorize time radar_gap lidar_gap model_gap data = Ok (time', data') /\
       rows_of ind time time' /\ strictly_increasing time' /\
       dict_follows 2 (List.length time) ind data data').
Proof. exact @screen_categorize_spec. Qed.
Print Assumptions C29_valid_points.
Example C29_nonvacuous :
  screen_categorize [1; 2; 3; 4; 5]%Q [1] [3] [7; 1] [("Z"%string, VArr 2 [10; 11; 12; 13; 14])]
  = Ok ([1; 3; 5]%Q, [("Z"%string, VArr 2 [10; 12; 14])]) /\
  screen_categorize [1; 2]%Q [1] [] [] [("Z"%string, VArr 2 [10; 11])] = Raise ValidTimeStampError.
Proof. vm_compute. auto. Qed.
