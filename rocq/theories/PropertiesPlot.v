(** C137-C142: the numbers behind the figures. *)
From Coq Require Import List Bool Arith ZArith QArith Qabs Sorted String Lia Lqa.
From Verif Require Import Base ArraySpec DropletSpec PlotModel PlotSpec PlotProofs.
Import ListNotations.
Open Scope string_scope. Open Scope nat_scope. Open Scope list_scope.
Local Notation length := List.length (only parsing).

(* ------------------------------------------------------------------ *)
(** ** C137: gaps in the figures *)

(** Empty files and times outside the axis are refused. *)
Theorem C137_errors : forall ft day_end time data,
  (time = [] -> mark_gaps ft 0 day_end time data = Raise IndexError) /\
  (forall t0 r, time = t0 :: r -> (t0 < 0 \/ day_end < last time 0)%Q ->
    mark_gaps ft 0 day_end time data = Raise ValueError).
Proof. exact mark_gaps_errors. Qed.
Print Assumptions C137_errors.

(** Two blank samples are inserted in every interval longer than the allowed gap of
    the file type, and in no other, also before the first and after the last sample. *)
Theorem C137_marked : forall ft day_end time data, ft <> "model" -> time <> [] -> length time = length data ->
  (0 <= hd 0 time)%Q -> (last time 0 <= day_end)%Q ->
  exists out, mark_gaps ft 0 day_end time data = Ok (Some (map fst out, map snd out)) /\
    marked (hours (allowed_minutes ft)) day_end (repeat None (length (hd [] data))) (combine time data) out.
Proof. exact mark_gaps_spec. Qed.
Print Assumptions C137_marked.

(** For ascending times the times with the gaps are ascending and on the axis;
    every sample is kept in order, and whatever was added is blank and inside a gap. *)
Theorem C137_kept : forall ft day_end time data, ft <> "model" -> time <> [] -> length time = length data ->
  ascending time -> (forall t, In t time -> 0 <= t <= day_end)%Q ->
  exists out, mark_gaps ft 0 day_end time data = Ok (Some (map fst out, map snd out)) /\
    ascending (map fst out) /\ Forall (fun t => 0 <= t <= day_end)%Q (map fst out) /\
    subsequence (combine time data) out /\
    (forall p, In p out -> In p (combine time data) \/
      (Forall (fun v => v = None) (snd p) /\ exists a b,
         In (a, b) (gaps_of (hours (allowed_minutes ft)) (0%Q :: time ++ [day_end])) /\ (a < fst p < b)%Q)).
Proof.
  intros ft day_end time data Hm Hne Hlen Ha Hr.
  assert (H0 : (0 <= hd 0 time)%Q) by (destruct time; [congruence|apply Hr; left; reflexivity]).
  assert (H1 : (last time 0 <= day_end)%Q).
  { apply Hr. rewrite in_rev. assert (H := last_hd_error time 0%Q Hne). destruct (rev time); [discriminate|]. injection H as ->. left; reflexivity. }
  destruct (mark_gaps_spec ft day_end time data Hm Hne Hlen H0 H1) as (out & Ho & Hmk). exists out. split; [exact Ho|].
  assert (Hf := fst_combine time data Hlen).
  assert (Hg : (2 * tick < hours (allowed_minutes ft))%Q).
  { unfold allowed_minutes. repeat match goal with |- context [String.eqb ?a ?b] => destruct (String.eqb a b) end; reflexivity. }
  destruct (@marked_ascending profile _ _ Hg _ _ _ Hmk) as [A1 A2]; [rewrite Hf; exact Ha|rewrite Hf; exact Hr|].
  destruct (@marked_kept profile _ _ Hg _ _ _ Hmk) as [K1 K2]. rewrite Hf in K2.
  split; [exact A1|]. split; [exact A2|]. split; [exact K1|]. intros p Hp.
  destruct (K2 p Hp) as [H|[H1' H2]]; [left; exact H|right]. split; [|exact H2]. rewrite H1'.
  apply Forall_forall. intros v Hv. apply repeat_spec in Hv. exact Hv.
Qed.
Print Assumptions C137_kept.

(** The hatched periods are exactly the gaps, 0.001 hours short at either end. *)
Theorem C137_hatched : forall ft day_end time data new_time new_data, ft <> "model" -> time <> [] -> length time = length data ->
  ascending time -> (forall t, In t time -> 0 <= t <= day_end)%Q ->
  mark_gaps ft 0 day_end time data = Ok (Some (new_time, new_data)) ->
  gap_batches new_time time = hatched (hours (allowed_minutes ft)) day_end time.
Proof.
  intros ft day_end time data nt nd Hm Hne Hlen Ha Hr He.
  assert (H0 : (0 <= hd 0 time)%Q) by (destruct time; [congruence|apply Hr; left; reflexivity]).
  assert (H1 : (last time 0 <= day_end)%Q).
  { apply Hr. rewrite in_rev. assert (H := last_hd_error time 0%Q Hne). destruct (rev time); [discriminate|]. injection H as ->. left; reflexivity. }
  destruct (mark_gaps_spec ft day_end time data Hm Hne Hlen H0 H1) as (out & Ho & Hmk).
  assert (Hf := fst_combine time data Hlen).
  assert (Hg : (2 * tick < hours (allowed_minutes ft))%Q).
  { unfold allowed_minutes. repeat match goal with |- context [String.eqb ?a ?b] => destruct (String.eqb a b) end; reflexivity. }
  assert (Hh := @marked_hatched profile _ _ Hg _ _ _ Hmk). rewrite Hf in Hh. specialize (Hh Ha Hr).
  assert (nt = map fst out) by congruence. subst nt. exact Hh.
Qed.
Print Assumptions C137_hatched.

(** A radar that stopped for an hour. *)
Definition ex_time : list Q := [0; 1 # 20; 21 # 20]%Q.
Definition ex_data : list profile := [[Some 1%Q]; [None]; [Some 2%Q]].
Example C137_nonvacuous :
  mark_gaps "radar" 0 24 ex_time ex_data
  = Ok (Some ([0; 1 # 20; (1 # 20) + tick; (21 # 20) - tick; 21 # 20; (21 # 20) + tick; 24 - tick]%Q,
              [[Some 1%Q]; [None]; [None]; [None]; [Some 2%Q]; [None]; [None]])) /\
  hatched (hours (allowed_minutes "radar")) 24 ex_time
  = [[(1 # 20) + tick; (21 # 20) - tick]; [(21 # 20) + tick; 24 - tick]]%Q.
Proof. split; vm_compute; reflexivity. Qed.

(* ------------------------------------------------------------------ *)
(** ** C138: gaps of model files *)

(** The longest allowed gap of a model is its shortest interval, rounded to minutes;
    a single profile is an error. *)
Theorem C138_gap : forall time,
  (2 <= length time -> exists a b m, In (a, b) (neighbours time) /\
    (forall a' b', In (a', b') (neighbours time) -> (b - a <= b' - a')%Q) /\
    get_max_gap_in_minutes "model" time = Ok m /\
    ((2 * Qabs (60 * (b - a) - inject_Z m) < 1)%Q \/
     ((2 * Qabs (60 * (b - a) - inject_Z m) == 1)%Q /\ Z.even m = true))) /\
  (length time < 2 -> get_max_gap_in_minutes "model" time = Raise ValueError).
Proof.
  intros time. split; [apply model_gap_spec|]. destruct time as [|a [|b r]]; intros H; [reflexivity|reflexivity|].
  cbn [length] in H. lia.
Qed.
Print Assumptions C138_gap.

(** Model profiles without any data are left out. *)
Theorem C138_screen : forall time data, length time = length data ->
  ((forall row, In row data -> ~ In None row) ->
     screen_completely_masked_profiles time data = Ok (Some (time, data))) /\
  ((exists row, In row data /\ In None row) ->
   (forall row, In row data -> ~ has_data row) ->
     screen_completely_masked_profiles time data = Ok None) /\
  ((exists row, In row data /\ In None row) ->
   (exists row, In row data /\ has_data row) ->
   exists idx, good_profiles data idx /\ idx <> [] /\
     screen_completely_masked_profiles time data =
       Ok (Some (map (fun i => nth i time 0%Q) (shown (length time) idx),
                 map (fun i => nth i data []) (shown (length time) idx)))).
Proof. exact screen_spec. Qed.
Print Assumptions C138_screen.

(** The gaps of a model are marked among the profiles shown. *)
Theorem C138_marked : forall day_end time data t d m, time <> [] ->
  (0 <= hd 0 time)%Q -> (last time 0 <= day_end)%Q ->
  get_max_gap_in_minutes "model" time = Ok m ->
  screen_completely_masked_profiles time data = Ok (Some (t, d)) ->
  t <> [] -> length t = length d ->
  exists out, mark_gaps "model" 0 day_end time data = Ok (Some (map fst out, map snd out)) /\
    marked (hours m) day_end (repeat None (length (hd [] d))) (combine t d) out.
Proof. exact mark_model_spec. Qed.
Print Assumptions C138_marked.

(** No gap is marked between the profiles of a complete model with a regular step of
    whole minutes. *)
Theorem C138_regular : forall day_end n time data,
  (1 <= n)%Z -> 2 <= length time -> length time = length data ->
  (0 <= hd 0 time)%Q -> (last time 0 <= day_end)%Q ->
  regular (inject_Z n / 60) time -> (forall row, In row data -> ~ In None row) ->
  exists lead trail, mark_gaps "model" 0 day_end time data
    = Ok (Some (map fst lead ++ time ++ map fst trail, map snd lead ++ data ++ map snd trail)) /\
    Forall (fun p => forall v, In v (snd p) -> v = None) (lead ++ trail).
Proof. exact regular_spec. Qed.
Print Assumptions C138_regular.

(** With a regular step of 20.4 minutes every interval of a complete model is
    marked as a gap, since the step is rounded down. *)
Theorem C138_regular_refuted : exists step time data new_time new_data,
  regular step time /\ ascending time /\ length time = length data /\
  (forall row, In row data -> ~ In None row) /\
  mark_gaps "model" 0 24 time data = Ok (Some (new_time, new_data)) /\
  (forall a b, In (a, b) (neighbours time) -> In [(a + tick)%Q; (b - tick)%Q] (gap_batches new_time time)) /\
  neighbours time <> [].
Proof.
  exists (34 # 100)%Q, [0; 34 # 100; 68 # 100]%Q, [[Some 1%Q]; [Some 1%Q]; [Some 1%Q]].
  do 2 eexists. split; [repeat constructor; reflexivity|]. split; [repeat constructor; reflexivity|].
  split; [reflexivity|]. split.
  { intros row [<-|[<-|[<-|[]]]] [H|[]]; discriminate. }
  split; [vm_compute; reflexivity|]. split; [|discriminate].
  intros a b [H|[H|[]]]; assert (E1 := f_equal fst H); assert (E2 := f_equal snd H); cbn [fst snd] in E1, E2; subst a b;
    vm_compute; auto.
Qed.
Print Assumptions C138_regular_refuted.

(** As soon as one pixel of the model is masked the last profile appears twice at
    the same time. *)
Theorem C138_last_refuted : exists time data new_time new_data t row,
  ascending time /\ length time = length data /\
  mark_gaps "model" 0 24 time data = Ok (Some (new_time, new_data)) /\
  ~ ascending new_time /\
  exists i, nth_error new_time i = Some t /\ nth_error new_time (S i) = Some t /\
            nth_error new_data i = Some row /\ nth_error new_data (S i) = Some row /\ has_data row.
Proof.
  exists [0; 1; 2]%Q, [[Some 1%Q; None]; [Some 1%Q; Some 1%Q]; [Some 1%Q; Some 1%Q]].
  do 2 eexists. exists 2%Q, [Some 1%Q; Some 1%Q].
  split; [repeat constructor; reflexivity|]. split; [reflexivity|]. split; [vm_compute; reflexivity|]. split.
  - intros H. apply StronglySorted_inv in H as [H _]. apply StronglySorted_inv in H as [H _].
    apply StronglySorted_inv in H as [_ H]. apply Forall_inv in H. lra.
  - exists 2. repeat split. exists 1%Q. left; reflexivity.
Qed.
Print Assumptions C138_last_refuted.

(** A model with an empty profile in the middle: a gap of two hours is marked. *)
Example C138_nonvacuous :
  mark_gaps "model" 0 3 [0; 1; 2; 3]%Q [[Some 1%Q]; [None]; [Some 2%Q]; [Some 3%Q]]
  = Ok (Some ([0; 0 + tick; 2 - tick; 2; 3; 3]%Q, [[Some 1%Q]; [None]; [None]; [Some 2%Q]; [Some 3%Q]; [Some 3%Q]])) /\
  regular (inject_Z 60 / 60) [0; 1; 2; 3]%Q.
Proof. split; [vm_compute; reflexivity|repeat constructor; reflexivity]. Qed.

(* ------------------------------------------------------------------ *)
(** ** C139: hidden segments *)

(** Labels starting with an underscore disappear from the legend of a status figure,
    their pixels are masked, and every other pixel keeps its label and its colour.
    Pixels beyond the legend stay beyond it. *)
Theorem C139_hidden : forall clabel data, exists new_data,
  hide_segments clabel data = (visible_segments clabel, new_data) /\
  map (@List.length _) new_data = map (@List.length _) data /\
  (forall i j, pixel data i j = Some None -> pixel new_data i j = Some None) /\
  (forall i j v, pixel data i j = Some (Some v) ->
     (forall label, (0 <= v)%Z -> nth_error clabel (Z.to_nat v) = Some label ->
        (hidden (fst label) = true -> pixel new_data i j = Some None) /\
        (hidden (fst label) = false -> exists w, pixel new_data i j = Some (Some w) /\ (0 <= w)%Z /\
            nth_error (visible_segments clabel) (Z.to_nat w) = Some label)) /\
     ((v < 0)%Z -> pixel new_data i j = Some (Some v)) /\
     ((Z.of_nat (length clabel) <= v)%Z -> exists w, pixel new_data i j = Some (Some w) /\
        (Z.of_nat (length (visible_segments clabel)) <= w)%Z)).
Proof.
  intros clabel data. exists (imap (after_hiding clabel) data). split; [apply hide_segments_spec|].
  split; [unfold imap; rewrite map_map; apply map_ext; intros r; apply map_length|].
  split; [intros i j H; rewrite pixel_imap, H; reflexivity|].
  intros i j v H. rewrite pixel_imap, H. cbn [option_map].
  destruct (after_hiding_meaning clabel v) as (A & B & C). split; [|split].
  - intros label Hv Hn. destruct (A label Hn Hv) as [A1 A2]. split; intros Hh.
    + rewrite (A1 Hh). reflexivity.
    + destruct (A2 Hh) as (w & Hw & H1 & H2). exists w. rewrite Hw. auto.
  - intros Hv. rewrite (B Hv). reflexivity.
  - intros Hv. destruct (C Hv) as (w & Hw & E). exists w. rewrite Hw. split; [reflexivity|]. lia.
Qed.
Print Assumptions C139_hidden.

Example C139_nonvacuous :
  hide_segments [("Clear sky", "white"); ("_Aerosol", "grey"); ("Ice", "blue"); ("_x", "red"); ("Rain", "green")]
    [[Some 0%Z; Some 1%Z; Some 2%Z; None; Some 3%Z; Some 4%Z]]
  = ([("Clear sky", "white"); ("Ice", "blue"); ("Rain", "green")],
     [[Some 0%Z; None; Some 1%Z; None; None; Some 2%Z]]).
Proof. reflexivity. Qed.

(* ------------------------------------------------------------------ *)
(** ** C140: cells of the figures *)

(** The edges of the cells are ascending, one more than the samples, half way between
    neighbouring samples, and every sample lies inside its own cell. *)
Theorem C140_edges : forall centers, 2 <= length centers -> ascending centers ->
  exists edges, make_edges centers = Ok edges /\ length edges = S (length centers) /\ ascending edges /\
    (forall i c e1 e2, nth_error centers i = Some c -> nth_error edges i = Some e1 -> nth_error edges (S i) = Some e2 ->
       (e1 < c < e2)%Q) /\
    (forall i a b, nth_error centers i = Some a -> nth_error centers (S i) = Some b ->
       exists e, nth_error edges (S i) = Some e /\ (2 * e == a + b)%Q).
Proof. exact make_edges_spec. Qed.
Print Assumptions C140_edges.

(** The first and the last sample lie in the middle of their cells. *)
Theorem C140_outer : forall centers edges k, make_edges centers = Ok edges -> k = 0 \/ S k = length centers ->
  forall c e1 e2, nth_error centers k = Some c -> nth_error edges k = Some e1 -> nth_error edges (S k) = Some e2 ->
  (c - e1 == e2 - c)%Q.
Proof. exact make_edges_outer. Qed.
Print Assumptions C140_outer.

(** A single sample has no cell. *)
Theorem C140_single : forall centers, length centers < 2 -> make_edges centers = Raise IndexError.
Proof. exact make_edges_short. Qed.
Print Assumptions C140_single.

(** The gates up to the first one above the highest altitude wanted are shown,
    the same number of the altitudes and of every profile; all of them if none is
    above or no altitude is given. *)
Theorem C140_max_y : forall alt y data,
  (alt = [] -> screen_data_by_max_y alt (Some y) data = Raise ValueError) /\
  (forall k h, nth_error alt k = Some h -> (y < h)%Q -> 0 < k ->
     (forall i x, i < k -> nth_error alt i = Some x -> (x <= y)%Q) ->
     screen_data_by_max_y alt (Some y) data = Ok (firstn (S k) alt, map (firstn (S k)) data)) /\
  (alt <> [] -> (forall x, In x alt -> (x <= y)%Q) ->
     (forall row, In row data -> length row = length alt) ->
     screen_data_by_max_y alt (Some y) data = Ok (alt, data)) /\
  screen_data_by_max_y alt None data = Ok (alt, data).
Proof. exact screen_max_y_spec. Qed.
Print Assumptions C140_max_y.

(** If even the lowest gate is above the altitude wanted, all gates are kept. *)
Theorem C140_max_y_refuted : exists alt y data, ascending alt /\
  (forall x, In x alt -> (y < x)%Q) /\ 1 < length alt /\
  screen_data_by_max_y alt (Some y) data = Ok (alt, data).
Proof.
  exists [2; 3; 4]%Q, 1%Q, [[Some 1%Q; Some 2%Q; None]]. split; [repeat constructor; reflexivity|].
  split; [intros x [<-|[<-|[<-|[]]]]; reflexivity|]. split; [cbn; lia|]. reflexivity.
Qed.
Print Assumptions C140_max_y_refuted.

Example C140_nonvacuous :
  screen_data_by_max_y [1; 2; 3; 4]%Q (Some 2%Q) [[Some 5%Q; None; Some 6%Q; Some 7%Q]]
  = Ok ([1; 2; 3]%Q, [[Some 5%Q; None; Some 6%Q]]) /\
  exists e, make_edges [1; 2; 4]%Q = Ok e /\ Forall2 Qeq e [1 # 2; 3 # 2; 3; 5]%Q.
Proof. split; [reflexivity|]. eexists. split; [reflexivity|]. repeat constructor. Qed.

(* ------------------------------------------------------------------ *)
(** ** C141: moving averages *)

(** The curves drawn: the maximal runs of valid samples, each averaged over windows of
    five minutes and cut at the intervals longer than the allowed gap. *)
Theorem C141_curves : forall ft time invalid data, ft <> "model" -> time <> [] -> ascending time ->
  length invalid = length time -> length data = length time ->
  exists rs pieces, lists_runs (map negb invalid) rs /\
    Forall2 (fun r ps => exists avg, averaged 5 (slice (fst r) (snd r) time) (slice (fst r) (snd r) data) avg /\
       cut (hours (allowed_minutes ft)) (combine (slice (fst r) (snd r) time) avg) ps) rs pieces /\
    plot_moving_average ft time invalid data
      = Ok (Some (map (fun p => (map fst p, map snd p)) (concat pieces))).
Proof. exact plot_average_spec. Qed.
Print Assumptions C141_curves.

(** An average has as many values as samples and stays within their range. *)
Theorem C141_range : forall time data minutes lo hi, ascending time -> length time = length data -> (0 <= minutes)%Q ->
  (forall x, In x data -> lo <= x <= hi)%Q ->
  exists avg, calculate_moving_average data time minutes = Some avg /\ length avg = length data /\
    forall v, In v avg -> (lo <= v <= hi)%Q.
Proof.
  intros time data minutes lo hi Ha Hl Hm Hb. destruct data as [|x data].
  { exists []. split; [reflexivity|]. split; [reflexivity|]. intros v []. }
  destruct (moving_average_spec (x :: data) time minutes Ha Hl ltac:(discriminate) Hm) as (avg & H1 & H2).
  exists avg. split; [exact H1|]. split; [apply H2|]. eapply averaged_bounds; [exact H2|exact Hb].
Qed.
Print Assumptions C141_range.

(** The curve near a gap of the times mixes the samples on both sides of it: a value
    of 40 is drawn although all samples within nine hours are 0. *)
Theorem C141_gap_refuted : exists time data curves ts vs t v,
  ascending time /\ length data = length time /\
  plot_moving_average "mwr" time (map (fun _ => false) time) data = Ok (Some curves) /\
  In (ts, vs) curves /\
  In (t, v) (combine ts vs) /\ (v == 40)%Q /\
  (forall t' x, In (t', x) (combine time data) -> (t - 9 <= t' <= t + 9)%Q -> (x == 0)%Q).
Proof.
  exists [0; 2 # 100; 4 # 100; 10; 10 + (2 # 100); 10 + (4 # 100)]%Q, [0; 0; 0; 100; 100; 100]%Q.
  do 3 eexists. exists (4 # 100)%Q. eexists.
  split; [repeat constructor; reflexivity|]. split; [reflexivity|].
  split; [vm_compute; reflexivity|]. split; [left; reflexivity|].
  split; [right; right; left; reflexivity|]. split; [reflexivity|].
  intros t' x H Hr. cbn [combine In] in H.
  repeat (destruct H as [H|H]; [assert (E1 := f_equal fst H); assert (E2 := f_equal snd H); cbn [fst snd] in E1, E2; subst t' x;
    first [reflexivity | exfalso; lra]|]). destruct H.
Qed.
Print Assumptions C141_gap_refuted.

(** Every minute a sample; the window is five samples. *)
Example C141_nonvacuous :
  exists avg, calculate_moving_average [0; 0; 5; 0; 0; 0]%Q
    [0; 1 # 60; 2 # 60; 3 # 60; 4 # 60; 5 # 60]%Q 5 = Some avg /\ Forall2 Qeq avg [1; 1; 1; 1; 1; 0]%Q.
Proof. eexists. split; [vm_compute; reflexivity|repeat constructor]. Qed.
Example C141_nonvacuous_runs :
  plot_moving_average "radar" [0; 1; 2; 3]%Q [false; true; false; false] [7; 8; 9; 9]%Q
  = Ok (Some [([0%Q], [7%Q]); ([2%Q], [9 * (1 / inject_Z 1) + 0]%Q); ([3%Q], [9 * (1 / inject_Z 1) + 0]%Q)]).
Proof. vm_compute. reflexivity. Qed.

(* ------------------------------------------------------------------ *)
(** ** C142: flagged periods and limits *)

(** The batches of an array are its maximal runs of ones, in order. *)
Theorem C142_batches : forall array, exists batches,
  find_batches_of_ones array = Ok batches /\ lists_runs array batches.
Proof. intros array. exists (ArrayProofs.runs array). split; [apply batches_spec|apply runs_lists]. Qed.
Print Assumptions C142_batches.

(** The periods covered as flagged are the runs of at least two flagged samples. *)
Theorem C142_flagged : forall time flags, length time = length flags -> exists batches,
  lists_runs flags batches /\
  fill_flagged_data time flags =
    Ok (map (fun b => (nth (fst b) time 0%Q, nth (snd b) time 0%Q))
            (filter (fun b => negb (Nat.eqb (fst b) (snd b))) batches)).
Proof. intros time flags H. exists (ArrayProofs.runs flags). split; [apply runs_lists|apply filled_spec; exact H]. Qed.
Print Assumptions C142_flagged.

(** A single flagged sample is not covered. *)
Theorem C142_flagged_refuted : exists time flags i t, ascending time /\ length time = length flags /\
  nth_error flags i = Some true /\ nth_error time i = Some t /\
  exists periods, fill_flagged_data time flags = Ok periods /\ forall a b, In (a, b) periods -> ~ (a <= t <= b)%Q.
Proof.
  exists [0; 1; 2; 3; 4]%Q, [false; true; false; true; true], 1, 1%Q. split; [repeat constructor; reflexivity|].
  split; [reflexivity|]. split; [reflexivity|]. split; [reflexivity|]. eexists. split; [reflexivity|].
  intros a b [H|[]]. assert (E1 := f_equal fst H); assert (E2 := f_equal snd H); cbn [fst snd] in E1, E2; subst a b.
  intros [H1 _]. cbn in H1. lra.
Qed.
Print Assumptions C142_flagged_refuted.

(** The limits of the y axis are in order and every value is strictly between them:
    5 % of the range beyond the extreme values, or -0.05 and 0.05 without data. *)
Theorem C142_limits : forall data, exists lo hi, get_y_limits data = (lo, hi) /\ (lo < hi)%Q /\
  (forall v, In (Some v) data -> (lo < v < hi)%Q) /\
  ((forall v, ~ In (Some v) data) -> (lo == - (1 # 20))%Q /\ (hi == 1 # 20)%Q) /\
  (forall a b, In (Some a) data -> In (Some b) data -> (a < b)%Q ->
     (forall v, In (Some v) data -> a <= v <= b)%Q ->
     (lo == a - (1 # 20) * (b - a))%Q /\ (hi == b + (1 # 20) * (b - a))%Q).
Proof. exact y_limits_spec. Qed.
Print Assumptions C142_limits.

Example C142_nonvacuous :
  fill_flagged_data [0; 1; 2; 3; 4]%Q [true; true; false; true; false] = Ok [(0, 1)]%Q /\
  (let (lo, hi) := get_y_limits [Some 10; None; Some 30]%Q in (lo == 9)%Q /\ (hi == 31)%Q).
Proof. split; [reflexivity|]. vm_compute. split; reflexivity. Qed.
