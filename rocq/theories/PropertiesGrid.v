(** Properties C13-C16, C48, C50, C51 and C54: grids, rebinning, interpolation. *)
From Verif Require Import Base ArrayModel ArrayProofs FillModel FillProofs TimeModel TimeSpec TimeProofs GridModel GridSpec GridProofs.
From Coq Require Import Lqa Qabs String.
Open Scope nat_scope.

(** ** C13: rebin_2d.  [lo] and [hi] are the outer edges of the target grid.  [stat] is
    any reduction of the unmasked values (mean, standard deviation, maximum). *)
Theorem C13_bins : forall stat n_min mask_zeros ncol x_in array x_new lo hi,
  2 <= List.length x_new -> outer_edges x_new lo hi -> (lo < hi)%Q -> List.length x_in = List.length array ->
  exists result empty, rebin_2d stat n_min mask_zeros ncol x_in array x_new = Ok (result, empty) /\
    List.length result = List.length x_new /\ StronglySorted lt empty /\
    (forall k, k < List.length x_new ->
       exists sel, StronglySorted lt sel /\
         (forall i, In i sel <-> exists x, nth_error x_in i = Some x /\ in_bin lo hi (List.length x_new) k x) /\
         (In k empty <-> List.length sel < n_min) /\
         (forall j, j < ncol -> exists v, pixel result k j = Some v /\
            (List.length sel < n_min -> v = None) /\
            (n_min <= List.length sel ->
               bin_value stat mask_zeros (present (map (fun i => cell array i j) sel)) v))) /\
    (n_min <= 1 -> forall k, In k empty -> k < List.length x_new).
Proof. exact rebin_2d_ok. Qed.
(** With keepdim every profile carries the value of its own bin. *)
Theorem C13_bins_keepdim : forall stat n_min mask_zeros ncol x_in array x_new lo hi,
  2 <= List.length x_new -> outer_edges x_new lo hi -> (lo < hi)%Q -> List.length x_in = List.length array ->
  exists result empty, rebin_2d_keepdim stat n_min mask_zeros ncol x_in array x_new = Ok (result, empty) /\
    List.length result = List.length x_in /\
    (forall i x j, nth_error x_in i = Some x -> j < ncol -> exists v, pixel result i j = Some v /\
       ((forall k, k < List.length x_new -> ~ in_bin lo hi (List.length x_new) k x) -> v = None) /\
       (forall k, k < List.length x_new -> in_bin lo hi (List.length x_new) k x ->
          exists sel, StronglySorted lt sel /\
            (forall i', In i' sel <-> exists x', nth_error x_in i' = Some x' /\ in_bin lo hi (List.length x_new) k x') /\
            (List.length sel < n_min -> v = None) /\
            (n_min <= List.length sel ->
               bin_value stat mask_zeros (present (map (fun i' => cell array i' j) sel)) v))).
Proof. exact rebin_2d_keepdim_ok. Qed.
Theorem C13_at_most_one_bin : forall lo hi n k k' x, 0 < n -> (lo < hi)%Q ->
  in_bin lo hi n k x -> in_bin lo hi n k' x -> k = k'.
Proof. exact in_bin_unique. Qed.
(** On an evenly spaced target grid the bin of a point is half a step around it. *)
Theorem C13_even_grid : forall x0 d n, 2 <= n -> (0 < d)%Q ->
  let x := map (fun i => x0 + nat_q i * d)%Q (seq 0 n) in
  forall lo hi, outer_edges x lo hi ->
  (lo < hi)%Q /\
  forall k t, in_bin lo hi n k t <-> (x0 + nat_q k * d - d / 2 <= t /\ t < x0 + nat_q k * d + d / 2)%Q.
Proof. exact even_bins. Qed.
(** Fewer than two target points cannot be rebinned. *)
Theorem C13_short_grid : forall stat n_min mask_zeros ncol x_in array x_new, List.length x_new < 2 ->
  rebin_2d stat n_min mask_zeros ncol x_in array x_new = Raise IndexError.
Proof. intros. unfold rebin_2d. rewrite binvec_short by assumption. reflexivity. Qed.
(** With n_min above one, the list of empty bins may contain the number of bins,
    which is no bin: a profile at or after the last edge is counted there. *)
Theorem C13_reported_bin_outside_refuted : exists n_min x_in array x_new result empty,
  rebin_2d mean n_min false 1 x_in array x_new = Ok (result, empty) /\ List.length x_in = List.length array /\
  List.length x_new = 2 /\ In 2 empty.
Proof.
  exists 2, [1; 1; 2; 2; 9]%Q, [[Some 1]; [Some 3]; [Some 5]; [Some 7]; [Some 9]]%Q, [1; 2]%Q.
  do 2 eexists. split; [vm_compute; reflexivity|]. split; [reflexivity|]. split; [reflexivity|]. simpl. auto.
Qed.
Print Assumptions C13_bins.
Print Assumptions C13_bins_keepdim.
Print Assumptions C13_at_most_one_bin.
Print Assumptions C13_even_grid.
Print Assumptions C13_short_grid.
Print Assumptions C13_reported_bin_outside_refuted.
Example C13_nonvacuous :
  (match rebin_2d mean 1 false 2 [1; 3 # 2; 7 # 5; 9; 3 # 10]%Q
     [[Some 1; None]; [Some 7; Some 5]; [Some 3; None]; [Some 9; Some 9]; [Some 100; Some 100]]%Q [1; 2; 3]%Q with
   | Ok (r, e) => (imap (option_map Qred) r, e) | Raise _ => ([], []) end)
  = ([[Some 2; None]; [Some 7; Some 5]; [None; None]]%Q, [2]) /\
  outer_edges [1; 2; 3]%Q (1 # 2) (7 # 2).
Proof. split; [vm_compute; reflexivity|]. exists 1%Q, 2%Q, 2%Q, 3%Q. repeat split; reflexivity. Qed.

(** ** C14: get_gap_ind *)
Theorem C14_gaps : forall grid new_grid threshold, ascending grid ->
  StronglySorted lt (get_gap_ind grid new_grid threshold) /\
  forall i, In i (get_gap_ind grid new_grid threshold) <->
    exists x, nth_error new_grid i = Some x /\ forall g, In g grid -> (threshold < Qabs (x - g))%Q.
Proof. exact get_gap_ind_spec. Qed.
Print Assumptions C14_gaps.
Example C14_nonvacuous :
  get_gap_ind [1; 2; 5]%Q [-1; 1; 3; 7 # 2; 6; 13 # 2]%Q 1 = [0; 3; 5] /\
  ascending [1; 2; 5]%Q /\ get_gap_ind [] [1; 2]%Q 1 = [0; 1].
Proof. split; [vm_compute; reflexivity|]. split; [|reflexivity]. repeat constructor; discriminate. Qed.

(** ** C15: nearest interpolation in height *)
Theorem C15_nearest_gate : forall (A : Type) y (z : image (masked A)) y_new, ascending y -> y <> [] ->
  Forall (fun row => List.length row = List.length y) z ->
  exists out, interpolate_2D_along_y y z y_new = Ok out /\ List.length out = List.length z /\
    forall i j yn, i < List.length z -> nth_error y_new j = Some yn ->
      exists g v w, is_nearest y yn g /\ pixel z i g = Some v /\ pixel out i j = Some w /\
        (((forall h, In h y -> yn < h) \/ (forall h, In h y -> h < yn))%Q -> w = None) /\
        (~ ((forall h, In h y -> yn < h) \/ (forall h, In h y -> h < yn))%Q -> w = v).
Proof. exact @interpolate_2D_ok. Qed.
Print Assumptions C15_nearest_gate.
Example C15_nonvacuous :
  interpolate_2D_along_y [1; 2; 4]%Q [[Some 10; Some 20; None]; [None; Some 5; Some 6]] [0; 1; 3 # 2; 3; 31 # 10; 4; 5]%Q
  = Ok [[None; Some 10; Some 10; Some 20; None; None; None];
        [None; None; None; Some 5; Some 6; Some 6; None]] /\ ascending [1; 2; 4]%Q.
Proof. split; [vm_compute; reflexivity|]. repeat constructor; discriminate. Qed.

(** ** C16: interpolate_1d, linear *)
Theorem C16_no_long_gaps : forall time y time_new max_time,
  List.length time = List.length y -> time <> [] -> (forall t, In t time -> 0 <= t /\ t <= 24)%Q ->
  exists out, interpolate_1d time y time_new max_time = Ok out /\ List.length out = List.length time_new /\
    forall j t, nth_error time_new j = Some t -> exists w, nth_error out j = Some w /\
      (w = None <-> forall i ts v, sample time y i ts v -> (max_time / 60 < Qabs (t - ts))%Q) /\
      (forall x, w = Some x ->
         (exists i1 t1 v1 i2 t2 v2, sample time y i1 t1 v1 /\ sample time y i2 t2 v2 /\ (v1 <= x /\ x <= v2)%Q) /\
         (forall v, first_sample time y t v -> (x == v)%Q) /\
         (forall ta va tb vb, first_sample time y ta va -> first_sample time y tb vb -> (ta < tb)%Q ->
            (forall i ts v, sample time y i ts v -> ~ (ta < ts /\ ts < tb)%Q) -> (ta <= t /\ t <= tb)%Q ->
            (x == va + (vb - va) * ((t - ta) / (tb - ta)))%Q)).
Proof. exact interpolate_1d_ok. Qed.
Theorem C16_times_outside_the_day_rejected : forall time y time_new max_time,
  List.length time = List.length y -> (exists t, In t time /\ (t < 0 \/ 24 < t)%Q) ->
  interpolate_1d time y time_new max_time = Raise ValueError.
Proof. exact interpolate_1d_bad_time. Qed.
Print Assumptions C16_no_long_gaps.
Print Assumptions C16_times_outside_the_day_rejected.
Example C16_nonvacuous :
  (match interpolate_1d [1; 3; 2; 1; 5]%Q [Some 10; None; Some 20; Some 99; Some 40]%Q [0; 1; 3 # 2; 3; 7 # 2; 5]%Q 60 with
   | Ok l => map (option_map Qred) l | Raise _ => [] end)
  = [Some 10; Some 10; Some 15; Some (80 # 3); None; Some 40]%Q /\
  interpolate_1d [25]%Q [Some 1]%Q [1]%Q 60 = Raise ValueError.
Proof. vm_compute. auto. Qed.

(** ** C48: the regular grid of a day *)
Theorem C48_points : forall step n, (1 <= step)%Z -> (Z.of_nat n * step = 86400)%Z ->
  exists grid, time_grid step = Ok grid /\ List.length grid = n /\ strictly_increasing grid /\
    Forall (fun x => 0 < x /\ x < 24)%Q grid /\
    (forall i, i < n -> exists x, nth_error grid i = Some x /\ (x == (nat_q i + 1 / 2) * inject_Z step / 3600)%Q).
Proof. exact time_grid_day_full. Qed.
(** The bins between 0 and 24 h: edge [i] at [i] steps. *)
Theorem C48_bins_tile_the_day : forall step n grid, (1 <= step)%Z -> (Z.of_nat n * step = 86400)%Z -> 2 <= n ->
  time_grid step = Ok grid ->
  exists edges, binvec grid = Ok edges /\ List.length edges = S n /\
    forall i, i <= n -> exists e, nth_error edges i = Some e /\ (e == nat_q i * inject_Z step / 3600)%Q.
Proof. exact day_bins. Qed.
Theorem C48_short_steps_rejected : forall step, (step < 1)%Z -> time_grid step = Raise ValueError.
Proof. intros step H. unfold time_grid. destruct (Z.ltb_spec step 1); [reflexivity|lia]. Qed.
Print Assumptions C48_points.
Print Assumptions C48_bins_tile_the_day.
Print Assumptions C48_short_steps_rejected.
Example C48_nonvacuous : (Z.of_nat 2880 * 30 = 86400)%Z /\
  (match time_grid 21600 with Ok l => map Qred l | Raise _ => [] end) = [3; 9; 15; 21]%Q /\
  (match bind (time_grid 21600) binvec with Ok l => map Qred l | Raise _ => [] end) = [0; 6; 12; 18; 24]%Q.
Proof. vm_compute. auto. Qed.

(** ** C50: observation windows *)
(** Any increasing edges partition the coordinates between the first and the last. *)
Theorem C50_windows_partition : forall edges data d x, strictly_increasing edges -> nth_error data d = Some x ->
  (forall i, nth_error (window edges data i) d = Some true <->
     exists lo hi, nth_error edges i = Some lo /\ nth_error edges (S i) = Some hi /\ (lo <= x /\ x < hi)%Q) /\
  (forall i i', nth_error (window edges data i) d = Some true -> nth_error (window edges data i') d = Some true -> i = i') /\
  (forall first last, nth_error edges 0 = Some first -> nth_error edges (List.length edges - 1) = Some last ->
     (first <= x /\ x < last)%Q ->
     exists i, S i < List.length edges /\ nth_error (window edges data i) d = Some true).
Proof.
  intros edges data d x Hs Hd. split; [intros i; apply window_spec; exact Hd|]. apply windows_partition; assumption.
Qed.
(** The edges made from model heights and model times are increasing, one window
    around every grid height. *)
Theorem C50_height_edges : forall arr, 2 <= List.length arr -> strictly_increasing arr ->
  exists edges, rebin_edges arr = Ok edges /\ List.length edges = S (List.length arr) /\ strictly_increasing edges /\
  forall i a lo hi, nth_error arr i = Some a -> nth_error edges i = Some lo -> nth_error edges (S i) = Some hi ->
    (lo < a /\ a < hi)%Q.
Proof. exact rebin_edges_ok. Qed.
Theorem C50_time_edges : forall x, 2 <= List.length x -> strictly_increasing x ->
  exists edges, binvec x = Ok edges /\ strictly_increasing edges /\ List.length edges = S (List.length x).
Proof. exact binvec_increasing. Qed.
Print Assumptions C50_windows_partition.
Print Assumptions C50_height_edges.
Print Assumptions C50_time_edges.
Example C50_nonvacuous :
  (match rebin_edges [10; 20; 40]%Q with Ok l => map Qred l | Raise _ => [] end) = [0; 15; 30; 60]%Q /\
  window [0; 15; 30; 60]%Q [-1; 0; 14; 15; 30; 60]%Q 1 = [false; false; false; true; false; false] /\
  strictly_increasing [10; 20; 40]%Q.
Proof. split; [vm_compute; reflexivity|]. split; [vm_compute; reflexivity|]. repeat constructor. Qed.

(** ** C51: location of the nearest radar timestamp *)
Theorem C51_nearest_location : forall (A : Type) time (data : list A) time_new,
  ascending time -> time <> [] -> List.length data = List.length time ->
  exists out, add_location time data time_new = Ok out /\ List.length out = List.length time_new /\
    forall j t, nth_error time_new j = Some t -> exists i x,
      is_nearest time t i /\ nth_error data i = Some x /\ nth_error out j = Some x.
Proof. exact @add_location_ok. Qed.
Print Assumptions C51_nearest_location.
Example C51_nonvacuous : add_location [1; 2; 4]%Q [10; 20; 30] [0; 16 # 10; 3; 31 # 10; 9]%Q = Ok [10; 20; 30; 30; 30].
Proof. vm_compute. reflexivity. Qed.

(** ** C54: averages on the model grid *)
Theorem C54_product_mean : forall x_ind y_ind obs,
  exists l, window_observations (fun i => nth_error x_ind i = Some true) (fun j => nth_error y_ind j = Some true) obs l /\
    (l = [] -> regrid_product x_ind y_ind obs = None) /\
    (l <> [] -> exists m, regrid_product x_ind y_ind obs = Some m /\ (m * nat_q (List.length l) == total l)%Q).
Proof. exact regrid_product_ok. Qed.
(** Cloud fraction is the same mean where the window has observation times and
    heights. *)
Theorem C54_cloud_fraction_mean_partial : forall x_ind y_ind obs,
  (exists i, nth_error x_ind i = Some true) -> (exists j, nth_error y_ind j = Some true) ->
  exists l, window_observations (fun i => nth_error x_ind i = Some true) (fun j => nth_error y_ind j = Some true) obs l /\
    (l = [] -> regrid_cf x_ind y_ind obs = None) /\
    (l <> [] -> exists m, regrid_cf x_ind y_ind obs = Some m /\ (m * nat_q (List.length l) == total l)%Q).
Proof. intros x y obs Hx Hy. rewrite regrid_cf_ok by assumption. apply regrid_product_ok. Qed.
(** Without any observation in the window the cloud fraction is not masked but 0. *)
Theorem C54_no_observations_is_clear_sky_refuted : exists edges times x_ind y_ind obs,
  x_ind = window edges times 1 /\ ~ In true x_ind /\ regrid_cf x_ind y_ind obs = Some 0%Q /\
  regrid_product x_ind y_ind obs = None.
Proof.
  exists [0; 1; 2]%Q, [1 # 4; 1 # 2]%Q. do 2 eexists. exists [[Some 1%Q]; [Some 1%Q]].
  split; [reflexivity|]. split; [|split; [|instantiate (1 := [true]); vm_compute; reflexivity]].
  - vm_compute. intros [H|[H|[]]]; discriminate.
  - vm_compute. reflexivity.
Qed.
Print Assumptions C54_product_mean.
Print Assumptions C54_cloud_fraction_mean_partial.
Print Assumptions C54_no_observations_is_clear_sky_refuted.
Example C54_nonvacuous :
  option_map Qred (regrid_product [true; false; true] [false; true]
    [[Some 1; Some 2]; [Some 3; Some 4]; [None; Some 6]]%Q) = Some 4%Q /\
  option_map Qred (regrid_cf [true; false; true] [false; true] [[Some 1; None]; [Some 3; Some 4]; [None; None]]%Q) = None.
Proof. vm_compute. auto. Qed.
