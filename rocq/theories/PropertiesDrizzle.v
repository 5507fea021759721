(** Property C34: the drizzle solver. *)
From Verif Require Import Base DrizzleModel DrizzleSpec DrizzleProofs.
Open Scope nat_scope.

(** ** C34: lookups and iterations. *)
(** The numbers [D] and the functions on them are arbitrary. *)
(** The search stays inside the table, for unsorted tables and for comparisons
    that are never true (not-a-number) as well. *)
Theorem C34_lookup : forall D (lt : D -> D -> bool) a x last, last <= length a ->
  exists i, bisect_left lt a x last = Ok i /\ crossing lt a x last i.
Proof. exact bisect_left_spec. Qed.
(** With a non-empty table the solver never fails; the result of a drizzle pixel
    comes from at most ten iterations, each with a table entry next to the
    diameter and the width, and fewer than ten only if the last one converged. *)
Theorem C34_iterations : forall D lt opp mul zero one k_init calc_dia converged factor lut n_widths n_dia,
  good_table lut n_widths n_dia ->
  forall n_time n_height drizzle ratio beta width_ht,
  exists s : state D, solve_drizzle D lt opp mul zero one k_init calc_dia converged factor lut
      n_time n_height drizzle ratio beta width_ht = Ok s /\
    forall t g, t < n_time -> g < n_height -> drizzle t g = true ->
    exists k, 1 <= k <= 10 /\
      iterates lt opp calc_dia converged lut (mul (ratio t g) (p_corr D s t g)) (width_ht t g) k
        (calc_dia (ratio t g) zero one k_init) (p_Do D s t g) (p_mu D s t g) (p_S D s t g) /\
      (k = 10 \/
       stops lt opp calc_dia converged lut (mul (ratio t g) (p_corr D s t g)) (width_ht t g) k
         (calc_dia (ratio t g) zero one k_init) (p_Do D s t g) (p_mu D s t g) (p_S D s t g)).
Proof.
  intros D lt opp mul zero one ki cd conv fac lut nw nd T nt nh dr ra be wi.
  destruct (solve_spec D lt opp mul zero one ki cd conv fac lut nw nd T nt nh dr ra be wi) as (s & E & _).
  exists s. split; [exact E|].
  exact (solve_iterations D lt opp mul zero one ki cd conv fac lut nw nd T nt nh dr ra be wi s E).
Qed.
(** Other pixels keep zeros. *)
Theorem C34_no_drizzle : forall D lt opp mul zero one k_init calc_dia converged factor lut n_widths n_dia,
  good_table lut n_widths n_dia ->
  forall n_time n_height drizzle ratio beta width_ht (s : state D),
  solve_drizzle D lt opp mul zero one k_init calc_dia converged factor lut
    n_time n_height drizzle ratio beta width_ht = Ok s ->
  forall t g, drizzle t g = false ->
    p_Do D s t g = zero /\ p_mu D s t g = zero /\ p_S D s t g = zero.
Proof.
  intros D lt opp mul zero one ki cd conv fac lut nw nd T nt nh dr ra be wi s H t g Z.
  destruct (solve_spec D lt opp mul zero one ki cd conv fac lut nw nd T nt nh dr ra be wi)
    as (s' & E & _ & B & _). rewrite H in E. injection E as <-. destruct (B t g Z) as (? & ? & ? & _). auto.
Qed.
(** The correction: one at the lowest gate, multiplied by the factor of every
    drizzle gate below. *)
Theorem C34_correction : forall D lt opp mul zero one k_init calc_dia converged factor lut n_widths n_dia,
  good_table lut n_widths n_dia ->
  forall n_time n_height drizzle ratio beta width_ht (s : state D),
  solve_drizzle D lt opp mul zero one k_init calc_dia converged factor lut
    n_time n_height drizzle ratio beta width_ht = Ok s ->
  (forall t, p_corr D s t 0 = one) /\
  (forall t g, t < n_time -> S g < n_height -> drizzle t g = true ->
     p_corr D s t (S g) = mul (p_corr D s t g) (factor (p_S D s t g) (beta t g) g)) /\
  (forall t g, t < n_time -> S g < n_height -> drizzle t g = false ->
     p_corr D s t (S g) = p_corr D s t g).
Proof.
  intros D lt opp mul zero one ki cd conv fac lut nw nd T nt nh dr ra be wi s H.
  destruct (solve_spec D lt opp mul zero one ki cd conv fac lut nw nd T nt nh dr ra be wi)
    as (s' & E & _ & _ & C & F). rewrite H in E. injection E as <-. split; [exact C|].
  split; intros t g Ht Hg Z; rewrite (F t g Ht Hg), Z; reflexivity.
Qed.
(** Other profiles and higher gates have no influence. *)
Theorem C34_local : forall D lt opp mul zero one k_init calc_dia converged factor lut n_widths n_dia,
  good_table lut n_widths n_dia ->
  forall n_time n_height dr dr' ra ra' be be' wi wi' (s s' : state D) t g,
  solve_drizzle D lt opp mul zero one k_init calc_dia converged factor lut n_time n_height dr ra be wi = Ok s ->
  solve_drizzle D lt opp mul zero one k_init calc_dia converged factor lut n_time n_height dr' ra' be' wi' = Ok s' ->
  t < n_time -> g < n_height ->
  (forall h, h < g -> dr t h = dr' t h /\ (dr t h = true -> ra t h = ra' t h /\ be t h = be' t h /\ wi t h = wi' t h)) ->
  p_corr D s t g = p_corr D s' t g /\
  (dr t g = dr' t g -> (dr t g = true -> ra t g = ra' t g /\ wi t g = wi' t g) ->
   p_Do D s t g = p_Do D s' t g /\ p_mu D s t g = p_mu D s' t g /\ p_S D s t g = p_S D s' t g).
Proof. exact solve_local. Qed.
(** The table indices of the derived products: always inside the axis, and the
    exact position for a value of a strictly increasing axis. *)
Theorem C34_product_index : forall D (lt : D -> D -> bool) axis x, 0 < length axis ->
  exists i, lut_index lt axis x = Ok i /\ i < length axis.
Proof. exact lut_index_range. Qed.
Theorem C34_product_index_member : forall D (lt : D -> D -> bool) axis k x,
  (forall p q y z, p < q -> nth_error axis p = Some y -> nth_error axis q = Some z -> lt y z = true /\ lt z y = false) ->
  (forall y, lt y y = false) -> nth_error axis k = Some x -> lut_index lt axis x = Ok k.
Proof. exact lut_index_member. Qed.
Print Assumptions C34_lookup.
Print Assumptions C34_iterations.
Print Assumptions C34_no_drizzle.
Print Assumptions C34_correction.
Print Assumptions C34_local.
Print Assumptions C34_product_index.
Print Assumptions C34_product_index_member.
(** Integers with a table of two widths and three diameters; gates 1 and 2 of one
    profile are drizzle. *)
Definition ex_table : table Z :=
  {| lut_Do := [10; 20; 30]%Z; lut_mu := [0; 1]%Z; width_lut := [[-5; -6; -7]; [-1; -2; -3]]%Z;
     lut_ray := [[1; 2; 3]; [4; 5; 6]]%Z; lut_S := [[2; 3; 4]; [5; 6; 7]]%Z |}.
Definition ex_solve : result (state Z) :=
  solve_drizzle Z Z.ltb Z.opp Z.mul 0%Z 1%Z 18%Z (fun r mu ray k => r + mu + ray + k)%Z Z.eqb
    (fun s b g => s + b + Z.of_nat g)%Z ex_table 1 4 (fun t g => (g =? 1) || (g =? 2))
    (fun t g => Z.of_nat g) (fun t g => 1%Z) (fun t g => 2%Z).
Example C34_nonvacuous :
  good_table ex_table 2 3 /\
  exists s, ex_solve = Ok s /\
    map (fun g => (p_Do Z s 0 g, p_mu Z s 0 g, p_S Z s 0 g, p_corr Z s 0 g)) [0; 1; 2; 3] =
    [(0, 0, 0, 1); (13, 1, 6, 1); (30, 1, 7, 8); (0, 0, 0, 80)]%Z /\
  lut_index Z.ltb [10; 20; 30]%Z 20%Z = Ok 1 /\ lut_index Z.ltb [10; 20; 30]%Z 99%Z = Ok 2.
Proof.
  split; [repeat split; try lia; repeat constructor|]. eexists. split; [reflexivity|].
  split; [vm_compute; reflexivity|]. split; reflexivity.
Qed.
