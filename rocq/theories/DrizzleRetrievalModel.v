(** Model of the drizzle product around the solver: reflectivity, spectral width and
    diameter (products/drizzle_tools.py), derived products (products/drizzle.py) and
    errors (products/drizzle_error.py).  Floating point numbers are real numbers; the
    functions treat one pixel. *)
From Verif Require Import Base DrizzleModel RetrievalModel.
From Coq Require Import Reals.
Open Scope nat_scope.
Open Scope list_scope.

(** ** Inputs *)

(** drizzle_tools.py 40-44, [_convert_z_units], for a value in dBZ. *)
Definition convert_z_units (z : masked R) : masked R :=
  option_map (fun x => let y := (x - 180)%R in exp10 ((if Rlt_dec 0 y then 0%R else y) / 10)) z.
(** drizzle_tools.py 187-192, [_calc_beam_divergence], for a height above the ground. *)
Definition beam_divergence (height_agl : R) : R := (height_agl * (5 / 10 * PI / 180))%R.
(** [x ** (2 / 3)] of a number that is not negative. *)
Definition two_thirds (x : R) : R := if Req_EM_T x 0 then 0%R else exp (ln x * (2 / 3)).
(** drizzle_tools.py 180-185 and 194-204, [_calc_v_sigma_factor] and
    [_calc_horizontal_wind]; a quotient by zero is masked. *)
Definition v_sigma_factor (height_agl u v : R) : masked R :=
  let wind := l2 u v in
  let beam := beam_divergence height_agl in
  let actual := two_thirds (wind + beam) in
  let scaled := two_thirds (30 * wind + beam) in
  if Req_EM_T (scaled - actual) 0 then None else Some (actual / (scaled - actual))%R.
(** drizzle_tools.py 170-178, [_calculate_spectral_width]; without the variable the width
    is zero. *)
Definition spectral_width (width : option (masked R)) (v_sigma : masked R) (height_agl u v : R) : masked R :=
  let width := match width with Some w => w | None => Some 0%R end in
  match width, v_sigma_factor height_agl u v, v_sigma with
  | Some w, Some f, Some s => Some (w - f * s)%R
  | _, _, _ => None
  end.

Section Gamma.
(** The gamma function of scipy. *)
Variable gamma : R -> R.

(** drizzle_tools.py 293-316, [_calc_dia], for a positive quotient. *)
Definition calc_dia (ratio mu ray k : R) : R :=
  let const := (ray * k * ratio)%R in
  root 4 (gamma (3 + mu) / gamma (7 + mu) * (367 / 100 + mu) ^ 4 / const)%R.
(** drizzle_tools.py 245-246, [_calc_beta_z_ratio]. *)
Definition beta_z_ratio (beta z : R) : R := (2 / PI * beta / z)%R.

(** ** Derived products *)

(** What is known of a pixel: results of the solver (zero without drizzle), reflectivity in
    SI units, backscatter, Doppler velocity. *)
Record drizzle_pixel := { d_do : R; d_mu : R; d_s : R; d_z : masked R; d_beta : masked R; d_v : R }.
(** The lookup table: its axes, and the tables of flux, terminal velocity and velocity. *)
Record mie_table := { m_do : list R; m_mu : list R; m_lwf : list (list R); m_termv : list R; m_v : list (list R) }.
Definition rlt (a b : R) : bool := if Rlt_dec a b then true else false.
Record derived := { v_n : masked R; v_lwc : masked R; v_lwf : masked R; v_drizzle : R; v_air : R }.
(** drizzle.py 117-121, [_calc_density]: zero without drizzle. *)
Definition density (x : drizzle_pixel) : masked R :=
  if Req_EM_T (d_do x) 0 then Some 0%R else option_map (fun z => (z * (367 / 100) ^ 6 / d_do x ^ 6)%R) (d_z x).
(** drizzle.py 123-131, [_calc_lwc]. *)
Definition drizzle_lwc (x : drizzle_pixel) : masked R :=
  let ratio := (gamma (4 + d_mu x) / gamma (3 + d_mu x) / (367 / 100 + d_mu x))%R in
  option_map (fun beta => (1000 / 3 * beta * d_s x * d_do x * ratio)%R) (d_beta x).
(** drizzle.py 94-101, 103-115, 133-140, 142-146 and 148-152: indices, [_calc_lwf],
    [_calc_fall_velocity], [_calc_v_air].  The velocity of a drizzle pixel is not masked. *)
Definition derive (lut : mie_table) (x : drizzle_pixel) : result derived :=
  let lwc := drizzle_lwc x in
  if Req_EM_T (d_do x) 0 then
    Ok {| v_n := density x; v_lwc := lwc; v_lwf := lwc; v_drizzle := 0; v_air := 0 |}
  else
    bind (lut_index rlt (m_mu lut) (d_mu x)) (fun i =>
    bind (lut_index rlt (m_do lut) (d_do x)) (fun j =>
    bind (getitem2 (m_lwf lut) i j) (fun flux =>
    bind (getitem (m_termv lut) j) (fun term =>
    bind (getitem2 (m_v lut) i j) (fun v =>
    Ok {| v_n := density x; v_lwc := lwc; v_lwf := option_map (fun w => (w * (flux * term))%R) lwc;
          v_drizzle := (- v)%R; v_air := (- - v + d_v x)%R |}))))).
(** drizzle.py 189-204, [_screen_rain] and [_append_data]: zero in rain, masked where zero. *)
Definition stored (rain : bool) (x : masked R) : masked R :=
  let x := if rain then Some 0%R else x in
  match x with Some v => if Req_EM_T v 0 then None else Some v | None => None end.

End Gamma.

(** ** Errors *)

(** drizzle_error.py 178-182 and 185-189, [db2lin] and [lin2db]; [COR] is [10 / ln 10]. *)
Definition db_to_lin (x : R) : R := (exp ((if Rlt_dec 100 x then 100 else x) / (10 / ln 10)) - 1)%R.
Definition lin_to_db (x : R) : R := (ln ((if Rlt_dec x (- (9 / 10)) then - (9 / 10) else x) + 1) * (10 / ln 10))%R.
(** drizzle_error.py 8-9. *)
Definition MU_ERROR : R := 7 / 100.
Definition MU_ERROR_SMALL : R := 25 / 100.
(** utils.py 581-607, [l2norm_weighted], for two values. *)
Definition weighted (scale wa wb : R) (a b : R) : R := (scale * l2 (wa * a) (wb * b))%R.
(** drizzle_error.py 37-42, [_get_drizzle_indices]. *)
Definition is_drizzle (dia : R) : bool := if Rlt_dec 0 dia then true else false.
Definition is_small (dia : R) : bool :=
  if Rle_dec dia (1 / 10000) then if Rlt_dec (1 / 100000) dia then true else false else false.
Definition is_tiny (dia : R) : bool :=
  if Rle_dec dia (1 / 100000) then if Rlt_dec 0 dia then true else false else false.
(** drizzle_error.py 157-172, [_stack_errors]. *)
Definition stack (dia : R) (error : R) (small tiny : option R) : R :=
  let e := assign (is_drizzle dia) error 0%R in
  let e := match small with Some s => assign (is_small dia) s e | None => e end in
  match tiny with Some t => assign (is_tiny dia) t e | None => e end.
(** drizzle_error.py 60-86, [_calc_parameter_errors]; linear errors of Z and beta. *)
Definition do_error (dia z b : R) : R :=
  stack dia (l2 (weighted (2 / 7) 1 1 z b) MU_ERROR) (Some (l2 (weighted (1 / 4) 1 1 z b) MU_ERROR_SMALL)) None.
Definition lwc_drizzle_error (dia z b : R) : R :=
  stack dia (weighted (1 / 7) 1 6 z b) (Some (weighted (1 / 4) 1 3 z b)) None.
Definition lwf_error (dia z b : R) : R :=
  stack dia (l2 (weighted (1 / 7) 3 4 z b) MU_ERROR) (Some (l2 (weighted (1 / 2) 1 1 z b) MU_ERROR_SMALL))
    (Some (l2 (weighted (1 / 4) 3 1 z b) MU_ERROR_SMALL)).
Definition s_error (dia z b : R) : R := stack dia (weighted (1 / 2) 1 1 z b) None None.
(** drizzle_error.py 103-122, [_add_supplementary_errors]: the error of the number density
    is calculated from that of the diameter; then the array of the errors of the diameter
    becomes that of the velocity, and is changed in place. *)
Definition n_error (dia z b : R) : R := stack dia (l2 z (6 * db_to_lin (do_error dia z b))) None None.
Definition v_error (dia z b : R) : R :=
  let e := do_error dia z b in assign (is_tiny dia) (e * e)%R e.
(** drizzle_error.py 12-34, 45-57, 125-138: the errors in decibels of a pixel with errors
    [z], [b] in decibels, and biases of the whole product.  A masked error of Z gives
    masked errors. *)
Record drizzle_errors := { x_do : R; x_lwc : R; x_lwf : R; x_s : R; x_n : R; x_v : R; x_mu : R }.
Definition get_errors (dia z b : R) : drizzle_errors :=
  let z := db_to_lin z in
  let b := db_to_lin b in
  {| x_do := lin_to_db (v_error dia z b); x_lwc := lin_to_db (lwc_drizzle_error dia z b);
     x_lwf := lin_to_db (lwf_error dia z b); x_s := lin_to_db (s_error dia z b);
     x_n := lin_to_db (n_error dia z b); x_v := lin_to_db (v_error dia z b); x_mu := lin_to_db MU_ERROR |}.
Record drizzle_biases := { y_do : R; y_lwc : R; y_lwf : R; y_n : R; y_v : R }.
(** drizzle_error.py 89-100 and 125-133, [_calc_parameter_biases] and
    [_add_supplementary_biases]. *)
Definition get_biases (z b : R) : drizzle_biases :=
  let z := db_to_lin z in
  let b := db_to_lin b in
  let dia := weighted (2 / 7) 1 1 z b in
  {| y_do := lin_to_db dia; y_lwc := lin_to_db (weighted (1 / 7) 1 6 z b); y_lwf := lin_to_db (weighted (1 / 7) 3 4 z b);
     y_n := lin_to_db (weighted 1 1 6 z (db_to_lin dia)); y_v := lin_to_db dia |}.
