(** Model of the retrievals of ice water content and ice effective radius
    (products/product_tools.py, products/iwc.py, products/ier.py), of the droplet
    effective radius (products/der.py) and of the error of the liquid water content
    (products/lwc.py).  Floating point numbers are real numbers here, since the formulas
    have roots, powers and exponentials. *)
From Verif Require Import Base BitsModel StatusModel ArrayModel ImageModel.
From Coq Require Import Reals String.
Open Scope string_scope.
Open Scope nat_scope.
Open Scope list_scope.
Local Notation length := List.length (only parsing).

(** [10 ** x], [np.log10] and the sum of a list. *)
Definition exp10 (x : R) : R := exp (x * ln 10).
Definition log10 (x : R) : R := (ln x / ln 10)%R.
Definition rsum (l : list R) : R := fold_right Rplus 0%R l.
(** utils.py 559-579, [l2norm], for two numbers. *)
Definition l2 (a b : R) : R := sqrt (a * a + b * b).

(** ** Ice *)

(** product_tools.py 18-25, [IceCoefficients]. *)
Record ice_coefficients := { k2_liquid : R; by_zt : R; by_t : R; by_z : R; by_one : R }.
(** product_tools.py 28-45, [get_ice_coefficients]. *)
Definition get_ice_coefficients (product band : string) : result ice_coefficients :=
  if String.eqb product "ier" then
    if String.eqb band "Ka" then
      Ok {| k2_liquid := 878 / 1000; by_zt := - 205 / 1000000; by_t := - 15 / 10000; by_z := 16 / 10000; by_one := - 152 / 100 |}
    else if String.eqb band "W" then
      Ok {| k2_liquid := 669 / 1000; by_zt := - 296 / 1000000; by_t := - 193 / 100000; by_z := 0; by_one := - 1502 / 1000 |}
    else Raise ValueError
  else if String.eqb band "Ka" then
    Ok {| k2_liquid := 878 / 1000; by_zt := 242 / 1000000; by_t := - 186 / 10000; by_z := 699 / 10000; by_one := - 163 / 100 |}
  else if String.eqb band "W" then
    Ok {| k2_liquid := 669 / 1000; by_zt := 580 / 1000000; by_t := - 706 / 100000; by_z := 923 / 10000; by_one := - 992 / 1000 |}
  else Raise ValueError.
(** product_tools.py 48-63, [z_to_iwc]. *)
Definition z_to_iwc (c : ice_coefficients) (z temperature : R) : R :=
  exp10 (by_zt c * z * temperature + by_t c * temperature + by_z c * z + by_one c).
(** product_tools.py 276-279, [_get_z_factor]. *)
Definition z_factor (c : ice_coefficients) : R := (10 * log10 (k2_liquid c / (93 / 100)))%R.
(** product_tools.py 257-274, [_convert_z], for one pixel.  Temperatures, in degrees
    Celsius, are not masked. *)
Definition convert_z (product : string) (c : ice_coefficients) (z : masked R) (temperature : R) : result (masked R) :=
  if String.eqb product "iwc" || String.eqb product "ier" then
    let scale := if String.eqb product "iwc" then (1 / 1000)%R else (3 / (2 * 917) * 1000000)%R in
    Ok (option_map (fun z => (z_to_iwc c (z + z_factor c) temperature * scale)%R) z)
  else Raise ValueError.
(** product_tools.py 230-239, [append_icy_data], for one pixel. *)
Definition icy (product : string) (c : ice_coefficients) (cat : CategoryBits) (qual : QualityBits)
  (z : masked R) (temperature : R) : result (masked R) :=
  bind (convert_z product c z temperature) (fun data =>
  Ok (assign (negb (ice_is_ice cat) || uncorrected_ice cat qual) None data)).
(** iwc.py 67-70, [append_sensitivity]: with the mean temperature of each gate. *)
Definition mean_temperature (temperature : list (list R)) (gate : nat) : R :=
  let values := map (fun row => nth gate row 0%R) temperature in
  (rsum values / INR (length values))%R.
Definition sensitivity (c : ice_coefficients) (z_sensitivity : list (masked R)) (temperature : list (list R))
  : result (list (masked R)) :=
  sequence (map (fun gz => convert_z "iwc" c (snd gz) (mean_temperature temperature (fst gz)))
    (combine (seq 0 (length z_sensitivity)) z_sensitivity)).
(** iwc.py 72-75, [append_bias]. *)
Definition iwc_bias (c : ice_coefficients) (z_bias : masked R) : masked R :=
  option_map (fun b => (b * by_z c * 10)%R) z_bias.
(** iwc.py 82-85 and 87-90. *)
Definition random_error (c : ice_coefficients) (z_error : masked R) (temperature : R) : masked R :=
  option_map (fun e => (e * (by_zt c * temperature + by_z c) * 10)%R) z_error.
Definition uncorrected_error (band : string) (c : ice_coefficients) : R :=
  (250 * (1 / 1000) * ((if String.eqb band "Ka" then 1 else 45 / 10) * by_z c) * 2 * 10)%R.
(** iwc.py 77-105, [append_error], for one pixel. *)
Definition iwc_error (band : string) (c : ice_coefficients) (cat : CategoryBits) (qual : QualityBits)
  (z_error : masked R) (temperature : R) : masked R :=
  let error := option_map (fun e => l2 (17 / 10)%R e) (random_error c z_error temperature) in
  let error := assign (uncorrected_ice cat qual) (Some (l2 (17 / 10)%R (uncorrected_error band c))) error in
  assign (negb (ice_is_ice cat) || uncorrected_ice cat qual) None error.
(** ier.py 81-83, [convert_units], and 85-88, [append_ier_error], for one pixel. *)
Definition ier_metres (data : masked R) : masked R := option_map (fun x => (x / 1000000)%R) data.
Definition ier_error (data : masked R) : masked R :=
  option_map (fun x => (x * sqrt (4 / 10 * (4 / 10) + 4 / 10 * (4 / 10)))%R) data.

(** ** Droplets *)

(** A value of a masked array: the number, or [None] for an infinite one or NaN, and
    whether it is masked. *)
Definition rcell := (masked R * bool)%type.
Definition plain (x : R) : rcell := (Some x, false).
(** The product of masked arrays: under the mask the number of the first factor. *)
Definition ma_mul (a b : rcell) : rcell :=
  if snd a || snd b then (fst a, true)
  else (match fst a, fst b with Some x, Some y => Some (x * y)%R | _, _ => None end, false).
(** The quotient, masked also for a divisor of zero. *)
Definition ma_div (a b : rcell) : rcell :=
  if snd a || snd b then (fst a, true)
  else match fst a, fst b with
       | Some x, Some y => if Req_EM_T y 0 then (fst a, true) else (Some (x / y)%R, false)
       | _, _ => (fst a, true)
       end.
(** [ma.sqrt] of a number that is not negative, or infinite: masked in this case. *)
Definition ma_sqrt (x : masked R) : rcell :=
  match x with Some y => (Some (sqrt y), false) | None => (None, true) end.
(** [x ** (1 / n)] for a number that is not negative. *)
Definition root (n : R) (x : R) : R := if Req_EM_T x 0 then 0%R else exp (ln x / n).
(** der.py 25-31, [Parameters]. *)
Record parameters := { p_ddbz : R; p_n : R; p_dn : R; p_sigma : R; p_dsigma : R; p_dq : R }.
(** der.py 126-128: the default. *)
Definition default_parameters : parameters :=
  {| p_ddbz := 2; p_n := 200000000; p_dn := 200000000; p_sigma := 35 / 100; p_dsigma := 1 / 10; p_dq := 5 / 1000 |}.
(** der.py 116-130, [DerSource.__init__]: without the variable lwp InvalidSourceFileError. *)
Definition der_source (has_lwp : bool) (given : option parameters) : result parameters :=
  if has_lwp then Ok (match given with Some p => p | None => default_parameters end) else Raise InvalidSourceFileError.
(** What is stored for a pixel: der, der_error, der_scaled, N_scaled, der_scaled_error. *)
Record droplets := { o_der : masked R; o_error : masked R; o_scaled : masked R; o_n : masked R; o_scaled_error : masked R }.
Definition no_droplets : droplets :=
  {| o_der := Some 0%R; o_error := Some 0%R; o_scaled := Some 0%R; o_n := Some 0%R; o_scaled_error := Some 0%R |}.
(** der.py 177-212, one gate of a layer: [z] linear reflectivity, [integral] that of the
    gate, [lwp] of the profile.  Arrays that are not masked take the numbers under the
    masks.  A masked [lwp] is a masked constant. *)
Definition gate_droplets (p : parameters) (z integral : R) (lwp : masked R) : droplets :=
  let var_x := (p_sigma p * p_sigma p)%R in
  let dz := (Rabs (exp10 (p_ddbz p / 10)) * z)%R in
  let der := (/ 2 * root 6 (z / p_n p) * exp (- (/ 2) * var_x))%R in
  let a := (p_dn p / (6 * p_n p))%R in
  let b := (p_sigma p * p_dsigma p)%R in
  let c := (dz / (6 * z))%R in
  let der_error := (der * sqrt (a * a + b * b + c * c))%R in
  let a' := ma_div (plain (root 6 z)) (match lwp with Some l => plain (2 * root 3 l) | None => (None, true) end) in
  let b' := root 3 (PI * 1000 / 6) in
  let c' := (root 3 integral * exp (- 2 * var_x))%R in
  let scaled := fst (ma_mul (ma_mul (ma_mul (plain (1 / 1000)) a') (plain b')) (plain c')) in
  let power := match scaled with Some s => Some (((2 * s) / exp (- (/ 2) * var_x)) ^ 6)%R | None => None end in
  let n := fst (ma_div (plain z) (power, false)) in
  let b'' := (4 * p_sigma p * p_dsigma p)%R in
  let c'' := match lwp with
             | Some l => if Req_EM_T l 0 then None else Some (p_dq p / (3 * l))%R
             | None => None
             end in
  let norm := match c'' with Some q => Some (c * c + b'' * b'' + q * q)%R | None => None end in
  let scaled_error := fst (ma_mul (scaled, false) (ma_sqrt norm)) in
  {| o_der := Some der; o_error := Some der_error; o_scaled := scaled; o_n := n; o_scaled_error := scaled_error |}.
(** der.py 163-212, one layer: gates [base] to [top] of profile [t].  The numbers are put
    at the gates with a visible reflectivity. *)
Definition zat (z : image (masked R)) (t g : nat) : masked R :=
  match pixel z t g with Some x => x | None => None end.
Definition layer_droplets (p : parameters) (z : image (masked R)) (lwp : list (masked R)) (path : list R)
  (layer : (nat * nat) * (nat * nat)) (out : image droplets) : image droplets :=
  let '((t, base), (_, top)) := layer in
  let gates := filter (fun g => negb (is_masked (zat z t g))) (seq base (S top - base)) in
  let total := rsum (map (fun g => match zat z t g with Some x => sqrt x | None => 0%R end) gates) in
  imapi (fun i g old =>
    if (i =? t) && existsb (Nat.eqb g) gates then
      match zat z t g with
      | Some x => gate_droplets p x (total * nth g path 0%R) (nth t lwp None)
      | None => old
      end
    else old) out.
(** der.py 214-221: [ma.masked_invalid], [ma.masked_less_equal], times [scale]. *)
Definition finish (scale : R) (x : masked R) : masked R :=
  match x with
  | None => None
  | Some v => if Rle_dec v 0 then None else Some (v * scale)%R
  end.
(** der.py 132-231, [append_der], for reflectivities in decibels, a liquid water path whose
    numbers under the mask are not negative, droplet bits and heights above the ground:
    der, der_error, der_scaled, N_scaled, der_scaled_error for each pixel. *)
Record droplet_product := { u_der : masked R; u_error : masked R; u_scaled : masked R; u_n : masked R; u_scaled_error : masked R }.
Definition append_der (p : parameters) (z : image (masked R)) (lwp : list (masked R)) (is_droplet : image bool)
  (height_agl : list R) : result (image droplet_product) :=
  let z := imap (option_map (fun d => exp10 (d / 10))) z in
  let lwp := map (option_map (fun l => if Rlt_dec l 0 then 0%R else l)) lwp in
  let path := map2 Rminus height_agl (0%R :: height_agl) in
  bind (zip_layers is_droplet) (fun layers =>
  let out := fold_left (fun out layer => layer_droplets p z lwp path layer out) layers (imap (fun _ => no_droplets) z) in
  Ok (imapi (fun t _ d =>
        let hide (x : masked R) := match nth t lwp None with Some _ => x | None => None end in
        {| u_der := finish (1 / 1000) (o_der d); u_error := finish (1 / 1000) (o_error d);
           u_scaled := hide (finish (1 / 1000) (o_scaled d)); u_n := hide (finish 1 (o_n d));
           u_scaled_error := hide (finish (1 / 1000) (o_scaled_error d)) |}) out)).

(** ** The error of the liquid water content *)

(** [np.gradient] of a vector: ValueError for fewer than two values. *)
Definition gradient_at (l : list R) (i : nat) : R :=
  let at_ k := nth k l 0%R in
  if i =? 0 then (at_ 1%nat - at_ 0%nat)%R
  else if S i =? length l then (at_ i - at_ (i - 1)%nat)%R
  else ((at_ (S i) - at_ (i - 1)%nat) / 2)%R.
(** lwc.py 345-349, [_calc_lwc_gradient], for one pixel; masked values count as zero. *)
Definition lwc_gradient (lwc : image (masked R)) (i j : nat) : R :=
  let filled := imap (fun x : masked R => match x with Some v => v | None => 0%R end) lwc in
  let column := map (fun row => nth j row 0%R) filled in
  l2 (gradient_at column i) (gradient_at (nth i filled []) j).
(** lwc.py 357-360, [_limit_error]. *)
Definition limit_error (limit x : R) : R := if Rlt_dec limit x then limit else x.
(** lwc.py 351-355, [_calc_lwp_relative_error], for one profile: zero where the path is
    zero.  For profiles whose path is not masked. *)
Definition lwp_relative_error (error lwp : R) : R :=
  limit_error 10 (if Req_EM_T lwp 0 then 0%R else (error / lwp)%R).
(** lwc.py 332-376, [LwcError], for one pixel: visible where the content is visible and
    not zero, and there is no rain.  Images of at least two profiles and gates. *)
Definition lwc_error (lwc : image (masked R)) (lwp lwp_error : list R) (is_rain : list bool) (i j : nat) : masked R :=
  match pixel lwc i j with
  | Some (Some v) =>
      if Req_EM_T v 0 then None
      else if nth i is_rain false then None
      else Some (l2 (limit_error 5 (lwc_gradient lwc i j / v / 2)) (lwp_relative_error (nth i lwp_error 0%R) (nth i lwp 0%R)))
  | _ => None
  end.
