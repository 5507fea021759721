(** Model of the model fields and the cirrus filter of the model evaluation
    (model_evaluation/products/model_products.py, advance_methods.py,
    product_resampling.py, file_handler.py).  Numbers are rational: rounding and
    floating point division by zero are not modelled.  Arrays are rectangular and the
    fields of the model file have no missing values; what the code masks is [None]. *)
From Coq Require Import QArith.
From Verif Require Import Base ArrayModel GridModel OutputModel ReaderModel TelegramModel.
Local Open Scope string_scope.
Local Open Scope nat_scope.
Local Open Scope list_scope.
Local Notation length := List.length (only parsing).

(** ** Model fields *)
(** The height of the file: with the dimension "level" or not, its unit and its values. *)
Inductive heights := Profiles (h : image Q) | Profile (h : list Q).
Record height_var := { hv_level : bool; hv_units : string; hv_data : heights }.
(** A model file; the fields have a time and a level. *)
Record model_file := { mf_height : option height_var; mf_fields : list (string * image Q); mf_resolution : option (list (masked Q)) }.

(** model_metadata.py 60. *)
Definition altitude_limit : Q := 22000.
(** datasource.py 137-145, [to_m], as a factor. *)
Definition metres (units : string) : result Q :=
  if String.eqb units "km" then Ok 1000%Q
  else if negb (mem_str units ["m"; "meters"]) then Raise ValueError
  else Ok 1%Q.
(** model_products.py 81-87: [np.any(height < limit, axis=0)] and [np.sum]. *)
Definition count_levels (k : Q) (h : heights) : nat :=
  match h with
  | Profiles rows =>
      length (filter (fun j => existsb (fun row => qlt (nth j row 0 * k)%Q altitude_limit) rows) (seq 0 (length (hd [] rows))))
  | Profile row => length (filter (fun x => qlt (x * k)%Q altitude_limit) row)
  end.
(** model_products.py 60-87, [_read_number_of_levels]. *)
Definition number_of_levels (f : model_file) : result nat :=
  match mf_height f with
  | None => Raise ModelDataError
  | Some v => if hv_level v then bind (metres (hv_units v)) (fun k => Ok (count_levels k (hv_data v))) else Raise ModelDataError
  end.
(** model_products.py 185-187, [cut_off_extra_levels], for two dimensions. *)
Definition cut {A} (n : nat) (x : image A) : image A := map (firstn n) x.
Definition cut_heights (n : nat) (h : heights) : heights :=
  match h with Profiles rows => Profiles (cut n rows) | Profile row => Profile (firstn n row) end.

(** model_products.py 124-134, [_getvar_checked]. *)
Definition checked (f : model_file) (name : string) : result (image Q) :=
  match get String.eqb name (mf_fields f) with Some x => Ok x | None => Raise ModelDataError end.
(** datasource.py 70-90, [getvar]. *)
Definition getvar (f : model_file) (name : string) : result (image Q) :=
  match get String.eqb name (mf_fields f) with Some x => Ok x | None => Raise KeyError end.
Definition pointwise {A B C} (op : A -> B -> C) (x : image A) (y : image B) : image C := map2 (map2 op) x y.
(** model_products.py 145-158, [_get_mixing_ratio]; the names are those of MODEL_VARIABLE_NAMES
    and OPTIONAL_IWC_VARIABLES (model_metadata.py 12-27). *)
Definition add_optional (f : model_file) (name : string) (q : image Q) : image Q :=
  match get String.eqb name (mf_fields f) with Some x => pointwise Qplus q x | None => q end.
Definition mixing_ratio (f : model_file) (var : string) : result (image Q) :=
  if String.eqb var "iwc" then bind (checked f "qi") (fun q => Ok (add_optional f "qg" (add_optional f "qs" q)))
  else checked f "ql".
(** constants.py 12. *)
Definition gas_constant : Q := 287058 # 1000.
(** model_products.py 160-164, [_calc_water_content]. *)
Definition calc_water_content (q p t : image Q) : image Q :=
  pointwise Qdiv (pointwise Qmult q p) (map (map (fun x => gas_constant * x)%Q) t).
Definition drop_below (limit x : Q) : masked Q := if qlt x limit then None else Some x.
(** model_products.py 136-143, [get_water_content], without the mask of negative values. *)
Definition raw_content (f : model_file) (n : nat) (var : string) : result (image Q) :=
  bind (checked f "pressure") (fun p => bind (checked f "temperature") (fun t => bind (mixing_ratio f var) (fun q =>
    Ok (cut n (calc_water_content q p t))))).
(** model_products.py 142 and then 110 or 116: first negative values, then small ones. *)
Definition screen_content (limit x : Q) : masked Q :=
  match drop_below 0 x with None => None | Some y => drop_below limit y end.
(** model_products.py 89-118, [_generate_products]. *)
Definition product_field (f : model_file) (n : nat) (product : string) : result (image (masked Q)) :=
  if String.eqb product "cf" then bind (checked f "cloud_fraction") (fun x => Ok (map (map (drop_below (5 # 100))) (cut n x)))
  else if String.eqb product "iwc" then bind (raw_content f n "iwc") (fun x => Ok (map (map (screen_content (1 # 10000000))) x))
  else if String.eqb product "lwc" then bind (raw_content f n "lwc") (fun x => Ok (map (map (screen_content (1 # 100000))) x))
  else Raise KeyError.

Section Manager.
(** [np.sqrt]. *)
Variable sq : Q -> Q.
(** model_products.py 189-195. *)
Definition wind_speed (f : model_file) (n : nat) : result (image Q) :=
  bind (getvar f "uwind") (fun u => bind (getvar f "vwind") (fun v =>
    Ok (pointwise (fun a b => sq (a * a + b * b)%Q) (cut n u) (cut n v)))).
Fixpoint valid {A} (l : list (masked A)) : list A := match l with [] => [] | Some x :: r => x :: valid r | None :: r => valid r end.
(** model_products.py 197-214: [np.unique] of the valid values has one positive element. *)
Definition resolution (f : model_file) : result Q :=
  match mf_resolution f with
  | None => Raise ModelDataError
  | Some l =>
      match valid l with
      | [] => Raise ModelDataError
      | x :: r => if forallb (Qeq_bool x) r && negb (Qle_bool x 0) then Ok x else Raise ModelDataError
      end
  end.
Record manager := { mm_levels : nat; mm_height : heights; mm_product : image (masked Q); mm_wind : image Q; mm_resolution : Q }.
(** model_products.py 43-58, [__init__], with the height of [_add_variables] (166-183). *)
Definition model_manager (f : model_file) (product : string) : result manager :=
  bind (number_of_levels f) (fun n =>
  match mf_height f with
  | None => Raise ModelDataError
  | Some v =>
      bind (product_field f n product) (fun x => bind (wind_speed f n) (fun w => bind (resolution f) (fun r =>
        Ok {| mm_levels := n; mm_height := cut_heights n (hv_data v); mm_product := x; mm_wind := w; mm_resolution := r |})))
  end).
End Manager.

(** ** Cirrus filter *)
Section Cirrus.
Variable sq : Q -> Q.
(** [scipy.stats.gamma.pdf(x, a=alpha, scale=theta)]; [None] is infinite. *)
Variable pdf : Q -> Q -> Q -> option Q.

(** advance_methods.py 125-135, [mask_weird_indices].  The index is the data of a masked
    array; it differs from this only where the cloud fraction is masked already. *)
Definition weird (cf iwc lwc : Q) : bool :=
  (qlt (5 # 10000) (iwc / cf) && qlt cf (1 # 1000)) || (Qeq_bool iwc 0 && Qeq_bool lwc 0 && Qeq_bool cf 0).
(** The cloud fraction of [_get_cf] after this; [cf] is the value of the file. *)
Definition cf_filtered (cf iwc lwc : Q) : masked Q := if weird cf iwc lwc then None else drop_below (5 # 100) cf.
(** advance_methods.py 147-153, [get_ice_indices]: [np.where] ignores the masks. *)
Definition ice (cf iwc lwc : Q) : bool := qlt 0 cf && qlt 0 iwc && qlt lwc (iwc / 10).
(** advance_methods.py 119-120: one value of the masked array that is summed. *)
Definition counted (x : Q * Q * Q) : masked bool :=
  let '(cf, iwc, lwc) := x in
  match cf_filtered cf iwc lwc, drop_below 0 iwc, drop_below 0 lwc with
  | Some _, Some _, Some _ => Some (ice cf iwc lwc)
  | _, _, _ => None
  end.
(** The sum is masked, and not zero, if everything is masked. *)
Definition no_ice (l : list (Q * Q * Q)) : bool :=
  match valid (map counted l) with [] => false | bs => negb (existsb (fun b => b) bs) end.

(** advance_methods.py 201: [np.arange(0, finish, finish / 249)]. *)
Definition grid (finish : Q) : list Q := map (fun k => inject_Z (Z.of_nat k) * (finish / 249))%Q (seq 0 249).
(** advance_methods.py 191-205, [calculate_iwc_distribution]. *)
Definition iwc_distribution (cloud_iwc variance : Q) : list Q :=
  let d := grid (cloud_iwc + 5 * (sq variance * cloud_iwc))%Q in
  if qlt cloud_iwc (nth 2 d 0%Q) then grid (cloud_iwc * 10)%Q else d.
(** advance_methods.py 207-213, [gamma_distribution]. *)
Definition gamma_distribution (d : list Q) (variance cloud_iwc : Q) : list (option Q) :=
  map (fun x => pdf x (1 / variance)%Q (cloud_iwc / (1 / variance))%Q) d.
Definition qsum (l : list Q) : Q := fold_right Qplus 0%Q l.
(** advance_methods.py 215-221, [filter_cirrus]. *)
Definition filter_cirrus (p : list Q) (seen : list bool) (cf : Q) : Q :=
  (qsum (map2 (fun x b => if b : bool then x else 0) p seen) / qsum p * cf)%Q.
(** advance_methods.py 60-80, one ice pixel with cloud fraction [cf]; [least] is the
    smallest ice water content that the radar detects (78). *)
Definition ice_pixel (cf iwc variance least : Q) : masked Q :=
  let c := (iwc / cf * 1000)%Q in
  let d := iwc_distribution c variance in
  let p := gamma_distribution d variance c in
  if existsb (fun x => match x with None => true | Some _ => false end) p then None
  else
    let ps := valid p in
    if Qeq_bool (qsum ps) 0 || qlt ((1 # 100) * qsum ps) (last ps 0%Q) then None
    else Some (filter_cirrus ps (map (qlt least) d) cf).
(** Lines 60-82 for one pixel; a masked cloud fraction makes [calculate_iwc_distribution]
    raise ValueError, which is skipped. *)
Definition cirrus_pixel (cf iwc lwc variance least : Q) : masked Q :=
  match cf_filtered cf iwc lwc with
  | None => None
  | Some x =>
      match (if ice cf iwc lwc then ice_pixel x iwc variance least else Some x) with
      | None => None
      | Some y => drop_below (5 # 100) y
      end
  end.
(** The values of a pixel: cloud fraction, ice and liquid water content, variance and
    detection limit. *)
Record pixel := { px_cf : Q; px_iwc : Q; px_lwc : Q; px_variance : Q; px_least : Q }.
(** advance_methods.py 48-84, [cf_cirrus_filter]; [frequency], [sensitivity] and [height]: the
    observation file has them (93-111). *)
Definition cirrus_filter (frequency sensitivity height : bool) (pixels : image pixel) : result (image (masked Q)) :=
  if negb frequency then Raise ValueError
  else if negb sensitivity then Raise ValueError
  else if negb height then Raise ValueError
  else if no_ice (map (fun x => (px_cf x, px_iwc x, px_lwc x)) (List.concat pixels)) then Raise ValueError
  else Ok (map (map (fun x => cirrus_pixel (px_cf x) (px_iwc x) (px_lwc x) (px_variance x) (px_least x))) pixels).

(** advance_methods.py 181-184: the gradient of [w]; the first index of the arrays is time. *)
Definition gradient_row (w h : image Q) (b a : nat) : list Q :=
  map2 Qdiv (map2 Qminus (nth b w []) (nth a w [])) (map2 Qminus (nth b h []) (nth a h [])).
Definition gradient (w h : image Q) : result (image Q) :=
  let n := length w in
  if n <? 2 then Raise IndexError
  else Ok (map (fun i => if i =? 0 then gradient_row w h 1 0
                         else if i =? n - 1 then gradient_row w h (n - 1) (n - 2)
                         else gradient_row w h (i + 1) (i - 1)) (seq 0 n)).
(** advance_methods.py 172-189, [calculate_wind_shear]. *)
Definition wind_shear (wind u v h : image Q) : result (image Q) :=
  bind (gradient wind h) (fun gw => bind (gradient u h) (fun gu => bind (gradient v h) (fun gv =>
    Ok (pointwise (fun g s => if qlt g 0 then (0 - s)%Q else s) gw (pointwise (fun a b => sq (a * a + b * b)%Q) gu gv))))).
End Cirrus.

(** ** The file of a day *)
(** The variables of the file: product_resampling.py 66-70 with model_products.py 166-183 and
    grid_methods.py 87-110; [cirrus]: the filter did not raise ValueError. *)
Definition l3_names (present : list string) (product : string) (cirrus : bool) : list string :=
  filter (fun k => mem_str k present) ["time"; "level"; "latitude"; "longitude"; "horizontal_resolution"] ++
  (if mem_str "forecast_time" present then ["model_forecast_time"] else []) ++ ["model_height"] ++
  [("model_" ++ product)%string] ++
  (if String.eqb product "cf" then (if cirrus then ["model_cf_cirrus"] else []) ++ ["cf_V"; "cf_A"; "cf_V_adv"; "cf_A_adv"]
   else [product; (product ++ "_adv")%string]).
(** The units of model_evaluation/metadata.py 3-211. *)
Definition model_attributes : list (string * string) :=
  [("time", ""); ("latitude", "degree_north"); ("longitude", "degree_east"); ("horizontal_resolution", "km"); ("level", "1")].
Definition cycle_attributes : list (string * string) :=
  [("forecast_time", "hours"); ("height", "m"); ("pressure", "Pa"); ("temperature", "K"); ("uwind", "m s-1"); ("vwind", "m s-1");
   ("wwind", "m s-1"); ("omega", "Pa s-1"); ("q", "1"); ("rh", "1")].
Definition l3_attributes : list (string * string) := [("cf", "1"); ("cf_cirrus", "1"); ("iwc", "kg m-3"); ("lwc", "kg m-3")].
Definition regrid_attributes : list (string * string) :=
  [("cf_V", "1"); ("cf_A", "1"); ("cf_V_adv", "1"); ("cf_A_adv", "1"); ("iwc", "kg m-3"); ("iwc_adv", "kg m-3");
   ("lwc", "kg m-3"); ("lwc_adv", "kg m-3")].
(** cloudnetarray.py 97-102, [set_attributes], for the units: empty ones are not set. *)
Definition set_units (new : string) (units : option string) : option string := if String.eqb new "" then units else Some new.
Definition set_from (table : list (string * string)) (key : string) (units : option string) : option string :=
  match get String.eqb key table with Some new => set_units new units | None => units end.
Definition has_key (table : list (string * string)) (key : string) : bool :=
  match get String.eqb key table with Some _ => true | None => false end.
Fixpoint after_prefix (p s : string) : option string :=
  match p, s with
  | EmptyString, _ => Some s
  | String a p', String b s' => if Ascii.eqb a b then after_prefix p' s' else None
  | _, _ => None
  end.
(** file_handler.py 26-49, [update_attributes], for the units of one variable without
    units; [date] is the date in the units of the time (117-131). *)
Definition l3_units (date key : string) : option string :=
  let units := set_from [("time", ("hours since " ++ date ++ " 00:00:00 +00:00")%string)] key None in
  if has_key model_attributes key then set_from model_attributes key units
  else match after_prefix "model_" key with
       | Some base =>
           if has_key l3_attributes base then set_from l3_attributes base units
           else set_from cycle_attributes base units
       | None => set_from regrid_attributes key units
       end.
(** product_resampling.py 62-91, [process_L3_day_product]: [content], the output file exists
    and is not empty; [model] and [cirrus] are the results of [ModelManager] and of the filter,
    [rest] that of the steps after it.  FileExistsError is an OSError. *)
Definition process_l3 {A B C} (content overwrite : bool) (product : string) (present : list string) (observation : result A) (model : result B)
  (cirrus : result C) (rest : result unit) : result (list string) :=
  if content && negb overwrite then Raise OSError
  else bind observation (fun _ => bind model (fun _ =>
    bind (if String.eqb product "cf"
          then match cirrus with Ok _ => Ok true | Raise ValueError => Ok false | Raise e => Raise e end
          else Ok false) (fun c => bind rest (fun _ => Ok (l3_names present product c))))).
