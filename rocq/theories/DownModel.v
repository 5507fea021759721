(** Model of the averaging of observations onto the model grid, with the advection
    window and the two cloud fractions (model_evaluation/products/grid_methods.py and
    tools.py), and of the bundling of netCDF files of one day (concat_lib.py). *)
From Verif Require Import Base ArrayModel OutputModel GridModel TimeModel SiteModel ConcatModel.
Open Scope string_scope.
Open Scope nat_scope.
Open Scope list_scope.
Local Notation length := List.length (only parsing).

(** ** Advection window *)

(** tools.py 24-41, [calculate_advection_time], one value in hours.  The division of
    masked arrays masks a division by zero; masked values are set to 0.
    Simplification: the rounding of [timedelta] to microseconds is left out. *)
Definition advection_time (resolution : Q) (wind : masked Q) (sampling : Q) : Q :=
  let t := match wind with
           | Some w => if Qeq_bool w 0 then 0%Q else (resolution * 1000 / w / 3600)%Q
           | None => 0%Q
           end in
  if qlt (1 / sampling) t then (1 / sampling)%Q else t.
(** tools.py 55-64, [get_adv_indices], without a mask. *)
Definition get_adv_indices (model_t adv_t : Q) (data : list Q) : list bool :=
  map (fun x => Qle_bool (model_t - adv_t / 2) x && qlt x (model_t + adv_t / 2)) data.

(** ** Cells *)

(** [np.where(ind)[0]], counted from [k]. *)
Fixpoint wheres (k : nat) (l : list bool) : list nat :=
  match l with [] => [] | b :: r => if b then k :: wheres (S k) r else wheres (S k) r end.
(** tools.py 67-73, [get_obs_window_size]. *)
Definition get_obs_window_size (ind_x ind_y : list bool) : option (nat * nat) :=
  match wheres 0 ind_x, wheres 0 ind_y with
  | x0 :: xs, y0 :: ys => Some (last (x0 :: xs) 0 - x0 + 1, last (y0 :: ys) 0 - y0 + 1)
  | _, _ => None
  end.
(** [data.reshape((n, m))]: ValueError unless the sizes agree. *)
Fixpoint split_rows {A} (n m : nat) (l : list A) : image A :=
  match n with 0 => [] | S n' => firstn m l :: split_rows n' m (skipn m l) end.
Definition reshape {A} (n m : nat) (l : list A) : result (image A) :=
  if length l =? n * m then Ok (split_rows n m l) else Raise ValueError.
(** grid_methods.py 110-120, [_reshape_data_to_window]; [None] if there is no window.
    Simplification: the observations have one row per observation time and one value
    per height (dimensions of one netCDF file). *)
Definition reshape_data_to_window (x_ind y_ind : list bool) (obs : image (masked Q))
  : result (option (image (masked Q))) :=
  match get_obs_window_size x_ind y_ind with
  | Some (n, m) => bind (reshape n m (select_window x_ind y_ind obs)) (fun d => Ok (Some d))
  | None => Ok None
  end.
(** tools.py 81-90, [fraction_of_cloudy_columns]: the sum of a profile is masked if
    all its pixels are masked. *)
Definition fraction_of_cloudy_columns (data : image (masked Q)) : masked Q :=
  ma_stat mean (map (fun row => option_map (fun s => if qlt 0 s then 1%Q else 0%Q)
                                  (ma_stat (fold_right Qplus 0%Q) row)) data).
(** grid_methods.py 122-131, [_regrid_cf]: the values by volume and by area.  NaN is
    not modelled. *)
Definition cf_cell (data : image (masked Q)) : masked Q * masked Q :=
  let all := List.concat data in
  (ma_stat mean all,
   match unmasked all with [] => ma_stat mean all | _ => fraction_of_cloudy_columns data end).

(** What is written for a cell: by volume, by area, and both in the advection window. *)
Record fractions := { cf_V : masked Q; cf_A : masked Q; cf_V_adv : masked Q; cf_A_adv : masked Q }.
Definition no_fractions : fractions :=
  {| cf_V := Some 0%Q; cf_A := Some 0%Q; cf_V_adv := Some 0%Q; cf_A_adv := Some 0%Q |}.
(** grid_methods.py 65-77, the cloud fractions of a cell. *)
Definition cf_fields (obs : image (masked Q)) (x_ind x_adv y_ind : list bool) : result fractions :=
  bind (reshape_data_to_window x_ind y_ind obs) (fun data =>
  match data with
  | None => Ok no_fractions
  | Some d =>
      bind (reshape_data_to_window x_adv y_ind obs) (fun data_adv =>
      let (v, a) := cf_cell d in
      match data_adv with
      | None => Ok {| cf_V := v; cf_A := a; cf_V_adv := Some 0%Q; cf_A_adv := Some 0%Q |}
      | Some d' =>
          let (v', a') := cf_cell d' in
          Ok {| cf_V := v; cf_A := a; cf_V_adv := v'; cf_A_adv := a' |}
      end)
  end).
(** grid_methods.py 78-84, the two averages of any other product. *)
Definition product_fields (obs : image (masked Q)) (x_ind x_adv y_ind : list bool)
  : result (masked Q * masked Q) :=
  Ok (regrid_product x_ind y_ind obs, regrid_product x_adv y_ind obs).

(** ** The grid *)

(** An observation file and a model file.  Times are hours of the day; both are moved
    to the date of the observations. *)
Record grids := {
  gr_obs_time : list Q; gr_obs_height : list Q;
  gr_model_time : list Q; gr_model_height : image Q;
  gr_resolution : Q; gr_wind : image (masked Q) }.

(** grid_methods.py 47-64, cell [(i, j)]. *)
Definition grid_cell {C} (fields : list bool -> list bool -> list bool -> result C)
  (g : grids) (t_edges y_edges : list Q) (i j : nat) : result C :=
  match nth_error (gr_model_time g) i, nth_error (gr_wind g) i with
  | Some t, Some winds =>
      match nth_error winds j with
      | Some w =>
          fields (window t_edges (gr_obs_time g) i)
                 (get_adv_indices t (advection_time (gr_resolution g) w 1) (gr_obs_time g))
                 (window y_edges (gr_obs_height g) j)
      | None => Raise IndexError
      end
  | _, _ => Raise IndexError
  end.
(** grid_methods.py 47-52, time step [i]. *)
Definition grid_row {C} (fields : list bool -> list bool -> list bool -> result C)
  (g : grids) (t_edges : list Q) (i : nat) : result (list C) :=
  match nth_error (gr_model_height g) i with
  | Some heights =>
      bind (rebin_edges heights) (fun y_edges =>
      sequence (map (grid_cell fields g t_edges y_edges i) (seq 0 (length y_edges - 1))))
  | None => Raise IndexError
  end.
(** grid_methods.py 23-39 and 41-85: the fields written; rows of heights without a
    model time keep the initial value. *)
Definition downsample {C} (initial : C) (fields : list bool -> list bool -> list bool -> result C)
  (g : grids) : result (image C) :=
  bind (binvec (gr_model_time g)) (fun t_edges =>
  bind (sequence (map (grid_row fields g t_edges) (seq 0 (length t_edges - 1)))) (fun rows =>
  Ok (rows ++ map (map (fun _ => initial)) (skipn (length rows) (gr_model_height g))))).
(** grid_methods.py 87-108: all fields start with zeros. *)
Definition downsample_product (obs : image (masked Q)) (g : grids) : result (image (masked Q * masked Q)) :=
  downsample (Some 0%Q, Some 0%Q) (product_fields obs) g.
Definition downsample_cf (obs : image (masked Q)) (g : grids) : result (image fractions) :=
  downsample no_fractions (cf_fields obs) g.

(** ** Bundling *)

(** A file as seen by the bundling: whether it can be opened, its dimensions, units of
    the time variable if it has that attribute, and the contents for the concatenation;
    [bf_time] is [None] without a variable time.  Simplification: no masked time
    stamps. *)
Record bfile := {
  bf_readable : bool;
  bf_dimensions : list string;
  bf_time : option (list Q);
  bf_units : option string;
  bf_content : cfile }.
(** Days since some midnight of a calendar date, in the proleptic Gregorian calendar
    (Python library reference, [date.toordinal]). *)
Definition year_days (y : Z) : Z := ((y - 1) * 365 + (y - 1) / 4 - (y - 1) / 100 + (y - 1) / 400)%Z.
Definition day_number (d : Z * Z * Z) : Z :=
  let '(y, m, day) := d in
  (year_days y + fold_right Z.add 0 (map (fun k => month_days y (Z.of_nat k)) (seq 1 (Z.to_nat m - 1))) + day)%Z.
(** concat_lib.py 347-354: the first of the dimensions that the file has. *)
Fixpoint first_dimension (wanted present : list string) : option string :=
  match wanted with
  | [] => None
  | k :: r => if mem_string k present then Some k else first_dimension r present
  end.
(** concat_lib.py 359-372, one file of the loop: whether it is used. *)
Definition file_on_date (current_year : Z) (date : Z * Z * Z) (f : bfile) : result bool :=
  if bf_readable f then
    match bf_time f with
    | None => Raise KeyError
    | Some time =>
        match bf_units f with
        | None => Raise AttributeError
        | Some units =>
            bind (get_epoch current_year units) (fun epoch =>
            Ok (existsb (fun t => (day_of (day_number epoch * us_in_day) t =? day_number date)%Z) time))
        end
    end
  else Ok false.
Fixpoint valid_on_date (current_year : Z) (date : Z * Z * Z) (l : list bfile) : result (list bfile) :=
  match l with
  | [] => Ok []
  | f :: r => bind (file_on_date current_year date f) (fun b =>
              bind (valid_on_date current_year date r) (fun fs => Ok (if b then f :: fs else fs)))
  end.
(** What the output file holds: a copy, or the concatenation along a dimension. *)
Inductive bundled :=
| Copied (f : bfile)
| Joined (dimension : string) (out : cout).
Definition bundle_ignore : list string :=
  ["minimum"; "maximum"; "number_integrated_samples"; "Min_LWP"; "Max_LWP"].
(** concat_lib.py 336-385, [bundle_netcdf_files]: the files returned and the output.
    Simplifications: the concatenation is that of [ConcatModel] whatever the name of
    the dimension; [shutil.copy] does not fail; overflow of dates is not modelled. *)
Definition bundle_netcdf_files (current_year : Z) (files : list bfile) (date : Z * Z * Z)
  (dimensions : list string) (variables : option (list string)) : result (list bfile * bundled) :=
  match files with
  | [] => Raise IndexError
  | f0 :: rest =>
      if bf_readable f0 then
        match first_dimension dimensions (bf_dimensions f0) with
        | None => Raise KeyError
        | Some dim =>
            match rest with
            | [] => Ok (files, Copied f0)
            | _ =>
                bind (valid_on_date current_year date files) (fun fs =>
                bind (concatenate_files (map bf_content fs) variables (Some bundle_ignore)) (fun r =>
                Ok (fs, Joined dim (snd r))))
            end
        end
      else Raise OSError
  end.
