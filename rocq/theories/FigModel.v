(** Model of the choice of what a figure shows (plotting/plotting.py): the variables
    asked for, the axes, brightness temperatures, and the units.  Drawing itself is not
    modelled, only the numbers and texts handed to matplotlib. *)
From Verif Require Import Base GridModel DropletModel SiteModel.
From Coq Require Import String Ascii Qabs.
Open Scope string_scope.
Open Scope nat_scope.
Open Scope list_scope.
Local Notation length := List.length (only parsing).

(** [PlottingError] is not among the exceptions of the base model. *)
Inductive outcome (A : Type) : Type :=
| Done (a : A)
| PlottingError
| Other (e : exn).
Arguments Done {A} a.
Arguments PlottingError {A}.
Arguments Other {A} e.

(** ** Variables of a figure *)

(** plotting.py 172-178, one requested name; [None] is ValueError. *)
Definition extract (name : string) : option (string * option Z) :=
  if String.prefix "tb_" name || String.prefix "irt_" name then
    let parts := split_on "_"%char name in
    match parse_int (nth 1 parts "") with
    | Some i => Some (nth 0 parts "", Some i)
    | None => None
    end
  else Some (name, None).
Fixpoint mem_name (x : string) (l : list string) : bool :=
  match l with [] => false | y :: r => String.eqb x y || mem_name x r end.
(** plotting.py 171-181, the loop. *)
Fixpoint collect (variables requested : list string) : option (list (string * option Z)) :=
  match requested with
  | [] => Some []
  | name :: r =>
      match extract name with
      | None => None
      | Some (x, i) =>
          match collect variables r with
          | None => None
          | Some l => Some (if mem_name x variables then (x, i) :: l else l)
          end
      end
  end.
(** plotting.py 166-185, [_get_valid_variables_and_indices]; [variables] are the names
    in the file. *)
Definition get_valid (variables requested : list string) : outcome (list (string * option Z)) :=
  match collect variables requested with
  | None => Other ValueError
  | Some [] => PlottingError
  | Some l => Done l
  end.
(** plotting.py 304-308, the title of a panel: what is added to the long name. *)
Definition channel_in_title (name : string) (ind : option Z) : option Z :=
  if String.eqb name "tb" then option_map (fun i => i + 1)%Z ind else None.

(** ** Axes *)

(** What [_get_height] reads: one-dimensional variables, the heights of a model file by
    time, and the altitude of the ground of a model file (plotting.py 229-237, not
    modelled). *)
Record contents := {
  var_1d : string -> option (list (masked Q));
  model_height : image (masked Q);
  ground : Q
}.
Definition shift (d : masked Q) (x : masked Q) : masked Q :=
  match x, d with Some a, Some b => Some (a - b)%Q | _, _ => None end.
Definition scale (f : Q) (x : masked Q) : masked Q := option_map (fun a => a * f)%Q x.
Definition altitude_median (l : list (masked Q)) : masked Q := median (unmasked l).
(** plotting.py 203-227, [_get_height]; [n] is the number of levels of a model file.
    [Ok None] is the missing axis. *)
Definition y_axis (file_type : string) (above_ground : bool) (n : nat) (f : contents) : result (option (list (masked Q))) :=
  if String.eqb file_type "cpr-simulation" then
    match var_1d f "height_sat" with
    | None => Raise KeyError
    | Some h =>
        if above_ground then
          match var_1d f "altitude" with
          | None => Raise KeyError
          | Some alt => Ok (Some (map (fun x => scale (1 # 1000) (shift (altitude_median alt) x)) h))
          end
        else Ok (Some (map (scale (1 # 1000)) h))
    end
  else if String.eqb file_type "model" then
    let h := map (fun j => ma_stat mean (column (model_height f) j)) (seq 0 n) in
    let h := if above_ground then h else map (option_map (fun x => x + ground f)%Q) h in
    Ok (Some (map (scale (1 # 1000)) h))
  else
    match var_1d f "height" with
    | Some h =>
        if above_ground then
          match var_1d f "altitude" with
          | None => Raise ValueError
          | Some alt => Ok (Some (map (fun x => scale (1 # 1000) (shift (altitude_median alt) x)) h))
          end
        else Ok (Some (map (scale (1 # 1000)) h))
    | None =>
        match var_1d f "range" with
        | Some r => Ok (Some (map (scale (1 # 1000)) r))
        | None =>
            match var_1d f "diameter" with
            | Some d => Ok (Some (map (scale 1000) d))
            | None => Ok None
            end
        end
    end.
(** plotting.py 290-299, the default label of the y axis. *)
Definition y_label (above_ground : bool) : string :=
  if above_ground then "Height (km AGL)" else "Height (km AMSL)".

(** ** Brightness temperatures *)

(** plotting.py 1056-1065, [_get_bad_zenith_profiles] for [n] profiles: the pointing flag
    and the zenith angle; both without masked values. *)
Definition bad_zenith (n : nat) (pointing : option (list Z)) (zenith : option (list Q)) : result (list bool) :=
  match pointing with
  | None => Ok (repeat false n)
  | Some flags =>
      match zenith with
      | None => Raise KeyError
      | Some angles => Ok (map (fun p => qlt 5 (Qabs (snd p)) || negb (Z.eqb (fst p) 0)) (combine flags angles))
      end
  end.
(** [data[:, i]] for [n] columns, after the test of plotting.py 894. *)
Definition column_index (n : nat) (i : Z) : outcome nat :=
  if (Z.of_nat n <=? i)%Z then PlottingError
  else if (0 <=? i)%Z then Done (Z.to_nat i)
  else if (- Z.of_nat n <=? i)%Z then Done (Z.to_nat (Z.of_nat n + i))
  else Other IndexError.
Definition all_masked (l : list (masked Q)) : bool := forallb (fun x => match x with Some _ => false | None => true end) l.
Fixpoint mask_where (bad : list bool) (l : list (masked Q)) : list (masked Q) :=
  match l with
  | [] => []
  | x :: r => match bad with
              | [] => x :: r
              | b :: s => (if b then None else x) :: mask_where s r
              end
  end.
(** The values of column [j] of a two-dimensional flag, with [> 0]. *)
Definition flag_column (flags : image Z) (j : nat) : list bool :=
  map (fun row => match nth_error row j with Some v => (0 <? v)%Z | None => false end) flags.
(** [figure_data.time[flags], self._data_orig[flags]]. *)
Definition points (time : list Q) (l : list (masked Q)) (flags : list bool) : list (Q * masked Q) :=
  map snd (filter fst (combine flags (combine time l))).
Fixpoint and_not (flags bad : list bool) : list bool :=
  match flags, bad with f :: r, b :: s => (f && negb b) :: and_not r s | _, _ => [] end.
(** plotting.py 540-550, [_read_flagged_data], for "tb": the first of three variables;
    two-dimensional flags only.  [None]: an empty array. *)
Definition read_flags (flag_vars : string -> option (image Z)) : option (image Z) :=
  match flag_vars "tb_quality_flag" with
  | Some f => Some f
  | None => match flag_vars "temperature_quality_flag" with
            | Some f => Some f
            | None => flag_vars "quality_flag"
            end
  end.
(** plotting.py 893-914, [plot_tb], and the first lines of [plot] (840-843), for "tb":
    what is drawn and which points are marked as flagged.  A NaN is a masked value;
    [_show_frequency] is left out.  [data] has [n] columns. *)
Definition plot_tb (raise_on_empty : bool) (n : nat) (data : image (masked Q)) (time : list Q)
  (pointing : option (list Z)) (zenith : option (list Q)) (flag_vars : string -> option (image Z)) (freq_ind : Z)
  : outcome (list (masked Q) * list (Q * masked Q)) :=
  match column_index n freq_ind with
  | PlottingError => PlottingError
  | Other e => Other e
  | Done j =>
      let col := column data j in
      if all_masked col && raise_on_empty then PlottingError
      else match bad_zenith (length time) pointing zenith with
           | Raise e => Other e
           | Ok bad =>
               let shown := mask_where bad col in
               match read_flags flag_vars with
               | None => Other IndexError
               | Some f =>
                   let flags := and_not (flag_column f j) bad in
                   if all_masked shown && raise_on_empty then PlottingError
                   else Done (shown, points time shown flags)
               end
           end
  end.

(** ** Units *)

(** plotting.py 397-422, the table: a factor or a summand. *)
Definition k_to_c : bool * Q := (false, -27315 # 100).
Definition conversions : list (string * (bool * Q)) :=
  [("rainfall_rate", (true, 3600000 # 1)); ("snowfall_rate", (true, 3600000 # 1));
   ("precipitation_rate", (true, 3600000 # 1)); ("air_pressure", (true, 1 # 100));
   ("relative_humidity", (true, 100 # 1)); ("rh", (true, 100 # 1));
   ("rainfall_amount", (true, 1000 # 1)); ("snowfall_amount", (true, 1000 # 1));
   ("precipitation_amount", (true, 1000 # 1)); ("air_temperature", k_to_c);
   ("temperature", k_to_c); ("Tw", k_to_c); ("T_sensor", k_to_c); ("T_ambient", k_to_c);
   ("T_interior", k_to_c); ("T_laser_driver", k_to_c); ("transmitter_temperature", k_to_c);
   ("receiver_temperature", k_to_c); ("pc_temperature", k_to_c);
   ("r_accum_RT", (true, 1000 # 1)); ("r_accum_NRT", (true, 1000 # 1));
   ("cloud_top_height_agl", (true, 1 # 1000))].
Fixpoint conversion_of (name : string) (l : list (string * (bool * Q))) : bool * Q :=
  match l with
  | [] => (true, 1%Q)
  | (k, v) :: r => if String.eqb name k then v else conversion_of name r
  end.
(** plotting.py 423-431: the values; masked ones stay masked. *)
Definition convert_units (name : string) (data : list (masked Q)) : list (masked Q) :=
  let (multiply, c) := conversion_of name conversions in
  map (option_map (fun x => if multiply then x * c else x + c)%Q) data.

Definition is_letter (c : ascii) : bool :=
  let n := nat_of_ascii c in ((65 <=? n) && (n <=? 90)) || ((97 <=? n) && (n <=? 122)).
Definition is_digit (c : ascii) : bool := let n := nat_of_ascii c in (48 <=? n) && (n <=? 57).
(** The longest run of digits, and the rest. *)
Fixpoint span_digits (s : string) : string * string :=
  match s with
  | String c r => if is_digit c then let (d, t) := span_digits r in (String c d, t) else ("", s)
  | EmptyString => ("", "")
  end.
(** [-?\d+] at the start of the text. *)
Definition exponent (s : string) : option (string * string) :=
  let (sign, r) := match s with
                   | String c r => if Ascii.eqb c "-"%char then ("-", r) else ("", s)
                   | EmptyString => ("", "")
                   end in
  match span_digits r with
  | (EmptyString, _) => None
  | (d, t) => Some ((sign ++ d)%string, t)
  end.
(** [re.sub] of plotting.py 1227: the leftmost match, then on behind it; ASCII texts.
    The fuel is the length of the text. *)
Fixpoint superscript (fuel : nat) (s : string) : string :=
  match fuel with
  | O => s
  | S n =>
      match s with
      | EmptyString => EmptyString
      | String c r =>
          if is_letter c then
            match exponent r with
            | Some (e, t) => String c ("$^{" ++ e ++ "}$" ++ superscript n t)
            | None => String c (superscript n r)
            end
          else String c (superscript n r)
      end
  end.
(** plotting.py 1224-1227, [_reformat_units], of a text. *)
Definition reformat_units (units : string) : string :=
  if String.eqb units "1" then "" else superscript (String.length units) units.
