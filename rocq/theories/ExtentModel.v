(** Model of the dimensions of level 1b files (output.py) and of the curve of the wind
    direction in figures (plotting/plotting.py). *)
From Verif Require Import Base PlotModel.
From Coq Require Import String Qround Qabs.
Open Scope string_scope.
Open Scope nat_scope.
Open Scope list_scope.
Local Notation length := List.length (only parsing).

(** ** Dimensions *)

(** The shape of every array of the object, the first number being its length: all arrays
    have at least one dimension. *)
Record shape := { s_first : nat; s_rest : list nat }.
Definition dimensions := list (string * nat).
(** [array.shape[1]]. *)
Definition second (s : shape) : result nat := match s_rest s with n :: _ => Ok n | [] => Raise IndexError end.
(** output.py 46-68, [_get_netcdf_dimensions]; [n_diameter] and [n_velocity] are missing for
    objects that are no disdrometer.  The names are never written twice, so that the
    dictionary is a list. *)
Definition get_dimensions (data : string -> option shape) (n_diameter n_velocity : option nat) : result dimensions :=
  let basic := flat_map (fun k => match data k with Some s => [(k, s_first s)] | None => [] end) ["time"; "range"] in
  let chirps := match data "chirp_start_indices" with
                | Some s => [("chirp_sequence", match s_rest s with n :: _ => n | [] => s_first s end)]
                | None => []
                end in
  let drops := match n_diameter, n_velocity with
               | Some d, Some v => [("diameter", d); ("velocity", v); ("nv", 2)]
               | _, _ => []
               end in
  bind (match data "tb" with
        | None => Ok []
        | Some s => bind (second s) (fun f =>
            match data "receiver_nb" with
            | None => Raise KeyError
            | Some r => Ok [("frequency", f); ("receiver_nb", s_first r); ("band", 2); ("t_amb_nb", 2)]
            end)
        end) (fun hatpro =>
  bind (match data "irt" with None => Ok [] | Some s => bind (second s) (fun n => Ok [("ir_channel", n)]) end) (fun irt =>
  Ok (basic ++ chirps ++ drops ++ hatpro ++ irt))).

(** ** Wind direction *)

(** [x % 360]. *)
Definition mod360 (x : Q) : Q := (x - 360 * inject_Z (Qfloor (x / 360)))%Q.
(** [data[np.where(np.abs(np.diff(data)) > 300)[0]] = np.nan]: the differences are those
    before any value is removed; [None] is nan. *)
Fixpoint cut_wraps (l : list Q) : list (option Q) :=
  match l with
  | [] => []
  | x :: r => (match r with
               | y :: _ => if Qle_bool (Qabs (y - x)) 300 then Some x else None
               | [] => Some x
               end) :: cut_wraps r
  end.
(** plotting.py 1091-1106, [_calculate_average_wind_direction]: cosine and sine of degrees
    and the angle of a vector in degrees are inputs.  [None] if the moving average has no
    width. *)
Definition average_direction (cosine sine : Q -> Q) (angle : Q -> Q -> Q) (speed direction time : list Q) (window : Q) : option (list (option Q)) :=
  let u := map (fun p => fst p * cosine (snd p))%Q (combine speed direction) in
  let v := map (fun p => fst p * sine (snd p))%Q (combine speed direction) in
  match calculate_moving_average u time window, calculate_moving_average v time window with
  | Some au, Some av => Some (cut_wraps (map (fun p => mod360 (angle (snd p) (fst p))) (combine au av)))
  | _, _ => None
  end.
