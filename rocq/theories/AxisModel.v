(** Model of the axes of level 3 figures (model_evaluation/plotting/plot_tools.py).
    Numbers are exact rationals; times have no masked values. *)
From Verif Require Import Base GridModel.
From Coq Require Import String.
Open Scope nat_scope.
Open Scope list_scope.
Local Notation length := List.length (only parsing).

(** plot_tools.py 99-103, [reshape_1d2nd]: an array like the data with the times in all
    columns.  [new_arr[:, i] = one_d] broadcasts a single time and is ValueError for other
    lengths; [two_d[0]] is IndexError without rows. *)
Definition reshape_1d2nd {A : Type} (one_d : list Q) (two_d : image A) : result (image Q) :=
  match two_d with
  | [] => Raise IndexError
  | row :: _ =>
      let w := length row in
      if w =? 0 then Ok (map (fun _ => []) two_d)
      else if length one_d =? length two_d then Ok (map (fun t => repeat t w) one_d)
      else match one_d with
           | [t] => Ok (map (fun _ => repeat t w) two_d)
           | _ => Raise ValueError
           end
  end.

(** What is handed to the figure: two-dimensional axes, or one-dimensional ones with the
    transposed data. *)
Inductive axes :=
| TwoD (data : image (masked Q)) (x : image Q) (y : image (masked Q))
| OneD (data : image (masked Q)) (x : list Q) (y : list (masked Q)).

Definition is_masked {A} (x : masked A) : bool := match x with None => true | Some _ => false end.
(** [data.T] of an array whose rows have the length of the first one. *)
Definition transposed (data : image (masked Q)) : image (masked Q) :=
  match data with [] => [] | row :: _ => map (column data) (seq 0 (length row)) end.
(** plot_tools.py 130-145, [change2one_dim_axes] for times without masked values: the test of
    [x] is never true, that of [y] is the one of the caller.  [y_out[0]] and [x[:, 0]] may be
    IndexError. *)
Definition change2one_dim_axes (x : image Q) (y data : image (masked Q)) : result axes :=
  if existsb (existsb is_masked) y then
    match x with
    | [] :: _ => Raise IndexError
    | _ =>
        match filter (fun row => negb (forallb is_masked row)) y with
        | [] => Raise IndexError
        | first :: _ => Ok (OneD (transposed data) (map (fun row => hd 0%Q row) x) first)
        end
    end
  else Ok (TwoD data x y).
(** plot_tools.py 68-87, [read_data_characters] after masking small values; [height] is
    missing if [None]. *)
Definition read_data_characters (data : image (masked Q)) (time : list Q) (height : option (image (masked Q))) : result axes :=
  bind (reshape_1d2nd time data) (fun x =>
  match height with
  | None => Raise RuntimeError
  | Some h =>
      let y := imap (option_map (fun v => v / 1000)%Q) h in
      if existsb (existsb is_masked) y then change2one_dim_axes x y data else Ok (TwoD data x y)
  end).
