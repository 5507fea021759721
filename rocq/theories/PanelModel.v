(** Model of the time axis, the sources and the hatched area of figures
    (plotting/plotting.py).  Texts are ASCII; numbers are exact rationals without masked
    values. *)
From Verif Require Import Base.
From Coq Require Import String Ascii.
Open Scope string_scope.
Open Scope list_scope.
Local Notation length := List.length (only parsing).

Definition among (k : string) (l : list string) : bool := existsb (String.eqb k) l.
(** plotting.py 187-201, [_get_time]: [names] are the variables of the figure, [file] those
    of the file (KeyError if one is missing). *)
Definition get_time (file_type : string) (names : list string) (file : string -> option (list Q)) : result (list Q) :=
  let read k := match file k with Some x => Ok x | None => Raise KeyError end in
  if String.eqb file_type "cpr-simulation" then bind (read "along_track_sat") (fun x => Ok (map (fun v => v * (1 # 1000))%Q x))
  else if (String.eqb file_type "cpr-validation" && (among "echo_cpr" names || among "v_cpr" names)) ||
          (String.eqb file_type "cpr-tc-validation" && among "target_classification_cpr" names) then read "time_cpr"
  else read "time".
(** plotting.py 341-349, [set_xlabel]: [None] if no label is set. *)
Definition xlabel (file_type : string) : option string :=
  if String.eqb file_type "cpr-validation" then None
  else if String.eqb file_type "cpr-simulation" then Some "Distance along track (km)" else Some "Time (UTC)".

(** [{i:02d}] for numbers below 100. *)
Definition digit (n : nat) : ascii := ascii_of_nat (48 + n).
Definition two_digits (n : nat) : string := String (digit (n / 10)) (String (digit (n mod 10)) "").
(** [np.arange(0, 24.01, resolution)] for whole hours, not 0. *)
Definition label_hours (resolution : nat) : list nat := map (fun i => (i * resolution)%nat) (seq 0 (S (24 / resolution))).
(** plotting.py 1206-1213, [get_time_tick_labels]. *)
Definition tick_labels (resolution : nat) (edges : bool) : list string :=
  map (fun i => if (if edges then (0 <=? i)%nat && (i <=? 24)%nat else (0 <? i)%nat && (i <? 24)%nat) then (two_digits i ++ ":00")%string else "")
    (label_hours resolution).
(** plotting.py 283, [np.arange(0, 25, resolution)]: the number of steps is 25 / resolution
    rounded up. *)
Definition ticks (resolution : nat) : list nat := map (fun i => (i * resolution)%nat) (seq 0 ((25 + resolution - 1) / resolution)).

Fixpoint has_newline (s : string) : bool :=
  match s with EmptyString => false | String c r => Ascii.eqb c (ascii_of_nat 10) || has_newline r end.
(** plotting.py 317-323, the text of [add_sources]; the attribute [source] of the variable
    and of the file may be missing.  An empty text of the variable does not count. *)
Definition source_text (variable file : option string) : option string :=
  let source := match variable with Some EmptyString => file | Some s => Some s | None => file end in
  option_map (fun s => ("Data " ++ (if has_newline s then "sources" else "source") ++ ":" ++ String (ascii_of_nat 10) s)%string) source.

(** plotting.py 461-479, [_fill_out_of_range]: the hatched heights. *)
Definition out_of_range (height : option (list Q)) (max_y : Q) : result (option (Q * Q)) :=
  match height with
  | None => Ok None
  | Some [] => Raise IndexError
  | Some (h :: r) => let top := last r h in if Qle_bool max_y top then Ok None else Ok (Some (top, max_y))
  end.

(** plotting.py 371-380, [_read_plot_meta]: [clabel] and all other fields of [PlotMeta];
    [tables] is ATTRIBUTES by file type, [units] the reformatted units of the variable. *)
Record plot_meta := { p_clabel : option string; p_other : nat }.
Definition read_plot_meta (option_meta : option plot_meta) (tables : string -> option (string -> option plot_meta))
    (fallbacks : string -> option plot_meta) (default : plot_meta) (file_type : option string) (name units : string) : plot_meta :=
  let m := match option_meta with
           | Some m => m
           | None =>
               let fallback := match fallbacks name with Some m => m | None => default end in
               match tables (match file_type with Some t => t | None => "" end) with
               | Some table => match table name with Some m => m | None => fallback end
               | None => fallback
               end
           end in
  match p_clabel m with Some _ => m | None => {| p_clabel := Some units; p_other := p_other m |} end.
