(** Model of the header text of MIRA files (mira.py) and of the title of level 1b files
    (output.py).  ASCII texts. *)
From Verif Require Import Base MeltModel SiteModel OutputModel.
From Coq Require Import String Ascii.
Open Scope string_scope.
Open Scope nat_scope.
Open Scope list_scope.

(** [line.split(":", maxsplit=1)] of a line with a colon; [None] without one (mira.py
    151-153). *)
Fixpoint first_colon (line : string) : option (string * string) :=
  match line with
  | EmptyString => None
  | String c r =>
      if Ascii.eqb c ":" then Some ("", r)
      else match first_colon r with Some (k, v) => Some (String c k, v) | None => None end
  end.
(** The line feed. *)
Definition newline : ascii := ascii_of_nat 10.
(** mira.py 150-154, one line. *)
Definition read_line (output : string -> option string) (line : string) : string -> option string :=
  match first_colon line with
  | None => output
  | Some (key, value) => fun k => if String.eqb k key then Some (strip value) else output k
  end.
(** mira.py 147-155, [_read_hrd]; a dictionary is a function. *)
Definition read_hrd (hrd : string) : string -> option string :=
  fold_left read_line (split_on newline hrd) (fun _ => None).

(** mira.py 157-163, [add_radar_frequency]; [to_float] is python's [float], [None] being
    ValueError. *)
Definition radar_frequency (to_float : string -> option Q) (hrd : string) : result Q :=
  match read_hrd hrd "XMT" with
  | None => Raise KeyError
  | Some t => match to_float t with None => Raise ValueError | Some x => Ok (x * (1 # 1000000000))%Q end
  end.

(** [str.upper] of a letter. *)
Definition upper_ascii (c : ascii) : ascii :=
  let n := nat_of_ascii c in if (97 <=? n) && (n <=? 122) then ascii_of_nat (n - 32) else c.
(** [str.capitalize]. *)
Definition capitalize (s : string) : string :=
  match s with EmptyString => EmptyString | String c r => String (upper_ascii c) (lower r) end.
(** output.py 160-168, [get_l1b_title]; the category of an instrument is always there
    (instruments.py 5-12). *)
Definition get_l1b_title (model : option string) (category location : string) : string :=
  let prefix := match model with
                | Some m => if String.eqb m "" then capitalize category else (m ++ " " ++ category)%string
                | None => capitalize category
                end in
  (prefix ++ " from " ++ location)%string.
