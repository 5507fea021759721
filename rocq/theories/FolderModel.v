(** Model of the choice of the raw files in a folder (utils.py, mira.py, mrr.py,
    copernicus.py, galileo.py) and of profiles without model data (utils.py). *)
From Verif Require Import Base MeltModel NcRadarModel PollyModel.
From Coq Require Import String.
Open Scope string_scope.
Open Scope nat_scope.
Open Scope list_scope.
Local Notation length := List.length (only parsing).

(** utils.py 905-913, [get_sorted_filenames]; [listing] is what [os.listdir] gives, in any
    order.  ASCII names. *)
Definition get_sorted_filenames (folder : string) (listing : list string) (extension : string) : list string :=
  sort_names (map (fun file => folder ++ "/" ++ file)%string
    (filter (fun file => ends_with (lower extension) (lower file)) listing)).

(** The variables of a file, [None] if it cannot be opened (OSError). *)
Definition files := string -> option (list string).

(** utils.py 1061-1065, the inner loop with [break] and [else]. *)
Fixpoint all_there (variables there : list string) : bool :=
  match variables with
  | [] => true
  | v :: r => if existsb (String.eqb v) there then all_there r there else false
  end.
(** utils.py 1056-1066, [get_files_with_variables]. *)
Fixpoint get_files_with_variables (fs : files) (filenames variables : list string) : result (list string) :=
  match filenames with
  | [] => Ok []
  | f :: r =>
      match fs f with
      | None => Raise OSError
      | Some there =>
          match get_files_with_variables fs r variables with
          | Raise e => Raise e
          | Ok l => Ok (if all_there variables there then f :: l else l)
          end
      end
  end.
(** copernicus.py 76-79 and galileo.py 75-78: the files that are concatenated. *)
Definition chilbolton_files (fs : files) (folder : string) (listing : list string) : result (list string) :=
  get_files_with_variables fs (get_sorted_filenames folder listing ".nc") ["time"; "ZED_HC"].

(** mrr.py 64-70, [valid_nc_files]. *)
Fixpoint valid_nc_files (fs : files) (filenames : list string) : list string :=
  match filenames with
  | [] => []
  | f :: r => match fs f with None => valid_nc_files fs r | Some _ => f :: valid_nc_files fs r end
  end.

(** mira.py 288-303, [_parse_input_files] of a folder: the files; [None] is
    FileNotFoundError, which is not among the exceptions of the base model. *)
Definition mira_folder (folder : string) (listing : list string) : option (list string) :=
  match get_sorted_filenames folder listing ".znc" with
  | [] =>
      match get_sorted_filenames folder listing ".mmclx" with
      | [] => None
      | l => Some l
      end
  | l => Some l
  end.

(** utils.py 1074-1078, [find_masked_profiles_indices]. *)
Definition find_masked_profiles_indices {A : Type} (array : image (masked A)) : list nat :=
  let non_masked_counts := map (fun row => length (filter (fun x : masked A => match x with Some _ => true | None => false end) row)) array in
  filter (fun i => nth i non_masked_counts 1 =? 0) (seq 0 (length non_masked_counts)).
