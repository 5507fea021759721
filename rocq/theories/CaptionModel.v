(** Model of the titles and file names of level 3 figures
    (model_evaluation/plotting/plotting.py).  Texts are ASCII; [name] is the name of the
    product in the figure ([PlotMeta.name]). *)
From Verif Require Import Base SiteModel TelegramModel.
From Coq Require Import String Ascii.
Open Scope string_scope.
Open Scope list_scope.

(** What [_set_title] draws: the title, and whether the text on advection is below. *)
Record caption := { c_title : string; c_advection : bool }.
(** plotting.py 619-623, [_get_cf_title]. *)
Definition cf_title (field name : string) : string :=
  if contains "V" field then (name ++ ", Volume")%string else (name ++ ", Area")%string.
(** plotting.py 594-616, [_set_title], with [_get_product_title] (626-627);
    [field.split("_")[0]] is there always. *)
Definition set_title (field product name model_name : string) : caption :=
  if String.eqb (hd "" (split_on "_" field)) product then
    {| c_title := if String.eqb product "cf" then cf_title field name else name; c_advection := contains "adv" field |}
  else
    {| c_title := if (1 <? String.length model_name)%nat then (name ++ ", " ++ model_name)%string else ("Simulated " ++ name)%string;
       c_advection := false |}.
(** plotting.py 172-179, the titles of [get_group_plots] with [config.title]: the title of
    the first panel is replaced, its text on advection stays. *)
Definition group_captions (names : list string) (product name model model_name : string) : list caption :=
  match names with
  | [] => []
  | first :: rest =>
      let a := set_title first product name "" in
      let b := set_title model product name model_name in
      {| c_title := c_title b; c_advection := c_advection a || c_advection b |} :: map (fun f => set_title f product name "") rest
  end.
(** plotting.py 630-650, [_get_stat_titles] with [_get_cf_title_stat] and
    [_get_product_title_stat]. *)
Definition stat_title (field product name : string) : string :=
  let title := if String.eqb product "cf" then (if contains "V" field then name ++ " volume" else name ++ " area")%string else name in
  if contains "adv" field then (title ++ " (Advection time)")%string else title.
(** statistical_methods.py 166-169, [day_stat_title] for the statistics with one title. *)
Definition day_stat_title (title model_name : string) : string := (title ++ " vs " ++ model_name)%string.
(** plotting.py 264-280, the titles of [get_statistic_plots]: those of the observations, the
    first name being the model; [name_new] is the empty text there. *)
Definition statistic_titles (names : list string) (product name model_name : string) : list string :=
  map (fun _ => day_stat_title (stat_title "" product name) model_name) (tl names).
(** plotting.py 690-698, [_create_save_name]; [date] is the date as yyyymmdd. *)
Definition save_name (save_path date : string) (fields : list string) (fix_ : string) : string :=
  (save_path ++ date ++ "_" ++ String.concat "_" fields ++ fix_ ++ ".png")%string.
