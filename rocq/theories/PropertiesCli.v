(** Properties C147 to C151: the command line interface. *)
From Coq Require Import List Bool Arith ZArith String Ascii Sorted Permutation Lia.
From Verif Require Import Base OutputModel SiteModel StationModel TelegramModel MeltModel PollyModel.
From Verif Require Import OutputSpec SiteSpec MeltSpec TelegramSpec.
From Verif Require Import OutputProofs SiteProofs TelegramProofs TelegramDayProofs.
From Verif Require Import CliModel CliSpec CliProofs.
Import ListNotations.
Open Scope string_scope. Open Scope nat_scope. Open Scope list_scope.
Local Notation length := List.length (only parsing).

(* ------------------------------------------------------------------ *)
(** ** C147: preferences of instruments *)

(** The preferences of a product are those of all the arguments, in order. *)
Theorem C147_preferences args prefs product out : parse_instrument_preferences args = Some prefs ->
  prefs_of product prefs = out <-> stated product args out.
Proof.
  intros H. destruct (proj1 (preferences_from_spec args []) prefs H product) as (o & S & E). cbn [app] in E.
  change (prefs_of product []) with (@nil string) in E. cbn [app] in E. rewrite E. split.
  - intros <-. exact S.
  - intros S'. exact (stated_unique _ _ _ S _ S').
Qed.
Print Assumptions C147_preferences.

(** They are refused exactly if an argument states nothing or has a malformed value. *)
Theorem C147_refused args : parse_instrument_preferences args = None <->
  exists arg, In arg args /\ forall product values, states arg product values -> Exists malformed_value values.
Proof. apply (preferences_from_spec args []). Qed.
Print Assumptions C147_refused.

(** An argument states something exactly if it has a colon. *)
Theorem C147_colon arg : (exists product values, states arg product values) <-> ~ without ":"%char arg.
Proof.
  split.
  - intros (p & v & H). apply states_iff in H. destruct H as (x & H & _). intros W. apply split_first_none in W. congruence.
  - intros H. destruct (split_first ":" arg) as [[p x]|] eqn:E; [|apply split_first_none in E; contradiction].
    exists p, (split_values x). apply states_iff. exists x. split; [exact E|reflexivity].
Qed.
Print Assumptions C147_colon.

(** No preference is empty. *)
Theorem C147_nonempty args prefs product : parse_instrument_preferences args = Some prefs ->
  Forall (fun v => v <> "") (prefs_of product prefs).
Proof.
  intros H. destruct (proj1 (preferences_from_spec args []) prefs H product) as (o & S & E).
  change (prefs_of product []) with (@nil string) in E. cbn [app] in E. rewrite E. clear E H.
  induction S as [|arg values args out S St IH|arg p values args out S N St IH]; [constructor| |exact IH].
  apply Forall_app. split; [|exact IH]. destruct S as (_ & value & parts & texts & _ & _ & _ & K).
  apply Forall_forall. intros v V. apply (kept_in _ _ _ K) in V. exact (proj2 V).
Qed.
Print Assumptions C147_nonempty.

(** The instrument in brackets. *)
Theorem C147_bracket s name value : parse_instrument s = (name, Some value) <-> bracketed s name value.
Proof. apply parse_bracketed. Qed.
Print Assumptions C147_bracket.
Theorem C147_plain s : (forall n v, ~ bracketed s n v) <-> parse_instrument s = (s, None).
Proof.
  split; [apply parse_plain|]. intros H n v K. apply parse_bracketed in K. congruence.
Qed.
Print Assumptions C147_plain.

Example C147_nonvacuous :
  parse_instrument_preferences ["radar: mira-35 ,rpg-fmcw-94,"; "lidar:https://hdl.handle.net/21.1/ab"; "radar:basta"]
  = Some [("radar", ["mira-35"; "rpg-fmcw-94"; "basta"]); ("lidar", ["https://hdl.handle.net/21.1/ab"])] /\
  parse_instrument_preferences ["radar:mira-35,lidar:chm15k"] = None /\
  parse_instrument_preferences ["radar"] = None /\
  parse_instrument "radar[mira-35]" = ("radar", Some "mira-35").
Proof. repeat split; reflexivity. Qed.

(* ------------------------------------------------------------------ *)
(** ** C148: selection of the instrument *)

(** The first preference met by some instrument decides, and of the instruments that meet
    it the one with the first name is taken. *)
Theorem C148_preferred unique prefs answer pref :
  first_with (fun p => exists i, In i unique /\ meant i p) prefs pref ->
  exists i, select_instrument unique prefs answer = Some i /\ In i unique /\ meant i pref /\
    forall j, In j unique -> meant j pref -> name_le i j.
Proof. apply select_preferred. Qed.
Print Assumptions C148_preferred.

(** If no preference is met, a single instrument is taken, of several the one asked for. *)
Theorem C148_available unique prefs answer : Forall (fun p => ~ exists i, In i unique /\ meant i p) prefs ->
  (unique = [] -> select_instrument unique prefs answer = None) /\
  (forall i, unique = [i] -> select_instrument unique prefs answer = Some i) /\
  (1 < length unique ->
     (forall n, answer = Some (Z.of_nat n + 1)%Z -> n < length unique ->
        exists i, ranked unique n i /\ select_instrument unique prefs answer = Some i) /\
     ((forall n, n < length unique -> answer <> Some (Z.of_nat n + 1)%Z) ->
        select_instrument unique prefs answer = None)).
Proof. apply select_other. Qed.
Print Assumptions C148_available.

(** The order of the set does not matter if the names differ. *)
Theorem C148_order u1 u2 prefs answer : NoDup (map i_name u1) -> Permutation u1 u2 ->
  select_instrument u1 prefs answer = select_instrument u2 prefs answer.
Proof. apply select_order. Qed.
Print Assumptions C148_order.

(** It does if two instruments have the same name. *)
Theorem C148_order_refuted : exists u1 u2 prefs, NoDup u1 /\ Permutation u1 u2 /\
  select_instrument u1 prefs None <> select_instrument u2 prefs None.
Proof.
  exists [{| i_name := "Ceilometer"; i_id := "cl31"; i_pid := "https://hdl.handle.net/21.1/a" |};
          {| i_name := "Ceilometer"; i_id := "cl31"; i_pid := "https://hdl.handle.net/21.1/b" |}],
         [{| i_name := "Ceilometer"; i_id := "cl31"; i_pid := "https://hdl.handle.net/21.1/b" |};
          {| i_name := "Ceilometer"; i_id := "cl31"; i_pid := "https://hdl.handle.net/21.1/a" |}], ["cl31"].
  split; [|split; [apply perm_swap|intros H; vm_compute in H; discriminate]].
  constructor; [intros [H|[]]; discriminate|]. constructor; [intros []|constructor].
Qed.
Print Assumptions C148_order_refuted.

Example C148_nonvacuous :
  let a := {| i_name := "FMI Mira"; i_id := "mira-35"; i_pid := "https://hdl.handle.net/21.1/a" |} in
  let b := {| i_name := "Another Mira"; i_id := "mira-35"; i_pid := "https://hdl.handle.net/21.1/b" |} in
  let c := {| i_name := "FMI RPG"; i_id := "rpg-fmcw-94"; i_pid := "https://hdl.handle.net/21.1/c" |} in
  select_instrument [a; b; c] ["basta"; "mira-35"] None = Some b /\
  select_instrument [a; b; c] ["https://hdl.handle.net/21.1/a"] None = Some a /\
  select_instrument [c; a; b] ["basta"] (Some 3%Z) = Some c /\
  select_instrument [c; a; b] ["basta"] (Some 0%Z) = None /\ select_instrument [c] [] None = Some c.
Proof. repeat split; reflexivity. Qed.

(* ------------------------------------------------------------------ *)
(** ** C149: instruments and files searched *)

(** What is searched for a product is decided by the last argument for it. *)
Theorem C149_searched possible prefs products product ids :
  lookup product (get_source_instruments possible products prefs) = Some ids <->
  exists pre arg post, products = pre ++ arg :: post /\ product_of arg product /\
    Forall (fun q => ~ product_of q product) post /\ searched_ids possible (fun p => prefs_of p prefs) arg product ids.
Proof. apply source_instruments_iff. Qed.
Print Assumptions C149_searched.

(** The files processed are the usable ones of the selected instrument. *)
Theorem C149_files iterate raw possible product prefs answer i files :
  instrument_input iterate raw possible product prefs answer = Some (i, files) <->
  possible <> [] /\
  select_instrument (iterate (filter (fun m => mem_str (i_id (r_instrument m)) possible) raw)) prefs answer = Some i /\
  kept (fun m => In (i_id (r_instrument m)) possible /\ i_pid (r_instrument m) = i_pid i /\ usable product m) raw files /\
  files <> [].
Proof. apply input_files_iff. Qed.
Print Assumptions C149_files.

(** The selected instrument has one of the ids searched, and a raw file. *)
Theorem C149_instrument iterate raw possible product prefs answer i files :
  (forall meta, instruments_of meta (iterate meta)) ->
  instrument_input iterate raw possible product prefs answer = Some (i, files) ->
  In (i_id i) possible /\ exists m, In m raw /\ r_instrument m = i.
Proof.
  intros It H. apply input_files_iff in H. destruct H as (_ & S & _). apply select_in in S.
  apply (proj2 (It _)) in S. destruct S as (m & M & E). apply filter_In in M. destruct M as [M I].
  apply mem_str_iff in I. rewrite E in I. split; [exact I|]. exists m. split; assumption.
Qed.
Print Assumptions C149_instrument.

(** There is a converter exactly for these products and instruments. *)
Theorem C149_converter product id n : converter product id n = Ok None <-> ~ convertible product id.
Proof. apply converter_iff. Qed.
Print Assumptions C149_converter.
(** Several files are refused only for BASTA. *)
Theorem C149_several product id n e : converter product id n = Raise e ->
  e = ValueError /\ product = "radar" /\ part_of "basta" id /\ 1 < n.
Proof.
  unfold converter. rewrite <- part_contains.
  destruct (String.eqb_spec product "radar") as [->|N].
  - cbn [String.eqb Ascii.eqb Bool.eqb andb]. destruct (contains "mira" id); [discriminate|]. destruct (contains "rpg" id); [discriminate|].
    destruct (contains "basta" id); [destruct (1 <? n) eqn:E; [|discriminate]; intros H; injection H as <-; apply Nat.ltb_lt in E; auto|].
    destruct (contains "copernicus" id); [discriminate|]. destruct (contains "galileo" id); discriminate.
  - cbn [andb]. intros H. exfalso. revert H.
    repeat match goal with |- (if ?c then _ else _) = _ -> _ => destruct c; [discriminate|] end. discriminate.
Qed.
Print Assumptions C149_several.
(** Each converter belongs to its instrument. *)
Theorem C149_right_converter product id n fn kind : converter product id n = Ok (Some (fn, kind)) ->
  In (product, fn) [("radar", "mira2nc"); ("radar", "rpg2nc"); ("radar", "basta2nc"); ("radar", "copernicus2nc");
    ("radar", "galileo2nc"); ("disdrometer", "parsivel2nc"); ("disdrometer", "thies2nc"); ("lidar", "pollyxt2nc");
    ("lidar", "ceilo2nc"); ("mwr", "hatpro2nc"); ("mwr-l1c", "hatpro2l1c"); ("mrr", "mrr2nc"); ("weather-station", "ws2nc")] /\
  (product = "radar" \/ product = "disdrometer" \/ fn = "pollyxt2nc" ->
     exists name, fn = (name ++ "2nc")%string /\ part_of name id) /\
  (kind = OneFile -> n <= 1) /\ (kind = Concatenated -> 1 < n).
Proof.
  unfold converter. intros H.
  assert (C : forall w, contains w id = true -> (w ++ "2nc")%string = fn -> exists name, fn = (name ++ "2nc")%string /\ part_of name id)
    by (intros w W E; exists w; split; [symmetry; exact E|apply part_contains; exact W]).
  assert (K : forall k, (if 1 <? n then Concatenated else OneFile) = k -> (k = OneFile -> n <= 1) /\ (k = Concatenated -> 1 < n)).
  { intros k <-. destruct (1 <? n) eqn:L; [apply Nat.ltb_lt in L|apply Nat.ltb_ge in L]; split; try discriminate; auto. }
  destruct (String.eqb_spec product "radar") as [->|N1]; [|destruct (String.eqb_spec product "disdrometer") as [->|N2];
    [|destruct (String.eqb_spec product "lidar") as [->|N3]]]; cbn [String.eqb Ascii.eqb Bool.eqb andb] in H.
  - destruct (contains "mira" id) eqn:E1; [injection H as <- <-|destruct (contains "rpg" id) eqn:E2; [injection H as <- <-|
      destruct (contains "basta" id) eqn:E3; [destruct (1 <? n) eqn:L; [discriminate|injection H as <- <-]|
      destruct (contains "copernicus" id) eqn:E4; [injection H as <- <-|destruct (contains "galileo" id) eqn:E5; [injection H as <- <-|discriminate]]]]];
      (split; [cbn [In]; tauto|]); (split; [intros _; eapply C; [eassumption|reflexivity]|]); try (split; discriminate).
    apply Nat.ltb_ge in L. split; [intros _; exact L|discriminate].
  - destruct (contains "parsivel" id) eqn:E1; [injection H as <- <-|destruct (contains "thies" id) eqn:E2; [injection H as <- Hk|discriminate]];
      (split; [cbn [In]; tauto|]); (split; [intros _; eapply C; [eassumption|reflexivity]|]); [split; discriminate|apply K; exact Hk].
  - destruct (contains "pollyxt" id) eqn:E1; [injection H as <- <-|destruct (String.eqb id "cl61d") eqn:E2; [injection H as <- <-|injection H as <- Hk]].
    + split; [cbn [In]; tauto|]. split; [intros _; eapply C; [eassumption|reflexivity]|split; discriminate].
    + split; [cbn [In]; tauto|]. split; [intros [Q|[Q|Q]]; discriminate Q|split; discriminate].
    + split; [cbn [In]; tauto|]. split; [intros [Q|[Q|Q]]; discriminate Q|apply K; exact Hk].
  - destruct (String.eqb_spec product "mwr") as [->|N4]; [|destruct (String.eqb_spec product "mwr-l1c") as [->|N5];
      [|destruct (String.eqb_spec product "mrr") as [->|N6]; [|destruct (String.eqb_spec product "weather-station") as [->|N7]; [|discriminate]]]];
      injection H as <- <-; (split; [cbn [In]; tauto|]); (split; [intros [Q|[Q|Q]]; discriminate Q|split; discriminate]).
Qed.
Print Assumptions C149_right_converter.

(** A PID given first is not found if an instrument id is given after it. *)
Theorem C149_pid_first_refuted : exists possible raw prefs i j,
  i_id i <> i_id j /\ In (i_id i) (possible "radar") /\ (exists m, In m raw /\ r_instrument m = i /\ usable "radar" m) /\
  parse_instrument_preferences ["radar:https://hdl.handle.net/21.1/a,rpg-fmcw-94"] = Some prefs /\
  first_with (meant i) (prefs_of "radar" prefs) "https://hdl.handle.net/21.1/a" /\
  forall iterate answer, (forall meta, instruments_of meta (iterate meta)) -> forall k files,
    instrument_input iterate raw (source_ids possible prefs "radar") "radar" (prefs_of "radar" prefs) answer <> Some (i, files) /\
    (instrument_input iterate raw (source_ids possible prefs "radar") "radar" (prefs_of "radar" prefs) answer = Some (k, files) -> k = j).
Proof.
  pose (i := {| i_name := "Mira"; i_id := "mira-35"; i_pid := "https://hdl.handle.net/21.1/a" |}).
  pose (j := {| i_name := "RPG"; i_id := "rpg-fmcw-94"; i_pid := "https://hdl.handle.net/21.1/b" |}).
  exists (fun _ => ["mira-35"; "rpg-fmcw-94"]), [{| r_name := "a.mmclx"; r_instrument := i |}; {| r_name := "b.lv1"; r_instrument := j |}],
    [("radar", ["https://hdl.handle.net/21.1/a"; "rpg-fmcw-94"])], i, j.
  split; [discriminate|]. split; [left; reflexivity|]. split.
  { exists {| r_name := "a.mmclx"; r_instrument := i |}. split; [left; reflexivity|]. split; [reflexivity|]. apply suffix_usable. reflexivity. }
  split; [reflexivity|]. split.
  { exists [], ["rpg-fmcw-94"]. split; [reflexivity|]. split; [apply matches_iff; reflexivity|constructor]. }
  intros iterate answer It k files.
  change (source_ids (fun _ => ["mira-35"; "rpg-fmcw-94"]) [("radar", ["https://hdl.handle.net/21.1/a"; "rpg-fmcw-94"])] "radar") with ["rpg-fmcw-94"].
  assert (A : forall k files, instrument_input iterate [{| r_name := "a.mmclx"; r_instrument := i |}; {| r_name := "b.lv1"; r_instrument := j |}]
    ["rpg-fmcw-94"] "radar" (prefs_of "radar" [("radar", ["https://hdl.handle.net/21.1/a"; "rpg-fmcw-94"])]) answer = Some (k, files) -> k = j).
  { intros k' f H. destruct (C149_instrument _ _ _ _ _ _ _ _ It H) as ([I|[]] & m & [<-|[<-|[]]] & E); cbn in E; subst k'; [discriminate I|reflexivity]. }
  split; [intros H; apply A in H; discriminate H|apply A].
Qed.
Print Assumptions C149_pid_first_refuted.
(** A misspelt instrument in brackets is replaced by all instruments. *)
Theorem C149_bracket_refuted : exists possible products ids, products = ["radar[mira35]"] /\
  ~ In "mira35" (possible "radar") /\ lookup "radar" (get_source_instruments possible products []) = Some ids /\ ids = ["mira-35"; "rpg-fmcw-94"].
Proof.
  exists (fun _ => ["mira-35"; "rpg-fmcw-94"]), ["radar[mira35]"], ["mira-35"; "rpg-fmcw-94"].
  split; [reflexivity|]. split; [intros [H|[H|[]]]; discriminate H|]. split; reflexivity.
Qed.
Print Assumptions C149_bracket_refuted.
(** Of two instruments asked for by two arguments, only the last is searched. *)
Theorem C149_both_refuted : exists possible products ids, products = ["radar[mira-35]"; "radar[rpg-fmcw-94]"] /\
  In "mira-35" (possible "radar") /\ lookup "radar" (get_source_instruments possible products []) = Some ids /\ ~ In "mira-35" ids.
Proof.
  exists (fun _ => ["mira-35"; "rpg-fmcw-94"]), ["radar[mira-35]"; "radar[rpg-fmcw-94]"], ["rpg-fmcw-94"].
  split; [reflexivity|]. split; [left; reflexivity|]. split; [reflexivity|]. intros [H|[]]. discriminate H.
Qed.
Print Assumptions C149_both_refuted.
(** A Doppler lidar has no converter: the variable is not bound. *)
Theorem C149_converter_refuted : exists product id, product = "doppler-lidar" /\ converter product id 1 = Ok None.
Proof. exists "doppler-lidar", "halo-doppler-lidar". split; reflexivity. Qed.
Print Assumptions C149_converter_refuted.

Example C149_nonvacuous :
  let a := {| i_name := "RPG"; i_id := "rpg-fmcw-94"; i_pid := "https://hdl.handle.net/21.1/a" |} in
  let raw := [{| r_name := "x.LV0"; r_instrument := a |}; {| r_name := "x.LV1"; r_instrument := a |}] in
  let possible := fun _ : string => ["mira-35"; "rpg-fmcw-94"] in
  get_source_instruments possible ["radar"; "categorize"] [("radar", ["rpg-fmcw-94"; "basta"])]
    = [("radar", ["rpg-fmcw-94"]); ("categorize", ["mira-35"; "rpg-fmcw-94"])] /\
  instrument_input (fun _ => [a]) raw ["rpg-fmcw-94"] "radar" [] None = Some (a, [{| r_name := "x.LV1"; r_instrument := a |}]) /\
  converter "radar" "rpg-fmcw-94" 24 = Ok (Some ("rpg2nc", Folder)) /\ converter "lidar" "cl31" 2 = Ok (Some ("ceilo2nc", Concatenated)).
Proof. repeat split; reflexivity. Qed.

(* ------------------------------------------------------------------ *)
(** ** C150: the files given to categorize *)

(** Without model files categorize is not run; with several it raises. *)
Theorem C150_model files model_files prefs completed input : Permutation completed (downloads input) ->
  lookup "model" input = None ->
  (categorize_input files model_files prefs completed input = Ok None <-> model_files = []) /\
  (categorize_input files model_files prefs completed input = Raise ValueError <-> 1 < length model_files) /\
  (forall r, categorize_input files model_files prefs completed input = Ok (Some r) ->
     exists m, model_files = [m] /\ lookup "model" r = Some (Some ("instrument/" ++ f_name m)%string)).
Proof.
  intros P N. destruct model_files as [|m [|m2 ms]].
  - assert (K := categorize_ok files [] prefs completed input None P N eq_refl). cbn iota in K. rewrite K.
    split; [split; reflexivity|]. split; [split; [discriminate|cbn; lia]|discriminate].
  - destruct (categorize_ok files [m] prefs completed input _ P N eq_refl) as (r & K & L). rewrite K.
    split; [split; discriminate|]. split; [split; [discriminate|cbn; lia]|].
    intros r' H. injection H as <-. exists m. split; [reflexivity|]. rewrite L. unfold final.
    cbn [String.eqb Ascii.eqb Bool.eqb]. unfold downloads. cbn [mem_str existsb String.eqb Ascii.eqb Bool.eqb orb]. reflexivity.
  - assert (K := categorize_raise files (m :: m2 :: ms) prefs completed input ValueError P eq_refl). rewrite K.
    split; [split; discriminate|]. split; [split; [intros _; cbn; lia|reflexivity]|discriminate].
Qed.
Print Assumptions C150_model.

(** Radar, lidar and disdrometer: the file of this run, or else the preferred file of the
    portal, or else any. *)
Theorem C150_instruments files model_files prefs completed input r product :
  Permutation completed (downloads input) -> lookup "model" input = None ->
  Forall (fun s => s <> "") (prefs_of product prefs) ->
  categorize_input files model_files prefs completed input = Ok (Some r) ->
  In product ["radar"; "lidar"; "disdrometer"] ->
  (forall x, lookup product input = Some x -> lookup product r = Some x) /\
  (lookup product input = None -> forall path,
     lookup product r = Some (Some path) <-> chosen_file files (prefs_of product prefs) product path) /\
  (lookup product input = None -> (forall path, ~ chosen_file files (prefs_of product prefs) product path) ->
     lookup product r = None).
Proof.
  intros P N F H I.
  assert (E : lookup product r = match lookup product input with Some x => Some x | None =>
     match fetch_instrument files prefs product with Some f => Some (Some f) | None => None end end).
  { destruct (C150_model files model_files prefs completed input P N) as (_ & _ & M). destruct (M r H) as (m & -> & _).
    destruct (categorize_ok files [m] prefs completed input _ P N eq_refl) as (r' & K & L). rewrite K in H. injection H as <-.
    rewrite L. unfold final. assert (Nm : String.eqb product "mwr" = false /\ String.eqb product "model" = false)
      by (destruct I as [<-|[<-|[<-|[]]]]; split; reflexivity). destruct Nm as [-> ->].
    assert (Md := mem_downloads input (downloads input) product (Permutation_refl _)).
    destruct (lookup product input) as [x|] eqn:El.
    - destruct (mem_str product (downloads input)); [|reflexivity]. exfalso. destruct (proj1 Md eq_refl) as [->|[_ K']]; [|discriminate].
      destruct I as [Q|[Q|[Q|[]]]]; discriminate Q.
    - rewrite (proj2 Md (or_intror (conj I eq_refl))). destruct (fetch_instrument files prefs product); reflexivity. }
  rewrite E. split; [|split].
  - intros x ->. reflexivity.
  - intros -> path. rewrite <- (fetch_instrument_iff files prefs product path F).
    destruct (fetch_instrument files prefs product); split; congruence.
  - intros -> No. destruct (fetch_instrument files prefs product) as [f|] eqn:Ef; [|reflexivity].
    apply (fetch_instrument_iff files prefs product f F) in Ef. destruct (No f Ef).
Qed.
Print Assumptions C150_instruments.

(** Liquid water path: the first place of the portal that has a file, or else the file of
    this run. *)
Theorem C150_mwr files model_files prefs completed input r :
  Permutation completed (downloads input) -> lookup "model" input = None ->
  categorize_input files model_files prefs completed input = Ok (Some r) ->
  (forall path, mwr_file files path -> lookup "mwr" r = Some (Some path)) /\
  ((forall path, ~ mwr_file files path) -> lookup "mwr" r = lookup "mwr" input).
Proof.
  intros P N H. destruct (C150_model files model_files prefs completed input P N) as (_ & _ & M). destruct (M r H) as (m & -> & _).
  destruct (categorize_ok files [m] prefs completed input _ P N eq_refl) as (r' & K & L). rewrite K in H. injection H as <-.
  rewrite L. unfold final. cbn [String.eqb Ascii.eqb Bool.eqb].
  assert (D : mem_str "mwr" (downloads input) = false).
  { destruct (mem_str "mwr" (downloads input)) eqn:E; [|reflexivity]. apply (mem_downloads input _ _ (Permutation_refl _)) in E.
    destruct E as [E|[[E|[E|[E|[]]]] _]]; discriminate E. }
  rewrite D. split.
  - intros path Mw. apply fetch_mwr_iff in Mw. rewrite Mw. reflexivity.
  - intros No. destruct (fetch_mwr files) as [f|] eqn:Ef; [apply fetch_mwr_iff in Ef; destruct (No f Ef)|reflexivity].
Qed.
Print Assumptions C150_mwr.

(** Everything else is left alone. *)
Theorem C150_others files model_files prefs completed input r key :
  Permutation completed (downloads input) -> lookup "model" input = None ->
  categorize_input files model_files prefs completed input = Ok (Some r) ->
  ~ In key ["model"; "radar"; "lidar"; "disdrometer"; "mwr"] -> lookup key r = lookup key input.
Proof.
  intros P N H I. destruct (C150_model files model_files prefs completed input P N) as (_ & _ & M). destruct (M r H) as (m & -> & _).
  destruct (categorize_ok files [m] prefs completed input _ P N eq_refl) as (r' & K & L). rewrite K in H. injection H as <-.
  rewrite L. unfold final. destruct (String.eqb_spec key "mwr") as [->|Nk]; [destruct I; cbn [In]; auto 6|].
  destruct (mem_str key (downloads input)) eqn:E; [|reflexivity]. apply (mem_downloads input _ _ (Permutation_refl _)) in E.
  exfalso. apply I. cbn [In]. destruct E as [->|[[E|[E|[E|[]]]] _]]; auto 6.
Qed.
Print Assumptions C150_others.

(** The order in which the downloads finish does not matter. *)
Theorem C150_schedule files model_files prefs c1 c2 input : Permutation c1 (downloads input) -> Permutation c2 (downloads input) ->
  lookup "model" input = None ->
  match categorize_input files model_files prefs c1 input, categorize_input files model_files prefs c2 input with
  | Ok (Some r1), Ok (Some r2) => forall key, lookup key r1 = lookup key r2
  | x, y => x = y
  end.
Proof.
  intros P1 P2 N. destruct (fetch_model model_files) as [mf|e] eqn:M.
  - assert (K1 := categorize_ok files model_files prefs c1 input mf P1 N M). assert (K2 := categorize_ok files model_files prefs c2 input mf P2 N M).
    destruct mf as [f|].
    + destruct K1 as (r1 & -> & L1). destruct K2 as (r2 & -> & L2). cbv beta zeta iota. intros key. transitivity (final files prefs (Some f) input key); [apply L1|symmetry; apply L2].
    + rewrite K1, K2. reflexivity.
  - rewrite (categorize_raise _ _ _ _ _ e P1 M), (categorize_raise _ _ _ _ _ e P2 M). reflexivity.
Qed.
Print Assumptions C150_schedule.

(** A microwave radiometer file of this run is replaced by the one of the portal. *)
Theorem C150_own_mwr_refuted : exists files model_files input r, lookup "mwr" input = Some (Some "own.nc") /\
  categorize_input files model_files [] (downloads input) input = Ok (Some r) /\ lookup "mwr" r <> Some (Some "own.nc").
Proof.
  exists (fun p => if String.eqb p "mwr" then [{| f_name := "portal.nc"; f_geophysical := false; f_instrument := None |}] else []),
    [{| f_name := "ecmwf.nc"; f_geophysical := false; f_instrument := None |}], [("mwr", Some "own.nc")],
    [("mwr", Some "instrument/portal.nc"); ("model", Some "instrument/ecmwf.nc")].
  split; [reflexivity|]. split; [reflexivity|discriminate].
Qed.
Print Assumptions C150_own_mwr_refuted.
(** A radar that was only downloaded keeps the radar file of the portal from being used. *)
Theorem C150_download_only_refuted : exists files model_files input r path, lookup "radar" input = Some None /\
  portal_has files "radar" None path /\
  categorize_input files model_files [] (downloads input) input = Ok (Some r) /\ lookup "radar" r = Some None.
Proof.
  exists (fun p => if String.eqb p "radar" then [{| f_name := "portal.nc"; f_geophysical := false; f_instrument := None |}] else []),
    [{| f_name := "ecmwf.nc"; f_geophysical := false; f_instrument := None |}], [("radar", None)],
    [("radar", None); ("model", Some "instrument/ecmwf.nc")], "instrument/portal.nc".
  split; [reflexivity|]. split; [apply fetch_product_iff; [discriminate|reflexivity]|]. split; reflexivity.
Qed.
Print Assumptions C150_download_only_refuted.

Example C150_nonvacuous :
  let halo := {| i_name := "Halo"; i_id := "halo"; i_pid := "https://hdl.handle.net/21.1/h" |} in
  let files := fun p => if String.eqb p "lidar" then [{| f_name := "chm.nc"; f_geophysical := false; f_instrument := None |}]
    else if String.eqb p "doppler-lidar" then [{| f_name := "halo.nc"; f_geophysical := true; f_instrument := Some halo |}] else [] in
  let model := [{| f_name := "ecmwf.nc"; f_geophysical := false; f_instrument := None |}] in
  categorize_input files model [("lidar", ["halo"])] ["lidar"; "disdrometer"; "model"] [("radar", Some "r.nc")]
    = Ok (Some [("radar", Some "r.nc"); ("lidar", Some "geophysical/halo.nc"); ("model", Some "instrument/ecmwf.nc")]) /\
  categorize_input files model [] ["model"; "lidar"; "disdrometer"] [("radar", Some "r.nc")]
    = Ok (Some [("radar", Some "r.nc"); ("model", Some "instrument/ecmwf.nc"); ("lidar", Some "instrument/chm.nc")]) /\
  Permutation ["lidar"; "disdrometer"; "model"] (downloads [("radar", Some "r.nc")]).
Proof.
  repeat split; try reflexivity. change (downloads [("radar", Some "r.nc")]) with ["model"; "lidar"; "disdrometer"].
  apply (Permutation_sym (Permutation_middle ["lidar"; "disdrometer"] [] "model")).
Qed.

(* ------------------------------------------------------------------ *)
(** ** C151: products, models and names of files *)

(** The products asked for are those known to the portal and those of level 3. *)
Theorem C151_products valid argument products : parse_products valid argument = products <->
  exists parts, separated ","%char argument parts /\
    kept (fun p => exists name, product_of p name /\ (In name valid \/ In name ["l3-cf"; "l3-iwc"; "l3-lwc"])) parts products.
Proof. apply parse_products_iff. Qed.
Print Assumptions C151_products.

(** A model is accepted if the portal has it and it is not split into several. *)
Theorem C151_model models model m : parse_model models model = Some m <->
  m = model /\ (exists source, In (model, source) models) /\ forall id, In (id, model) models -> id = model.
Proof. apply parse_model_iff. Qed.
Print Assumptions C151_model.

(** The part of the PID in the file name. *)
Theorem C151_pid p out : shorten_pid p = out <-> exists part, after_last "."%char p part /\ first_chars 8 part out.
Proof. apply shorten_pid_iff. Qed.
Print Assumptions C151_pid.

(** The name of an instrument file. *)
Theorem C151_instrument date site i out : instrument_filename date site i = out <->
  exists day short, erased "-"%char date day /\ (exists part, after_last "."%char (i_pid i) part /\ first_chars 8 part short) /\
    out = (day ++ "_" ++ site ++ "_" ++ i_id i ++ "_" ++ short ++ ".nc")%string.
Proof.
  unfold instrument_filename. split.
  - intros <-. exists (remove_char "-" date), (shorten_pid (i_pid i)). split; [apply erased_iff; reflexivity|].
    split; [apply shorten_pid_iff; reflexivity|reflexivity].
  - intros (day & short & E & S & ->). apply erased_iff in E. apply shorten_pid_iff in S. rewrite E, S. reflexivity.
Qed.
Print Assumptions C151_instrument.
Theorem C151_categorize date site out : categorize_filename date site = out <->
  exists day, erased "-"%char date day /\ out = (day ++ "_" ++ site ++ "_categorize.nc")%string.
Proof.
  unfold categorize_filename. split.
  - intros <-. exists (remove_char "-" date). split; [apply erased_iff; reflexivity|reflexivity].
  - intros (day & E & ->). apply erased_iff in E. rewrite E. reflexivity.
Qed.
Print Assumptions C151_categorize.

(** A product based on categorize is written beside it, with its own name, if the path has
    the word only once. *)
Theorem C151_product product a b : occurs_once "categorize" (a ++ "categorize" ++ b) a ->
  cat_product_path product (a ++ "categorize" ++ b) = (a ++ product ++ b)%string.
Proof. apply replace_once. Qed.
Print Assumptions C151_product.
(** If a folder has the word, too, the file is written to another folder. *)
Theorem C151_product_refuted : exists folder name product, categorize_filename "2024-01-02" "hyytiala" = name /\
  forall other, cat_product_path product (folder ++ "/" ++ name) <> (folder ++ "/" ++ other)%string.
Proof.
  exists "/data/categorize", "20240102_hyytiala_categorize.nc", "iwc". split; [reflexivity|]. intros other H.
  vm_compute in H. discriminate H.
Qed.
Print Assumptions C151_product_refuted.

(** Two instruments can have the same file name. *)
Theorem C151_distinct_refuted : exists i j, i_pid i <> i_pid j /\ i_id i = i_id j /\
  forall date site, instrument_filename date site i = instrument_filename date site j.
Proof.
  exists {| i_name := "A"; i_id := "cl31"; i_pid := "https://hdl.handle.net/21.12132/3.0123456789abcdef" |},
         {| i_name := "B"; i_id := "cl31"; i_pid := "https://hdl.handle.net/21.12132/3.01234567aaaaaaaa" |}.
  split; [discriminate|]. split; [reflexivity|]. intros date site. reflexivity.
Qed.
Print Assumptions C151_distinct_refuted.
(** Products based on the microwave radiometer keep the dashes of the date. *)
Theorem C151_date_refuted : exists date site product day, erased "-"%char date day /\
  ~ starts_with day (mwrpy_filename date site product).
Proof.
  exists "2024-01-02", "hyytiala", "mwr-single", "20240102". split; [apply erased_iff; reflexivity|].
  intros (r & H). vm_compute in H. discriminate H.
Qed.
Print Assumptions C151_date_refuted.

Example C151_nonvacuous :
  parse_products ["radar"; "lidar"] "radar[mira-35],foo,l3-cf,lidar" = ["radar[mira-35]"; "l3-cf"; "lidar"] /\
  parse_model [("ecmwf", "ecmwf"); ("icon-a", "icon"); ("icon-b", "icon")] "ecmwf" = Some "ecmwf" /\
  parse_model [("ecmwf", "ecmwf"); ("icon", "icon"); ("icon-b", "icon")] "icon" = None /\
  instrument_filename "2024-01-02" "hyytiala" {| i_name := "A"; i_id := "cl31"; i_pid := "https://hdl.handle.net/21.12132/3.0123456789abcdef" |}
    = "20240102_hyytiala_cl31_01234567.nc" /\
  cat_product_path "iwc" "/data/20240102_hyytiala_categorize.nc" = "/data/20240102_hyytiala_iwc.nc".
Proof. repeat split; reflexivity. Qed.
