(** Properties C165 to C170: model fields, the cirrus filter and the wind shear of the model
    evaluation, and the file of a day. *)
From Coq Require Import List Bool Arith ZArith QArith String Ascii Sorted Permutation Lia Lqa.
From Verif Require Import Base ArrayModel GridModel OutputModel ReaderModel TelegramModel.
From Verif Require Import GridProofs TelegramProofs AdvModel AdvSpec AdvProofs.
Import ListNotations.
Open Scope string_scope. Open Scope nat_scope. Open Scope list_scope.
Local Notation length := List.length (only parsing).

(** For the concrete cases: a file with two profiles and three levels. *)
Definition some_file (units : string) (h : image Q) : model_file :=
  {| mf_height := Some {| hv_level := true; hv_units := units; hv_data := Profiles h |};
     mf_fields := [("cloud_fraction", [[1 # 2; 1 # 100; 1]; [0; 1; 1]]%Q); ("pressure", [[287058; 287058; 1]; [287058; 287058; 1]]%Q);
       ("temperature", [[250; 200; 1]; [250; 200; 1]]%Q); ("qi", [[1; 0; 1]; [1; 0; 1]]%Q); ("qs", [[2; 0; 1]; [2; 0; 1]]%Q); ("ql", [[0; 1; 1]; [0; 1; 1]]%Q);
       ("uwind", [[3; 0; 1]; [3; 0; 1]]%Q); ("vwind", [[4; 1; 1]; [4; 1; 1]]%Q)];
     mf_resolution := Some [Some 9%Q; None; Some 9%Q] |}.
Definition some_height : image Q := [[100; 21999; 22500]; [110; 22001; 22600]]%Q.
Definition drops (name : string) (f : model_file) : model_file :=
  {| mf_height := mf_height f; mf_fields := filter (fun x => negb (String.eqb name (fst x))) (mf_fields f); mf_resolution := mf_resolution f |}.

(** ** C165: levels *)
Theorem C165_levels : forall f v rows k m, mf_height f = Some v -> hv_level v = true -> hv_data v = Profiles rows -> unit_factor (hv_units v) k ->
  rectangular m rows -> rows <> [] -> upwards rows ->
  exists n, number_of_levels f = Ok n /\ n <= m /\ forall j, j < m -> (j < n <-> low_level rows k j).
Proof.
  intros f v rows k m H L D U R NE UP. exists (count_levels k (hv_data v)). split; [apply levels_ok; eauto 6|]. rewrite D. apply count_ok; try assumption.
  destruct U as [[_ ->]|[_ ->]]; reflexivity.
Qed.
Print Assumptions C165_levels.
(** Heights that do not change with time. *)
Theorem C165_profile : forall f v row k, mf_height f = Some v -> hv_level v = true -> hv_data v = Profile row -> unit_factor (hv_units v) k -> StronglySorted Qle row ->
  exists n, number_of_levels f = Ok n /\ n <= length row /\ forall j x, nth_error row j = Some x -> (j < n <-> (x * k < 22000)%Q).
Proof.
  intros f v row k H L D U S. exists (count_levels k (hv_data v)). split; [apply levels_ok; eauto 6|]. rewrite D. apply count_profile; [|exact S].
  destruct U as [[_ ->]|[_ ->]]; reflexivity.
Qed.
Print Assumptions C165_profile.
(** The height of the output has these levels. *)
Theorem C165_height : forall sq f product m v rows, model_manager sq f product = Ok m -> mf_height f = Some v -> hv_data v = Profiles rows ->
  number_of_levels f = Ok (mm_levels m) /\ exists out, mm_height m = Profiles out /\ length out = length rows /\ forall i j x, at2 out i j x <-> j < mm_levels m /\ at2 rows i j x.
Proof.
  intros sq f product m v rows H V D. apply manager_ok in H. destruct H as (v' & V' & L & HE & _). assert (v' = v) by congruence. subst v'. split; [exact L|].
  rewrite HE, D. eexists. split; [reflexivity|]. split; [apply map_length|]. intros i j x. apply at2_cut.
Qed.
Print Assumptions C165_height.
Theorem C165_profile_height : forall sq f product m v row, model_manager sq f product = Ok m -> mf_height f = Some v -> hv_data v = Profile row ->
  exists out, mm_height m = Profile out /\ forall j x, nth_error out j = Some x <-> j < mm_levels m /\ nth_error row j = Some x.
Proof.
  intros sq f product m v row H V D. apply manager_ok in H. destruct H as (v' & V' & _ & HE & _). assert (v' = v) by congruence. subst v'.
  rewrite HE, D. eexists. split; [reflexivity|]. generalize (mm_levels m). clear. intros n. revert row. induction n as [|n IH]; intros row j x.
  - cbn [firstn]. split; [destruct j; discriminate|lia].
  - destruct row as [|a row]; cbn [firstn]; [split; [destruct j; discriminate|intros [_ H]; destruct j; discriminate]|].
    destruct j as [|j]; cbn [nth_error]; [split; [intros H; split; [lia|exact H]|intros [_ H]; exact H]|]. rewrite IH. split; intros [A B]; split; auto; lia.
Qed.
Print Assumptions C165_profile_height.
Theorem C165_refused : forall f e, number_of_levels f = Raise e <->
  (e = ModelDataError /\ (mf_height f = None \/ exists v, mf_height f = Some v /\ hv_level v = false)) \/
  (e = ValueError /\ exists v, mf_height f = Some v /\ hv_level v = true /\ forall k, ~ unit_factor (hv_units v) k).
Proof. exact levels_raise. Qed.
Print Assumptions C165_refused.
(** Heights from the top down: a level above the limit is kept, one below it is not. *)
Theorem C165_order_refuted : exists f rows n j j', mf_height f = Some {| hv_level := true; hv_units := "m"; hv_data := Profiles rows |} /\ rectangular 3 rows /\ number_of_levels f = Ok n /\
  j < n /\ ~ low_level rows 1 j /\ j' < 3 /\ n <= j' /\ low_level rows 1 j'.
Proof.
  exists (some_file "m" [[30000; 20000; 10000]]%Q), [[30000; 20000; 10000]]%Q, 2, 0, 2. split; [reflexivity|]. split; [intros row [<-|[]]; reflexivity|]. split; [reflexivity|]. split; [lia|].
  split; [intros (i & x & (row & A & B) & C); destruct i as [|[|i]]; [|discriminate|destruct i; discriminate]; injection A as <-; injection B as <-; lra|].
  split; [lia|]. split; [lia|]. exists 0, 10000%Q. split; [exists [30000; 20000; 10000]%Q; auto|lra].
Qed.
Print Assumptions C165_order_refuted.
(** Heights in kilometres are counted in metres, but written as they are, with metres as their units. *)
Theorem C165_unit_refuted : forall sq date, exists f m v rows, mf_height f = Some v /\ hv_units v = "km" /\ hv_data v = Profiles rows /\ model_manager sq f "cf" = Ok m /\
  mm_height m = Profiles rows /\ (exists i j x, at2 rows i j x /\ ~ (x * 1000 == x)%Q) /\ l3_units date "model_height" = Some "m".
Proof.
  intros sq date. eexists (some_file "km" [[1; 2; 3]]%Q). eexists. eexists. exists [[1; 2; 3]]%Q. split; [reflexivity|]. split; [reflexivity|]. split; [reflexivity|].
  split; [reflexivity|]. split; [reflexivity|]. split; [exists 0, 0, 1%Q; split; [exists [1; 2; 3]%Q; auto|lra]|reflexivity].
Qed.
Print Assumptions C165_unit_refuted.
Example C165_nonvacuous : rectangular 3 some_height /\ upwards some_height /\ unit_factor "meters" 1%Q /\ number_of_levels (some_file "m" some_height) = Ok 2 /\
  low_level some_height 1 1 /\ ~ low_level some_height 1 2 /\ number_of_levels (some_file "feet" some_height) = Raise ValueError /\
  (exists m, model_manager (fun x => x) (some_file "m" some_height) "iwc" = Ok m /\ mm_height m = Profiles [[100; 21999]; [110; 22001]]%Q).
Proof.
  split; [intros row [<-|[<-|[]]]; reflexivity|]. split; [intros row [<-|[<-|[]]]; repeat constructor; discriminate|]. split; [right; auto|]. split; [reflexivity|].
  split; [exists 0, 21999%Q; split; [eexists; split; reflexivity|lra]|]. split; [|split; [reflexivity|eexists; split; reflexivity]].
  intros (i & x & (row & A & B) & C). destruct i as [|[|i]]; [| |destruct i; discriminate]; injection A as <-; injection B as <-; lra.
Qed.

(** ** C166: the products *)
Theorem C166_cloud_fraction : forall f n out, product_field f n "cf" = Ok out -> exists x, variable f "cloud_fraction" x /\
  forall i j, (forall y, at2 out i j y -> j < n /\ exists a, at2 x i j a /\ above (5 # 100) a y) /\ (forall a, j < n -> at2 x i j a -> exists y, at2 out i j y).
Proof.
  intros f n out H. unfold product_field in H. cbn [String.eqb Ascii.eqb Bool.eqb] in H. destruct (checked f "cloud_fraction") as [x|e] eqn:E; cbn [bind] in H; [|discriminate]. injection H as <-.
  apply checked_ok in E. exists x. split; [exact E|]. intros i j. split.
  - intros y A. apply at2_map in A. destruct A as (a & A & ->). apply at2_cut in A. destruct A as [L A]. split; [exact L|]. exists a. split; [exact A|apply drop_above].
  - intros a L A. eexists. apply at2_map. exists a. split; [apply at2_cut; auto|reflexivity].
Qed.
Print Assumptions C166_cloud_fraction.
Theorem C166_content : forall f n product limit out, In (product, limit) [("iwc", (1 # 10000000)%Q); ("lwc", (1 # 100000)%Q)] -> product_field f n product = Ok out ->
  forall i j, (forall y, at2 out i j y -> j < n /\ exists x, density f product i j x /\ above limit x y) /\ (forall x, j < n -> density f product i j x -> exists y, at2 out i j y).
Proof.
  intros f n product limit out I H i j.
  assert (X : exists raw, (product = "iwc" \/ product = "lwc") /\ raw_content f n product = Ok raw /\ out = map (map (screen_content limit)) raw /\ (0 <= limit)%Q).
  { destruct I as [I|[I|[]]]; injection I as <- <-; unfold product_field in H; cbn [String.eqb Ascii.eqb Bool.eqb] in H.
    - destruct (raw_content f n "iwc") as [raw|e]; cbn [bind] in H; [|discriminate]. injection H as <-. exists raw. repeat split; auto. lra.
    - destruct (raw_content f n "lwc") as [raw|e]; cbn [bind] in H; [|discriminate]. injection H as <-. exists raw. repeat split; auto. lra. }
  destruct X as (raw & PR & R & -> & LI). destruct (raw_ok f n product raw PR R i j) as [A B]. split.
  - intros y Y. apply at2_map in Y. destruct Y as (x & Y & ->). destruct (A x Y) as [L D]. split; [exact L|]. exists x. split; [exact D|]. apply screen_iff; [exact LI|reflexivity].
  - intros x L D. destruct (B x L D) as (x' & X). eexists. apply at2_map. exists x'. split; [exact X|reflexivity].
Qed.
Print Assumptions C166_content.
Theorem C166_missing : forall f n product, In product ["cf"; "iwc"; "lwc"] ->
  ((exists k, In k (needs product) /\ lacks f k) <-> product_field f n product = Raise ModelDataError) /\
  ((forall k, In k (needs product) -> ~ lacks f k) <-> exists out, product_field f n product = Ok out).
Proof.
  intros f n product I. destruct (product_raise f n product I) as [A B]. split.
  - rewrite A. split; [intros (e & E); rewrite E; f_equal; exact (B e E)|eauto].
  - symmetry. apply product_ok. exact I.
Qed.
Print Assumptions C166_missing.
Theorem C166_unknown : forall f n product, ~ In product ["cf"; "iwc"; "lwc"] -> product_field f n product = Raise KeyError.
Proof. exact product_unknown. Qed.
Print Assumptions C166_unknown.
Example C166_nonvacuous : let f := some_file "m" some_height in
  (exists a, product_field f 2 "cf" = Ok a /\ at2 a 0 0 (Some (1 # 2)%Q) /\ at2 a 0 1 None /\ at2 a 1 1 (Some 1%Q)) /\
  (exists a x, product_field f 2 "iwc" = Ok a /\ at2 a 0 0 (Some x) /\ (x == 12)%Q /\ at2 a 0 1 None) /\ density f "iwc" 0 0 12 /\ lacks f "qg" /\
  (exists a x, product_field f 2 "lwc" = Ok a /\ at2 a 1 1 (Some x) /\ (x == 5)%Q) /\
  product_field (drops "qi" f) 2 "iwc" = Raise ModelDataError /\ lacks (drops "qi" f) "qi" /\ product_field f 2 "ier" = Raise KeyError.
Proof.
  cbn zeta. split; [eexists; split; [reflexivity|]; split; [eexists; split; reflexivity|]; split; eexists; split; reflexivity|].
  split; [do 2 eexists; split; [reflexivity|]; split; [eexists; split; reflexivity|]; split; [reflexivity|eexists; split; reflexivity]|].
  assert (G : lacks (some_file "m" some_height) "qg") by (apply get_lacks; reflexivity).
  split; [|split; [exact G|split; [do 2 eexists; split; [reflexivity|]; split; [eexists; split; reflexivity|reflexivity]|split; [reflexivity|split; [apply get_lacks; reflexivity|reflexivity]]]]].
  exists 3%Q, [[287058; 287058; 1]; [287058; 287058; 1]]%Q, [[250; 200; 1]; [250; 200; 1]]%Q, 287058%Q, 250%Q.
  split; [right; split; [reflexivity|]; exists [[1; 0; 1]; [1; 0; 1]]%Q, 1%Q, 2%Q, 0%Q; split; [apply get_variable; reflexivity|]; split; [eexists; split; reflexivity|];
    split; [right; exists [[2; 0; 1]; [2; 0; 1]]%Q; split; [apply get_variable; reflexivity|eexists; split; reflexivity]|]; split; [left; split; [exact G|reflexivity]|reflexivity]|].
  split; [apply get_variable; reflexivity|]. split; [eexists; split; reflexivity|]. split; [apply get_variable; reflexivity|]. split; [eexists; split; reflexivity|]. intros _. reflexivity.
Qed.

(** ** C167: model files *)
(** The resolution is the only valid value, and positive. *)
Definition one_resolution (f : model_file) (r : Q) : Prop := (0 < r)%Q /\ exists l, mf_resolution f = Some l /\ In (Some r) l /\ forall x, In (Some x) l -> (x == r)%Q.
Theorem C167_resolution : forall f r, (exists r', resolution f = Ok r' /\ (r' == r)%Q) <-> exists r', one_resolution f r' /\ (r' == r)%Q.
Proof.
  intros f r. split.
  - intros (r' & H & E). apply resolution_ok in H. destruct H as (l & p & L & HD & P & -> & A). exists r'. split; [|exact E]. split; [exact P|]. exists l. split; [exact L|]. split.
    + apply valid_in. destruct (valid l); [discriminate|]. injection HD as ->. left. reflexivity.
    + intros x X. apply A, valid_in. exact X.
  - intros (r' & (P & l & L & I & A) & E). apply valid_in in I. destruct (valid l) as [|x rest] eqn:V; [destruct I|].
    assert (X : forall y, In y (valid l) -> (y == r')%Q) by (intros y Y; apply A, valid_in; exact Y). rewrite V in X. exists x.
    assert (XR : (x == r')%Q) by (apply X; left; reflexivity). split; [|rewrite XR; exact E]. apply resolution_ok. exists l, (valid l). split; [exact L|]. rewrite V. split; [reflexivity|]. split; [rewrite XR; exact P|]. split; [reflexivity|].
    intros y Y. rewrite XR. apply X. exact Y.
Qed.
Print Assumptions C167_resolution.
Theorem C167_accepted : forall sq f product, (exists m, model_manager sq f product = Ok m) <->
  (exists v k, mf_height f = Some v /\ hv_level v = true /\ unit_factor (hv_units v) k) /\ In product ["cf"; "iwc"; "lwc"] /\
  (forall k, In k (needs product) -> ~ lacks f k) /\ ~ lacks f "uwind" /\ ~ lacks f "vwind" /\ exists r, one_resolution f r.
Proof.
  intros sq f product. rewrite manager_ex. split.
  - intros ((n & N) & (n1 & x & X) & (n2 & w & W) & (r & R)). apply levels_ok in N. destruct N as (v & k & V & L & U & _). split; [eauto|].
    destruct (in_dec String.string_dec product ["cf"; "iwc"; "lwc"]) as [I|I]; [|rewrite product_unknown in X by exact I; discriminate]. split; [exact I|].
    split; [apply (product_ok f n1 product I); eauto|]. apply wind_ok in W. destruct W as (u & v' & U' & V' & _). split; [eapply variable_lacks; exact U'|]. split; [eapply variable_lacks; exact V'|].
    destruct (proj1 (C167_resolution f r)) as (r' & H & _); [exists r; split; [exact R|reflexivity]|]. eauto.
  - intros ((v & k & V & L & U) & I & NE & A & B & (r & R)). split; [eexists; apply levels_ok; exists v, k; eauto|]. split; [exists 0; apply product_ok; assumption|]. split.
    + assert (E : forall name, ~ lacks f name -> exists x, variable f name x) by (intros name N; destruct (get String.eqb name (mf_fields f)) as [x|] eqn:G; [exists x; apply get_variable; exact G|exfalso; apply N, get_lacks; exact G]).
      destruct (E _ A) as (u & UU). destruct (E _ B) as (v' & VV). exists 0. eexists. apply wind_ok. eauto.
    + destruct (proj2 (C167_resolution f r)) as (r' & H & _); [exists r; split; [exact R|reflexivity]|]. eauto.
Qed.
Print Assumptions C167_accepted.
Theorem C167_refused : forall sq f product e, model_manager sq f product = Raise e ->
  e = ModelDataError \/ (e = ValueError /\ exists v, mf_height f = Some v /\ forall k, ~ unit_factor (hv_units v) k) \/
  (e = KeyError /\ (~ In product ["cf"; "iwc"; "lwc"] \/ lacks f "uwind" \/ lacks f "vwind")).
Proof.
  intros sq f product e H. apply manager_raise in H. destruct H as [H|[(n & H)|[(n & H)|H]]].
  - apply levels_raise in H. destruct H as [(-> & _)|(-> & v & V & _ & N)]; [left; reflexivity|right; left; eauto].
  - destruct (in_dec String.string_dec product ["cf"; "iwc"; "lwc"]) as [I|I]; [left; exact (proj2 (product_raise f n product I) e H)|]. rewrite product_unknown in H by exact I. injection H as <-. auto.
  - apply wind_raise in H. destruct H as [-> H]. auto.
  - left. eapply resolution_raise. exact H.
Qed.
Print Assumptions C167_refused.
Theorem C167_wind : forall sq f product m, model_manager sq f product = Ok m -> exists u v, variable f "uwind" u /\ variable f "vwind" v /\
  forall i j s, at2 (mm_wind m) i j s <-> j < mm_levels m /\ exists a b, at2 u i j a /\ at2 v i j b /\ s = sq (a * a + b * b)%Q.
Proof.
  intros sq f product m H. apply manager_ok in H. destruct H as (_ & _ & _ & _ & _ & W & _). apply wind_ok in W. destruct W as (u & v & U & V & ->). exists u, v. split; [exact U|]. split; [exact V|].
  intros i j s. rewrite at2_pointwise. split.
  - intros (a & b & A & B & ->). apply at2_cut in A, B. split; [tauto|]. exists a, b. tauto.
  - intros (L & a & b & A & B & ->). exists a, b. split; [apply at2_cut; auto|]. split; [apply at2_cut; auto|reflexivity].
Qed.
Print Assumptions C167_wind.
Theorem C167_parts : forall sq f product m, model_manager sq f product = Ok m ->
  product_field f (mm_levels m) product = Ok (mm_product m) /\ one_resolution f (mm_resolution m).
Proof.
  intros sq f product m H. apply manager_ok in H. destruct H as (_ & _ & _ & _ & P & _ & R). split; [exact P|]. apply resolution_ok in R. destruct R as (l & p & L & HD & PO & -> & A).
  split; [exact PO|]. exists l. split; [exact L|]. split; [apply valid_in; destruct (valid l); [discriminate|]; injection HD as ->; left; reflexivity|]. intros x X. apply A, valid_in. exact X.
Qed.
Print Assumptions C167_parts.
Example C167_nonvacuous : let f := some_file "m" some_height in one_resolution f 9%Q /\
  (exists m, model_manager (fun x => x) f "cf" = Ok m /\ mm_levels m = 2 /\ (exists s, at2 (mm_wind m) 0 0 s /\ (s == 25)%Q) /\ (mm_resolution m == 9)%Q) /\
  model_manager (fun x => x) (drops "uwind" f) "cf" = Raise KeyError /\ model_manager (fun x => x) (drops "ql" f) "lwc" = Raise ModelDataError /\
  resolution {| mf_height := None; mf_fields := []; mf_resolution := Some [Some 9%Q; Some 10%Q] |} = Raise ModelDataError /\
  resolution {| mf_height := None; mf_fields := []; mf_resolution := Some [Some 0%Q] |} = Raise ModelDataError.
Proof.
  cbn zeta. split; [split; [reflexivity|]; eexists; split; [reflexivity|]; split; [left; reflexivity|]; intros x [H|[H|[H|[]]]]; try discriminate; injection H as <-; reflexivity|].
  split; [eexists; split; [reflexivity|]; split; [reflexivity|]; split; [eexists; split; [eexists; split; reflexivity|reflexivity]|reflexivity]|]. repeat split; reflexivity.
Qed.

(** ** C168: cirrus filter *)
Theorem C168_values : forall sq pdf fr se he px out, cirrus_filter sq pdf fr se he px = Ok out -> pointed (cirrus_value sq pdf) px out.
Proof. exact cirrus_ok. Qed.
Print Assumptions C168_values.
Theorem C168_refused : forall sq pdf fr se he px e, cirrus_filter sq pdf fr se he px = Raise e <-> e = ValueError /\
  (fr = false \/ se = false \/ he = false \/
   ((exists row x, In row px /\ In x row /\ cloudy x) /\ forall row x, In row px -> In x row -> cloudy x -> ~ icy (px_cf x) (px_iwc x) (px_lwc x))).
Proof.
  intros sq pdf fr se he px e. rewrite cirrus_raise.
  assert (A : forall x, In x (List.concat px) <-> exists row, In row px /\ In x row) by (intros x; apply in_concat).
  assert (E : ((exists x, In x (List.concat px) /\ cloudy x) /\ forall x, In x (List.concat px) -> cloudy x -> ~ icy (px_cf x) (px_iwc x) (px_lwc x)) <->
    ((exists row x, In row px /\ In x row /\ cloudy x) /\ forall row x, In row px -> In x row -> cloudy x -> ~ icy (px_cf x) (px_iwc x) (px_lwc x))).
  { split; intros [B C]; split.
    - destruct B as (x & B & D). apply A in B. destruct B as (row & B & F). eauto.
    - intros row x R X. apply C. apply A. eauto.
    - destruct B as (row & x & B & D & F). exists x. split; [apply A; eauto|exact F].
    - intros x X. apply A in X. destruct X as (row & R & X). eapply C; eassumption. }
  rewrite E. reflexivity.
Qed.
Print Assumptions C168_refused.
(** The filter never adds cloud, and what it leaves is at least 0.05. *)
Theorem C168_bounds : forall sq pdf fr se he px out, (forall x a b y, pdf x a b = Some y -> (0 <= y)%Q) -> cirrus_filter sq pdf fr se he px = Ok out ->
  pointed (fun x y => forall z, y = Some z -> (5 # 100 <= z <= px_cf x)%Q) px out.
Proof.
  intros sq pdf fr se he px out N H. apply cirrus_ok in H. unfold pointed in *. induction H as [|r o px out H HH IH]; constructor; [|exact IH].
  clear - H N. induction H as [|x y r o H HH IH]; constructor; [|exact IH]. intros z ->. eapply cirrus_bounds; eassumption.
Qed.
Print Assumptions C168_bounds.
(** A radar that detects less leaves less cloud. *)
Theorem C168_sensitivity : forall sq pdf cf iwc lwc v l l' out out', (forall x a b y, pdf x a b = Some y -> (0 <= y)%Q) -> (l <= l')%Q ->
  cirrus_filter sq pdf true true true [[{| px_cf := cf; px_iwc := iwc; px_lwc := lwc; px_variance := v; px_least := l |}]] = Ok [[out]] ->
  cirrus_filter sq pdf true true true [[{| px_cf := cf; px_iwc := iwc; px_lwc := lwc; px_variance := v; px_least := l' |}]] = Ok [[out']] -> dominates out out'.
Proof.
  intros sq pdf cf iwc lwc v l l' out out' N L. unfold cirrus_filter. cbn [negb List.concat map app px_cf px_iwc px_lwc px_variance px_least]. destruct (no_ice _); [discriminate|].
  intros H H'. injection H as <-. injection H' as <-. apply cirrus_mono; assumption.
Qed.
Print Assumptions C168_sensitivity.
(** A radar that detects everything leaves all of the cloud. *)
Theorem C168_all_seen : forall sq pdf fr se he px out, (forall x, (0 <= sq x)%Q) -> (forall row x, In row px -> In x row -> (px_least x < 0)%Q) -> cirrus_filter sq pdf fr se he px = Ok out ->
  pointed (fun x y => forall z, y = Some z -> (z == px_cf x)%Q) px out.
Proof.
  intros sq pdf fr se he px out SQ LE. unfold cirrus_filter. destruct fr, se, he; cbn [negb]; try discriminate. destruct (no_ice _); [discriminate|]. intros H. injection H as <-.
  unfold pointed. induction px as [|r px IH]; cbn [map]; constructor; [|apply IH; intros row x R; apply LE; right; exact R].
  assert (LR : forall x, In x r -> (px_least x < 0)%Q) by (intros x X; apply (LE r x); [left; reflexivity|exact X]). clear - SQ LR.
  induction r as [|x r IH]; cbn [map]; constructor; [|apply IH; intros y Y; apply LR; right; exact Y]. intros z Z. eapply cirrus_all_seen; [exact SQ|apply LR; left; reflexivity|exact Z].
Qed.
Print Assumptions C168_all_seen.
(** Without any cloud there is no error, although there is no ice. *)
Theorem C168_clear_refuted : forall sq pdf, exists px out, px <> [] /\ (forall row x, In row px -> In x row -> ~ icy (px_cf x) (px_iwc x) (px_lwc x)) /\ cirrus_filter sq pdf true true true px = Ok out.
Proof.
  intros sq pdf. exists [[{| px_cf := 0; px_iwc := 0; px_lwc := 0; px_variance := 1; px_least := 0 |}]]. eexists. split; [discriminate|].
  split; [intros row x [<-|[]] [<-|[]] (A & _); cbn in A; lra|reflexivity].
Qed.
Print Assumptions C168_clear_refuted.
Definition cloud (cf iwc lwc least : Q) : pixel := {| px_cf := cf; px_iwc := iwc; px_lwc := lwc; px_variance := 1; px_least := least |}.
Example C168_nonvacuous : let flat := fun _ _ _ : Q => Some 1%Q in let one := fun _ : Q => 1%Q in let c := (249 # 2000)%Q in
  icy (1 # 2) c 0 /\ ~ icy (1 # 2) c 1 /\
  (exists a b d, cirrus_filter one flat true true true [[cloud (1 # 2) c 0 743; cloud (1 # 2) c 1 743]; [cloud (1 # 100) c 0 743; cloud (1 # 2) c 0 (-1)]] = Ok [[Some a; Some b]; [None; Some d]] /\
    (a == 125 # 498)%Q /\ (b == 1 # 2)%Q /\ (d == 1 # 2)%Q) /\
  cirrus_filter one flat true true true [[cloud (1 # 2) c 0 2000]] = Ok [[None]] /\ cirrus_filter one flat true true true [[cloud (1 # 2) c 1 0]] = Raise ValueError /\
  cirrus_filter one flat true false true [[cloud (1 # 2) c 0 0]] = Raise ValueError.
Proof.
  cbn zeta. split; [repeat split; reflexivity|]. split; [intros (_ & _ & H); vm_compute in H; discriminate|].
  split; [do 3 eexists; split; [vm_compute; reflexivity|]; repeat split|]. repeat split; vm_compute; reflexivity.
Qed.

(** ** C169: wind shear *)
Theorem C169_shear : forall sq wind u v h out, wind_shear sq wind u v h = Ok out -> length u = length wind -> length v = length wind -> forall i j s, at2 out i j s ->
  exists a b gw gu gv, compared (length wind) i a b /\ slope wind h a b j gw /\ slope u h a b j gu /\ slope v h a b j gv /\
    (((gw < 0)%Q /\ (s == - sq (gu * gu + gv * gv))%Q) \/ ((0 <= gw)%Q /\ s = sq (gu * gu + gv * gv)%Q)).
Proof. intros sq wind u v h out H LU LV. exact (proj2 (shear_ok _ _ _ _ _ _ H LU LV)). Qed.
Print Assumptions C169_shear.
Theorem C169_refused : forall sq wind u v h e, length u = length wind -> length v = length wind -> (wind_shear sq wind u v h = Raise e <-> e = IndexError /\ length wind < 2).
Proof. exact shear_raise. Qed.
Print Assumptions C169_refused.
(** The differences are those between profiles, that is, in time: a wind that is the same at
    every height has shear, and one that changes only with height has none. *)
Theorem C169_vertical_refuted : (exists wind h out s, (forall row, In row wind -> exists x, forall y, In y row -> y = x) /\
    wind_shear (fun x => x) wind wind [[0; 0]; [0; 0]]%Q h = Ok out /\ at2 out 0 0 s /\ ~ (s == 0)%Q) /\
  (exists wind h out, (forall row, In row wind -> exists x y, row = [x; y] /\ ~ (x == y)%Q) /\ wind_shear (fun x => x) wind wind [[0; 0]; [0; 0]]%Q h = Ok out /\ forall i j s, at2 out i j s -> (s == 0)%Q).
Proof.
  split.
  - exists [[1; 1]; [3; 3]]%Q, [[10; 20]; [11; 21]]%Q. do 2 eexists. split; [intros row [<-|[<-|[]]]; eexists; intros y [<-|[<-|[]]]; reflexivity|]. split; [reflexivity|].
    split; [eexists; split; reflexivity|]. vm_compute. discriminate.
  - exists [[1; 9]; [1; 9]]%Q, [[10; 20]; [11; 21]]%Q. eexists. split; [intros row [<-|[<-|[]]]; do 2 eexists; (split; [reflexivity|]); intros H; vm_compute in H; discriminate|]. split; [vm_compute; reflexivity|].
    intros i j s (row & A & B). destruct i as [|[|[|i]]]; try discriminate; injection A as <-; (destruct j as [|[|[|j]]]; try discriminate; injection B as <-; reflexivity).
Qed.
Print Assumptions C169_vertical_refuted.
Example C169_nonvacuous : let w := [[1; 2]; [2; 1]; [4; 4]]%Q in let z := [[0; 0]; [0; 0]; [0; 0]]%Q in let h := [[10; 20]; [11; 21]; [12; 22]]%Q in
  length z = length w /\ compared 3 1 0 2 /\ slope w h 0 2 0 (3 # 2) /\
  (exists out x y, wind_shear (fun x => x) w w z h = Ok out /\ at2 out 1 0 x /\ (x == 9 # 4)%Q /\ at2 out 0 1 y /\ (y == -1)%Q) /\ wind_shear (fun x => x) [[1]]%Q [[1]]%Q [[1]]%Q [[1]]%Q = Raise IndexError.
Proof.
  cbn zeta. split; [reflexivity|]. split; [right; right; repeat split; lia|]. split.
  - exists 1%Q, 4%Q, 10%Q, 12%Q. split; [eexists; split; reflexivity|]. split; [eexists; split; reflexivity|]. split; [eexists; split; reflexivity|]. split; [eexists; split; reflexivity|]. intros _. reflexivity.
  - split; [|reflexivity]. do 3 eexists. split; [vm_compute; reflexivity|]. split; [eexists; split; reflexivity|]. split; [reflexivity|]. split; [eexists; split; reflexivity|reflexivity].
Qed.

(** ** C170: the file of a day *)
Theorem C170_exists : forall A B C content overwrite product present (ob : result A) (mo : result B) (ci : result C) re,
  content = true -> overwrite = false -> process_l3 content overwrite product present ob mo ci re = Raise OSError.
Proof. intros A B C content overwrite product present ob mo ci re -> ->. reflexivity. Qed.
Print Assumptions C170_exists.
Theorem C170_written : forall A B C content overwrite product present (ob : result A) (mo : result B) (ci : result C) re out,
  process_l3 content overwrite product present ob mo ci re = Ok out ->
  (content = false \/ overwrite = true) /\ (exists a, ob = Ok a) /\ (exists b, mo = Ok b) /\ (exists u, re = Ok u) /\ (product = "cf" -> (exists c, ci = Ok c) \/ ci = Raise ValueError) /\
  forall k, In k out <-> (In k coordinates /\ In k present) \/ (k = "model_forecast_time" /\ In "forecast_time" present) \/ k = "model_height" \/ k = ("model_" ++ product)%string \/
    (product = "cf" /\ ((k = "model_cf_cirrus" /\ exists c, ci = Ok c) \/ In k ["cf_V"; "cf_A"; "cf_V_adv"; "cf_A_adv"])) \/ (product <> "cf" /\ (k = product \/ k = (product ++ "_adv")%string)).
Proof.
  intros A B C content overwrite product present ob mo ci re out H. apply process_iff in H. destruct H as (X & Y & Z & W & H). repeat (split; [assumption|]).
  destruct H as [(-> & (c & ->) & ->)|[(-> & -> & ->)|(N & ->)]].
  - split; [eauto|]. intros k. rewrite l3_in. assert (E : (true = true /\ k = "model_cf_cirrus") <-> (k = "model_cf_cirrus" /\ exists c', Ok c = Ok c')) by (split; intros [P Q]; split; eauto). rewrite E. reflexivity.
  - split; [eauto|]. intros k. rewrite l3_in. assert (E : (false = true /\ k = "model_cf_cirrus") <-> (k = "model_cf_cirrus" /\ exists c', @Raise C ValueError = Ok c')) by (split; [intros [P _]; discriminate|intros [_ (c' & P)]; discriminate]). rewrite E. reflexivity.
  - split; [intros P; congruence|]. intros k. rewrite l3_in. split; (intros [P|[P|[P|[P|[[P Q]|P]]]]]; [auto|auto|auto|auto|congruence|auto 6]).
Qed.
Print Assumptions C170_written.
Theorem C170_errors : forall A B C content overwrite product present (ob : result A) (mo : result B) (ci : result C) re e,
  process_l3 content overwrite product present ob mo ci re = Raise e ->
  (e = OSError /\ content = true /\ overwrite = false) \/ ob = Raise e \/ mo = Raise e \/ (product = "cf" /\ e <> ValueError /\ ci = Raise e) \/ re = Raise e.
Proof.
  intros A B C content overwrite product present ob mo ci re e. unfold process_l3. destruct (content && negb overwrite) eqn:E.
  - intros H. injection H as <-. apply andb_true_iff in E. destruct E as [-> E]. destruct overwrite; [discriminate|]. auto.
  - destruct ob as [a|x]; cbn [bind]; [|intros H; injection H as <-; auto]. destruct mo as [b|x]; cbn [bind]; [|intros H; injection H as <-; auto].
    destruct (String.eqb_spec product "cf") as [->|N].
    + destruct ci as [c|x]; cbn [bind].
      * destruct re as [u|x]; cbn [bind]; [discriminate|]. intros H. injection H as <-. auto 6.
      * destruct x; cbn [bind]; try (intros H; injection H as <-; do 3 right; left; repeat split; discriminate). destruct re as [u|x]; cbn [bind]; [discriminate|]. intros H. injection H as <-. auto 6.
    + cbn [bind]. destruct re as [u|x]; cbn [bind]; [discriminate|]. intros H. injection H as <-. auto 6.
Qed.
Print Assumptions C170_errors.
(** Every variable of the file has its units. *)
Theorem C170_units : forall A B C content overwrite product present (ob : result A) (mo : result B) (ci : result C) re out date k, In product ["cf"; "iwc"; "lwc"] ->
  process_l3 content overwrite product present ob mo ci re = Ok out -> In k out -> exists u, l3_units date k = Some u /\ In (k, u) (units_table date).
Proof.
  intros A B C content overwrite product present ob mo ci re out date k I H K. apply process_iff in H. destruct H as (_ & _ & _ & _ & [(_ & _ & ->)|[(_ & _ & ->)|(_ & ->)]]); eapply l3_unit; eassumption.
Qed.
Print Assumptions C170_units.
Theorem C170_distinct : forall date k u u', In (k, u) (units_table date) -> In (k, u') (units_table date) -> u = u'.
Proof.
  intros date. assert (N : NoDup (map fst (units_table date))).
  { change (map fst (units_table date)) with (map fst (units_table "")). apply (NoDup_count_occ String.string_dec). intros x.
    destruct (in_dec String.string_dec x (map fst (units_table ""))) as [I|I]; [|apply (count_occ_not_In String.string_dec) in I; lia].
    vm_compute in I. repeat (destruct I as [<-|I]; [vm_compute; lia|]). destruct I. }
  intros k u u' A B. revert N A B. generalize (units_table date). intros l. induction l as [|[a b] l IH]; cbn [map fst In]; intros N A B; [destruct A|]. inversion N as [|? ? N1 N2]; subst.
  destruct A as [A|A], B as [B|B].
  - congruence.
  - injection A as -> ->. exfalso. apply N1. apply in_map_iff. exists (k, u'). auto.
  - injection B as -> ->. exfalso. apply N1. apply in_map_iff. exists (k, u). auto.
  - apply IH; assumption.
Qed.
Print Assumptions C170_distinct.
Example C170_nonvacuous : let ok := @Ok unit tt in let no := @Raise unit ValueError in
  process_l3 true true "cf" ["time"; "level"; "forecast_time"] ok ok ok ok =
    Ok ["time"; "level"; "model_forecast_time"; "model_height"; "model_cf"; "model_cf_cirrus"; "cf_V"; "cf_A"; "cf_V_adv"; "cf_A_adv"] /\
  process_l3 false false "cf" ["time"] ok ok no ok = Ok ["time"; "model_height"; "model_cf"; "cf_V"; "cf_A"; "cf_V_adv"; "cf_A_adv"] /\
  process_l3 false false "iwc" ["time"] ok ok no ok = Ok ["time"; "model_height"; "model_iwc"; "iwc"; "iwc_adv"] /\
  process_l3 false false "cf" ["time"] ok ok (@Raise unit IndexError) ok = Raise IndexError /\ l3_units "2024-01-02" "time" = Some "hours since 2024-01-02 00:00:00 +00:00".
Proof. repeat split; reflexivity. Qed.
