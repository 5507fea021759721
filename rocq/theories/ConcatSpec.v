(** Vocabulary for the concatenation properties. *)
From Verif Require Import Base OutputModel OutputSpec ConcatModel.
Open Scope nat_scope.

(** A readable netCDF file: distinct variable names, a time variable, and as many
    profiles in every time-dependent variable as there are time stamps. *)
Definition file_ok (f : cfile) : Prop :=
  NoDup (map fst (cf_vars f)) /\
  exists r stamps, In ("time"%string, Series r stamps) (cf_vars f) /\
    forall k r' rows, In (k, Series r' rows) (cf_vars f) -> List.length rows = List.length stamps.
(** Number of time stamps. *)
Definition steps (f : cfile) (n : nat) : Prop :=
  exists r stamps, In ("time"%string, Series r stamps) (cf_vars f) /\ List.length stamps = n.
(** Files that take part: at least one time stamp and fewer than 10000 gates. *)
Definition takes_part (f : cfile) : Prop :=
  (exists n, steps f n /\ 0 < n) /\
  exists r, cf_range f = Some r /\ (Z.of_nat (List.length r) < 10000)%Z.

(** [row'] is the profile [row] (on gates [x]) at the gates [xt]: outside the
    span of [x] masked, inside the value of a nearest gate. *)
Definition resampled (x xt : list Q) (row row' : list (masked Q)) : Prop :=
  List.length row' = List.length xt /\
  forall j t, nth_error xt j = Some t ->
    (((forall a, In a x -> (t < a)%Q) \/ (forall a, In a x -> (a < t)%Q)) ->
       nth_error row' j = Some None) /\
    ((exists a b, In a x /\ In b x /\ (a <= t)%Q /\ (t <= b)%Q) ->
       exists i a, nth_error x i = Some a /\ nth_error row' j = nth_error row i /\
         (forall b, In b x -> (Qabs (a - t) <= Qabs (b - t))%Q) /\
         (forall i' b, i' < i -> nth_error x i' = Some b -> (Qabs (a - t) < Qabs (b - t))%Q)).

(** The profiles of variable [v] of a file with [n] time stamps, before any
    change of range: one per time stamp. *)
Definition own_profiles (v : cvar) (n : nat) (rows : list (list (masked Q))) : Prop :=
  match v with
  | Series _ r => rows = r
  | Static _ r => List.length rows = n /\ Forall (eq r) rows
  end.
Definition lies_on_range (v : cvar) : Prop :=
  match v with Series true _ | Static true _ => True | _ => False end.

(** [block] is what a file contributes to variable [key] of an output file whose
    gates are [xt]. *)
Definition contributes (xt : list Q) (f : cfile) (n : nat) (key : string)
  (block : list (option (list (masked Q)))) : Prop :=
  List.length block = n /\
  ((~ In key (map fst (cf_vars f)) /\ Forall (eq None) block) \/
   exists v x rows data, In (key, v) (cf_vars f) /\ cf_range f = Some x /\
     own_profiles v n rows /\ block = map Some data /\
     (~ lies_on_range v \/ List.length x = List.length xt -> data = rows) /\
     (lies_on_range v -> List.length x <> List.length xt ->
        Forall2 (fun row row' => List.length row = List.length x -> resampled x xt row row') rows data)).

(** Files ordered by name, files of equal name in the order given. *)
Definition name_le (f g : cfile) : Prop :=
  cf_name f = cf_name g \/ str_lt (cf_name f) (cf_name g).

(** No variable that the output file has is unreadable in [f]. *)
Definition readable (keys : list string) (f : cfile) : Prop :=
  forall k, In k keys -> In k (map fst (cf_vars f)) -> ~ In k (cf_broken f).

(** [chosen] are the files that take part, ordered by name; files of equal name
    keep the order in which they were given. *)
Definition in_name_order (files chosen : list cfile) : Prop :=
  exists part,
    Forall2 (fun f b => b = true <-> takes_part f) files part /\
    Permutation chosen (map fst (filter snd (combine files part))) /\
    StronglySorted name_le chosen /\
    forall n, filter (fun g => String.eqb (cf_name g) n) chosen =
              filter (fun g => String.eqb (cf_name g) n) (map fst (filter snd (combine files part))).

(** Variables of the first file that go to the output. *)
Definition selected (keep ignore : option (list string)) (key : string) (v : cvar) : Prop :=
  (forall l, keep = Some l -> In key l \/ key = "time"%string \/ exists b row, v = Static b row) /\
  (forall l, ignore = Some l -> ~ In key l).

(** ** Appending *)
(** [t] is later than the last stamp of [old]. *)
Definition newer (old : list Q) (t : Q) : Prop :=
  exists before last, old = before ++ [last] /\ (last < t)%Q.
(** [tail] holds the first [m] entries of [data], those of newer profiles in
    place, the others never written; no profile from [m] on is newer, and the
    last one in [tail] is. *)
Definition newer_in_place {A} (old stamps : list Q) (data : list A) (m : nat)
  (tail : list (option A)) : Prop :=
  List.length tail = m /\
  (forall k t, m <= k -> nth_error stamps k = Some t -> ~ newer old t) /\
  (exists k t, m = S k /\ nth_error stamps k = Some t /\ newer old t) /\
  forall k t x, k < m -> nth_error stamps k = Some t -> nth_error data k = Some x ->
    (newer old t -> nth_error tail k = Some (Some x)) /\
    (~ newer old t -> nth_error tail k = Some None).
(** Files with as many profiles as time stamps in every variable. *)
Definition aligned (f : ufile) : Prop :=
  NoDup (map fst (uf_vars f)) /\
  forall k rows, In (k, Profiles rows) (uf_vars f) \/ In (k, Deep rows) (uf_vars f) ->
    List.length rows = List.length (uf_time f).
