(** Specification of the numbers behind the figures. *)
From Coq Require Import List Bool Arith ZArith QArith Sorted String.
From Verif Require Import Base TimeSpec ArraySpec DropletSpec.
Import ListNotations.
Open Scope string_scope. Open Scope nat_scope. Open Scope list_scope.
Local Notation length := List.length (only parsing).

(** ** Gaps *)

(** The longest allowed gap of every file type but models, in minutes. *)
Definition allowed_minutes (file_type : string) : Z :=
  if String.eqb file_type "radar" then 5%Z
  else if String.eqb file_type "weather-station" then 12%Z
  else if String.eqb file_type "weather-radar" then 20%Z
  else if String.eqb file_type "mwr-multi" then 35%Z
  else if String.eqb file_type "cpr-simulation" then 60%Z
  else if String.eqb file_type "doppler-lidar" then 75%Z
  else if String.eqb file_type "doppler-lidar-wind" then 75%Z
  else if String.eqb file_type "epsilon-lidar" then 75%Z
  else 10%Z.
Definition hours (minutes : Z) : Q := (inject_Z minutes / 60)%Q.

Definition ascending (l : list Q) : Prop := StronglySorted Qlt l.

(** Gap markers are put 0.001 hours inside the gap. *)
Definition tick : Q := 1 # 1000.

Definition neighbours (l : list Q) : list (Q * Q) := combine l (tl l).
Definition gaps_of (g : Q) (l : list Q) : list (Q * Q) :=
  filter (fun p => negb (Qle_bool (snd p - fst p) g)) (neighbours l).
(** The hatched periods of a figure from 0 to [day_end]: the gaps between the
    beginning of the axis, the samples and the end of the axis. *)
Definition hatched (g day_end : Q) (time : list Q) : list (list Q) :=
  map (fun p => [(fst p + tick)%Q; (snd p - tick)%Q]) (gaps_of g (0%Q :: time ++ [day_end])).

(** [with_gaps g blank l out]: [out] is [l] with two blank samples in every
    interval longer than [g]. *)
Inductive with_gaps {A} (g : Q) (blank : A) : list (Q * A) -> list (Q * A) -> Prop :=
| WgOne p : with_gaps g blank [p] [p]
| WgClose p q l out : (fst q - fst p <= g)%Q -> with_gaps g blank (q :: l) out ->
    with_gaps g blank (p :: q :: l) (p :: out)
| WgGap p q l out : (g < fst q - fst p)%Q -> with_gaps g blank (q :: l) out ->
    with_gaps g blank (p :: q :: l) (p :: ((fst p + tick)%Q, blank) :: ((fst q - tick)%Q, blank) :: out).

(** The same with the intervals before the first and after the last sample. *)
Definition marked {A} (g day_end : Q) (blank : A) (l out : list (Q * A)) : Prop :=
  exists first last_ lead inner trail,
    hd_error (map fst l) = Some first /\ hd_error (rev (map fst l)) = Some last_ /\
    with_gaps g blank l inner /\ out = lead ++ inner ++ trail /\
    (((first <= g)%Q /\ lead = []) \/
     ((g < first)%Q /\ lead = [(tick, blank); ((first - tick)%Q, blank)])) /\
    (((day_end - last_ <= g)%Q /\ trail = []) \/
     ((g < day_end - last_)%Q /\ trail = [((last_ + tick)%Q, blank); ((day_end - tick)%Q, blank)])).

Inductive subsequence {A} : list A -> list A -> Prop :=
| SubNil : subsequence [] []
| SubKeep x l1 l2 : subsequence l1 l2 -> subsequence (x :: l1) (x :: l2)
| SubSkip x l1 l2 : subsequence l1 l2 -> subsequence l1 (x :: l2).

(** Equally spaced times. *)
Definition regular (step : Q) (time : list Q) : Prop :=
  Forall (fun p => (snd p - fst p == step)%Q) (neighbours time).

(** A profile with at least one value. *)
Definition has_data (row : list (masked Q)) : Prop := exists v, In (Some v) row.
(** The indices of the profiles with data, ascending. *)
Definition good_profiles (data : list (list (masked Q))) (idx : list nat) : Prop :=
  StronglySorted lt idx /\
  (forall i, In i idx <-> exists row, nth_error data i = Some row /\ has_data row).

(** The profiles shown: those with data and the one after the last of them (the
    last one again if there is none). *)
Definition shown (n : nat) (idx : list nat) : list nat :=
  idx ++ [Nat.min (S (last idx 0)) (n - 1)].

(** ** Segments *)

Definition hidden (label : string) : bool := prefix "_" label.
Definition visible_segments (l : list (string * string)) : list (string * string) :=
  filter (fun x => negb (hidden (fst x))) l.

(** ** Runs *)

(** [l] lists the maximal runs of true in order. *)
Definition lists_runs (row : list bool) (l : list (nat * nat)) : Prop :=
  StronglySorted (fun p q => snd p < fst q) l /\ forall b t, In (b, t) l <-> max_run row b t.

Definition slice {A} (b t : nat) (l : list A) : list A := firstn (S t - b) (skipn b l).

(** ** Averages *)

Fixpoint qsum (l : list Q) : Q := match l with [] => 0 | x :: r => x + qsum r end%Q.

(** The value at position [i] of a series continued by its end values. *)
Definition continued (data : list Q) (i : Z) : Q :=
  nth (Z.to_nat (Z.min (Z.max i 0) (Z.of_nat (length data) - 1))) data 0%Q.
(** The mean of the [2 h + 1] values around position [i]. *)
Definition centred_mean (data : list Q) (h : nat) (i : nat) : Q :=
  (qsum (map (fun k => continued data (Z.of_nat i + Z.of_nat k - Z.of_nat h)) (seq 0 (2 * h + 1)))
   / inject_Z (Z.of_nat (2 * h + 1)))%Q.

(** [cut g time pieces]: [pieces] is [time] cut at the intervals longer than [g]. *)
Inductive cut {A} (g : Q) : list (Q * A) -> list (list (Q * A)) -> Prop :=
| CutOne p : cut g [p] [[p]]
| CutClose p q l piece r : (fst q - fst p <= g)%Q -> cut g (q :: l) (piece :: r) ->
    cut g (p :: q :: l) ((p :: piece) :: r)
| CutGap p q l r : (g < fst q - fst p)%Q -> cut g (q :: l) r ->
    cut g (p :: q :: l) ([p] :: r).

(** The moving average [avg] of the samples [data] at the times [time] (hours),
    for a window of [minutes]: the mean of [2 h + 1] neighbours, as many as fit the
    window at the median interval of the samples. *)
Definition averaged (minutes : Q) (time data avg : list Q) : Prop :=
  length avg = length data /\
  (length data = 1 -> avg = data) /\
  (2 <= length data -> exists d h,
     is_median (map (fun p => (snd p - fst p)%Q) (neighbours time)) d /\
     (inject_Z (2 * Z.of_nat h) * d <= minutes / 60)%Q /\
     (minutes / 60 < inject_Z (2 * Z.of_nat h + 2) * d)%Q /\
     forall i v, nth_error avg i = Some v -> (v == centred_mean data h i)%Q).
