(** Vocabulary for the drizzle solver, independent of the model's loops. *)
From Verif Require Import Base DrizzleModel.
Open Scope nat_scope.

(** [i] is where the values of [a] before position [last] stop being below [x]. *)
Definition crossing {D} (lt : D -> D -> bool) (a : list D) (x : D) (last i : nat) : Prop :=
  i <= last /\
  (i = 0 \/ exists y, nth_error a (i - 1) = Some y /\ lt y x = true) /\
  (i = last \/ exists y, nth_error a i = Some y /\ lt y x = false).
(** A lookup table: not empty, all tables of the shape (widths, diameters). *)
Definition rectangular {A} (m : list (list A)) (r c : nat) : Prop :=
  length m = r /\ Forall (fun row => length row = c) m.
Definition good_table {D} (lut : table D) (n_widths n_dia : nat) : Prop :=
  0 < n_widths /\ 0 < n_dia /\ length (lut_Do D lut) = n_dia /\ length (lut_mu D lut) = n_widths /\
  rectangular (width_lut D lut) n_widths n_dia /\ rectangular (lut_ray D lut) n_widths n_dia /\
  rectangular (lut_S D lut) n_widths n_dia.
(** One iteration from diameter [d] to [d'], using the table entry whose diameter
    is next to [d] and whose width is next to [w]. *)
Definition iteration {D} (lt : D -> D -> bool) (opp : D -> D) (calc_dia : D -> D -> D -> D -> D)
  (lut : table D) (r w d d' mu s : D) : Prop :=
  exists i j ray col, crossing lt (lut_Do D lut) d (length (lut_Do D lut) - 1) j /\
    (forall k row, nth_error (width_lut D lut) k = Some row -> nth_error row j = nth_error col k) /\
    length col = length (width_lut D lut) /\
    crossing lt col (opp w) (length (width_lut D lut) - 1) i /\
    nth_error (lut_mu D lut) i = Some mu /\ pixel (lut_ray D lut) i j = Some ray /\
    pixel (lut_S D lut) i j = Some s /\ d' = calc_dia r mu ray s.
(** The iterates [ds] of a pixel, the last one belonging to [mu] and [s]: no two
    consecutive ones before the end have converged. *)
Inductive iterates {D} (lt : D -> D -> bool) (opp : D -> D) (calc_dia : D -> D -> D -> D -> D)
  (converged : D -> D -> bool) (lut : table D) (r w : D) : nat -> D -> D -> D -> D -> Prop :=
| iter_one : forall d0 d mu s, iteration lt opp calc_dia lut r w d0 d mu s ->
    iterates lt opp calc_dia converged lut r w 1 d0 d mu s
| iter_more : forall n d0 d1 d mu s mu1 s1, iteration lt opp calc_dia lut r w d0 d1 mu1 s1 ->
    converged d1 d0 = false -> iterates lt opp calc_dia converged lut r w n d1 d mu s ->
    iterates lt opp calc_dia converged lut r w (S n) d0 d mu s.
(** The last two diameters of the iteration. *)
Inductive stops {D} (lt : D -> D -> bool) (opp : D -> D) (calc_dia : D -> D -> D -> D -> D)
  (converged : D -> D -> bool) (lut : table D) (r w : D) : nat -> D -> D -> D -> D -> Prop :=
| stop_now : forall d0 d mu s, iteration lt opp calc_dia lut r w d0 d mu s -> converged d d0 = true ->
    stops lt opp calc_dia converged lut r w 1 d0 d mu s
| stop_later : forall n d0 d1 d mu s mu1 s1, iteration lt opp calc_dia lut r w d0 d1 mu1 s1 ->
    converged d1 d0 = false -> stops lt opp calc_dia converged lut r w n d1 d mu s ->
    stops lt opp calc_dia converged lut r w (S n) d0 d mu s.
