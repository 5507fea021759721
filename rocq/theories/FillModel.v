(** Profile-wise variables that use forward fill: radar attenuation status and
    insect screening. *)
From Verif Require Import Base BitsModel StatusModel ArrayModel.
From Coq Require Import Qabs.
Open Scope Q_scope.

(** Attenuation of one pixel as read by [_read_atten] (classification.py
    181-187): masked values become 0.  The branch for a variable that is
    missing from the file (a 1-D zero array) is represented by masked values;
    NumPy's broadcasting of that 1-D array is not modelled. *)
Record att_pixel := {
  ap_qual : QualityBits;
  ap_liquid : masked Q; ap_rain : masked Q; ap_melting : masked Q }.
Definition filled0 (x : masked Q) : Q := match x with Some v => v | None => 0 end.
Definition total_atten (p : att_pixel) : Q :=
  filled0 (ap_liquid p) + filled0 (ap_rain p) + filled0 (ap_melting p).

(** classification.py 193-224, [_get_attenuation_classes]: thresholds.  [lwp] in
    kg/m2, [rain_rate] in mm/h, both 0 when the radar is not W-band (193-207). *)
Record att_profile := {
  pr_w_band : bool; pr_lwp : masked Q; pr_rain_rate : masked Q; pr_pixels : list att_pixel }.
Definition prof_lwp (p : att_profile) : Q := if pr_w_band p then filled0 (pr_lwp p) else 0.
Definition prof_rain (p : att_profile) : Q := if pr_w_band p then filled0 (pr_rain_rate p) else 0.
Definition qgt (a b : Q) : bool := negb (Qle_bool a b).
Definition att_small (t : Q) : bool := qgt t 0.
Definition att_moderate (t : Q) : bool := Qle_bool 10 t.
Definition att_severe (lwp rain t : Q) : bool := qgt t 15 || qgt lwp 1 || qgt rain 3.

(** classification.py 161-173: the severity assignments before the fill. *)
Definition att_severity (lwp rain : Q) (p : att_pixel) : Z :=
  let q := ap_qual p in
  let t := total_atten p in
  let s := 0%Z in
  let s := assign (radar q) 1%Z s in
  let s := assign (att_small t && radar q) 2%Z s in
  let s := assign (att_moderate t && radar q) 3%Z s in
  let s := assign (att_severe lwp rain t && radar q) 4%Z s in
  let s := assign (negb (is_corrected_mask q) && is_attenuated_mask q && radar q) 5%Z s in
  s.

(** classification.py 174-177: [above_severe = ffill(severity == 4)]; pixels above
    that are not severe become 6. *)
Definition radar_attenuation_status_profile (p : att_profile) : list Z :=
  let severity := map (att_severity (prof_lwp p) (prof_rain p)) (pr_pixels p) in
  let is_severe := map (fun s => (s =? 4)%Z) severity in
  let above_severe := ffill_bool is_severe in
  map2 (fun sev ab => assign (snd ab && negb (fst ab)) 6%Z sev)
       severity (combine is_severe above_severe).
Definition radar_attenuation_status (rows : list att_profile) : image Z :=
  map radar_attenuation_status_profile rows.

(** [argmin] of a 1-D array: first minimum, ValueError when empty. *)
Fixpoint argmin_from (i best : nat) (bestv : Q) (l : list Q) : nat :=
  match l with
  | [] => best
  | x :: r => if qgt bestv x then argmin_from (S i) i x r else argmin_from (S i) best bestv r
  end.
Definition argmin (l : list Q) : result nat :=
  match l with [] => Raise ValueError | x :: r => Ok (argmin_from 1 0 x r) end.

(** classification.py 146-158, [_get_cloud_top_height_status], one profile.  The
    top is masked in a profile without cloud: the distances are then all masked
    and [MaskedArray.argmin] returns 0 (masked entries are filled with the
    largest value).  The comparison [tops >= height[-1]] indexes with the data
    under the mask, which is 0 there ([ma.masked_equal(heights, 0.0)] keeps it).
    Simplification: when no profile of the file has a cloud the tops come from
    [ma.masked_all], whose data is uninitialised; 0 is used here too. *)
Definition top_status (height : list Q) (att_row : list Z) (top : masked Q) : result Z :=
  bind (match top with
        | Some t => argmin (map (fun h => Qabs (h - t)) height)
        | None => match height with [] => Raise ValueError | _ => Ok 0%nat end
        end) (fun ind =>
  match nth_error att_row ind with
  | None => Raise IndexError
  | Some a =>
      let s := 0%Z in
      let s := assign (a =? 3)%Z 1%Z s in
      let s := assign (a =? 4)%Z 3%Z s in
      let s := assign (a =? 5)%Z 2%Z s in
      let s := assign (Qle_bool (last height 0) (filled0 top)) 4%Z s in
      Ok s
  end).

(* ------------------------------------------------------------------ *)
(** ** Insects *)

(** insects.py 157-183, [_screen_insects], one profile; one list per 2-D input.
    Probabilities are arbitrary rationals. *)
Definition screen_insects_row (prob prob_no_ldr : list Q) (melting_layer liquid_layers : list bool)
  (is_rain : bool) : list Q :=
  let prob := map2 (fun (b : bool) p => assign b 0 p) liquid_layers prob in
  let prob := map2 (fun (b : bool) p => assign b 0 p) (ffill_bool melting_layer) prob in
  let above_liquid := ffill_bool liquid_layers in
  let prob := map2 (fun (bn : bool * Q) p => assign (fst bn && qgt (snd bn) 0) 0 p)
                   (combine above_liquid prob_no_ldr) prob in
  map (fun p => assign is_rain 0 p) prob.

(** insects.py 13-53, [find_insects]: [insect_prob > prob_lim] (default 0.8; any
    non-negative limit here). *)
Definition find_insects_row (prob_lim : Q) (prob prob_no_ldr : list Q)
  (melting_layer liquid_layers : list bool) (is_rain : bool) : list bool :=
  map (fun p => qgt p prob_lim)
      (screen_insects_row prob prob_no_ldr melting_layer liquid_layers is_rain).
