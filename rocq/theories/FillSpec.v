(** Specification of the radar attenuation status, from the documented classes
    (classification.py 406-422): 0 no radar signal, 1 negligible, 2 small, 3
    moderate, 4 severe, 5 attenuated and not corrected. *)
From Verif Require Import Base BitsModel StatusModel StatusSpec FillModel.

(** Masked numbers count as nothing. *)
Definition or_zero (x : masked Q) : Q := match x with Some v => v | None => 0%Q end.

(** Documented meaning of the severity of a pixel, from the thresholds. *)
Definition severity_meaning (p : att_profile) (px : att_pixel) (v : Z) : Prop :=
  let q := ap_qual px in
  let t := (or_zero (ap_liquid px) + or_zero (ap_rain px) + or_zero (ap_melting px))%Q in
  let lwp := (if pr_w_band p then or_zero (pr_lwp p) else 0)%Q in
  let rain := (if pr_w_band p then or_zero (pr_rain_rate p) else 0)%Q in
  let severe := (15 < t \/ 1 < lwp \/ 3 < rain)%Q in
  (v = 0%Z /\ radar q = false) \/
  (radar q = true /\
   ((v = 5%Z /\ some_uncorrected q) \/
    (~ some_uncorrected q /\
     ((v = 4%Z /\ severe) \/
      (v = 3%Z /\ ~ severe /\ 10 <= t)%Q \/
      (v = 2%Z /\ ~ severe /\ 0 < t /\ t < 10)%Q \/
      (v = 1%Z /\ ~ severe /\ t <= 0)%Q)))).

