(** Specifications of the status variables, written from the documented
    definitions (classification.py DEFINITIONS, iwc.py DEFINITIONS, ...) and not
    from the assignment sequences. *)
From Verif Require Import Base BitsModel.
Open Scope Z_scope.

(** Documented target classes as a decision table: what hides what. *)
Definition target_spec (c : CategoryBits) (clut : bool) : Z :=
  if clut then (if aerosol c then 8 else 0)
  else match aerosol c, insect c with
       | true, true => 10
       | true, false => 8
       | false, true => 9
       | false, false =>
           if melting c then (if droplet c then 7 else 6)
           else match droplet c, falling c with
                | false, false => 0
                | true, false => 1
                | false, true => if freezing c then 4 else 2
                | true, true => if freezing c then 5 else 3
                end
       end.

(** Kinds of attenuation. *)
Inductive kind := Liquid | Rain | Melting.
Definition att (q : QualityBits) (k : kind) : Prop :=
  match k with
  | Liquid => attenuated_liquid q = true
  | Rain => attenuated_rain q = true
  | Melting => attenuated_melting q = true
  end.
Definition corr (q : QualityBits) (k : kind) : Prop :=
  match k with
  | Liquid => corrected_liquid q = true
  | Rain => corrected_rain q = true
  | Melting => corrected_melting q = true
  end.
Definition some_att q := exists k, att q k.
Definition some_uncorrected q := exists k, att q k /\ ~ corr q k.
Definition all_corrected q := some_att q /\ forall k, att q k -> corr q k.

Definition R q := radar q = true.
Definition L q := lidar q = true.

(** Meaning of each detection status value (exclusive and exhaustive). *)
Definition detection_meaning (q : QualityBits) (v : Z) : Prop :=
  let hidden := clutter q = true \/ (molecular q = true /\ ~ R q) in
  match v with
  | 0 => ~ R q /\ ~ L q /\ ~ some_att q /\ ~ hidden
  | 1 => ~ R q /\ L q /\ ~ some_att q /\ ~ hidden
  | 2 => R q /\ some_uncorrected q /\ ~ hidden
  | 3 => R q /\ L q /\ ~ some_att q /\ ~ hidden
  | 4 => ~ R q /\ some_uncorrected q /\ ~ hidden
  | 5 => R q /\ ~ L q /\ ~ some_att q /\ ~ hidden
  | 6 => ~ R q /\ all_corrected q /\ ~ hidden
  | 7 => R q /\ all_corrected q /\ ~ hidden
  | 8 => clutter q = true /\ ~ (molecular q = true /\ ~ R q)
  | 9 => molecular q = true /\ ~ R q
  | _ => False
  end.

(** The instruments that a signal source value names. *)
Definition source_flags (v : Z) : option (bool * bool) :=
  match v with
  | 0 => Some (false, false)
  | 1 => Some (true, true)
  | 2 => Some (true, false)
  | 3 => Some (false, true)
  | _ => None
  end.

(** Ice: falling, cold, not melting and not an insect. *)
Definition Ice (c : CategoryBits) : Prop :=
  falling c = true /\ freezing c = true /\ melting c = false /\ insect c = false.

(** Observed cloud in the model evaluation. *)
Definition Cloudy (c : CategoryBits) : Prop :=
  (droplet c = true \/ (falling c = true /\ freezing c = true))
  /\ aerosol c = false /\ insect c = false.

(** Drizzle that can be retrieved: dry profile, falling warm pixel without
    droplets or melting seen by both instruments, with no clutter, molecular
    scattering, insects or attenuation by liquid or rain. *)
Definition DrizzleFlags (rain : bool) (c : CategoryBits) (q : QualityBits) : Prop :=
  rain = false /\ falling c = true /\ droplet c = false /\ freezing c = false /\
  melting c = false /\ insect c = false /\ radar q = true /\ lidar q = true /\
  clutter q = false /\ molecular q = false /\ attenuated_liquid q = false /\
  attenuated_rain q = false.
Definition WouldBeDrizzle (rain : bool) (c : CategoryBits) (q : QualityBits) : Prop :=
  rain = false /\ droplet c = true /\ freezing c = false /\ falling c = true /\
  melting c = false /\ insect c = false /\ radar q = true /\
  clutter q = false /\ molecular q = false.
