(** Model of functions/hydraulic/wave_overtopping/vangent2002_velocity.py *)
From Coq Require Import Reals.
From Verif.Lib Require Import Num.
Open Scope num_scope.

(** vangent2002_velocity.py:6-60 *)
Definition calculate_maximum_wave_overtopping_velocity_uXp
    (Hs zXp Rc Bc gamma_f gamma_f_Crest cu1 cu2 g : num) : num :=
  nsqrt (g * Hs) * cu1 * nsqrt gamma_f_Crest * nsqrt ((zXp - Rc) / (gamma_f * Hs))
  / (#1 + cu2 * Bc / Hs).

(** vangent2002_velocity.py:63-87, _invert_for_zXp *)
Definition invert_for_zXp (Hs uXp Rc Bc gamma_f gamma_f_Crest cu1 cu2 g : num) : num :=
  npow ((uXp / nsqrt (g * Hs)) * (#1 / (cu1 * nsqrt gamma_f_Crest)) * (#1 + cu2 * Bc / Hs)) #2
  * Hs * gamma_f + Rc.

(** Defaults, lines 13-15 and 70-72. *)
Definition cu1_default : num := #1.7.
Definition cu2_default : num := #0.1.
