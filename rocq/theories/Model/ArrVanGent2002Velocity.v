(** Model of functions/hydraulic/wave_overtopping/vangent2002_velocity.py
    for arrays with one axis *)
From Coq Require Import Reals.
From Verif.Lib Require Import Num Monad Arr.
Open Scope arr_scope.

(** vangent2002_velocity.py:6-60 *)
Definition calculate_maximum_wave_overtopping_velocity_uXp
    (Hs zXp Rc Bc gamma_f gamma_f_Crest cu1 cu2 g : nums) : M nums :=
  asqrt (g * Hs) * cu1 * asqrt gamma_f_Crest * asqrt ((zXp - Rc) / (gamma_f * Hs))
  / (#1 + cu2 * Bc / Hs).

(** vangent2002_velocity.py:63-87, _invert_for_zXp *)
Definition invert_for_zXp (Hs uXp Rc Bc gamma_f gamma_f_Crest cu1 cu2 g : nums) : M nums :=
  apow ((uXp / asqrt (g * Hs)) * (#1 / (cu1 * asqrt gamma_f_Crest)) * (#1 + cu2 * Bc / Hs)) #2
  * Hs * gamma_f + Rc.
