(** Model of functions/structural/stability_toe_berm/vangentvanderwerf2014.py *)
From Coq Require Import Reals String List Bool.
From Verif.Lib Require Import Num Monad.
From Verif.Model Require Import CoreUtility CorePhysics.
Open Scope string_scope.
Open Scope num_scope.

(** vangentvanderwerf2014.py:9-79 *)
Definition check_validity (Hs tt ht cot_alpha_armour_slope : num) : M unit :=
  when (provided cot_alpha_armour_slope)
    (check "Armour slope cot_alpha_armour_slope" "van Gent & van der Werf (2014)"
       cot_alpha_armour_slope #1.5 #4) ;;
  when (provided cot_alpha_armour_slope)
    (check "Armour slope cot_alpha_armour_slope, closer to 1:4 more inaccuracies are found"
       "van Gent & van der Werf (2014)" cot_alpha_armour_slope #1.5 #2) ;;
  when (provided ht && provided tt)
    (let h := ht + tt in
     check "Relative toe height tt/h" "van Gent & van der Werf (2014)" (tt / h) #0.1 #0.3) ;;
  when (provided ht && provided tt && provided Hs)
    (let h := ht + tt in
     check "Relative water depth h/Hs" "van Gent & van der Werf (2014)" (h / Hs) #1.2 #4.5).

(** vangentvanderwerf2014.py:227-255 *)
Definition calculate_velocity_u_delta (Hs Tmm10 ht g : num) : num :=
  let Lmm10 := (g / (#2 * npi)) * npow Tmm10 #2 in
  let k := (#2 * npi) / Lmm10 in
  ((npi * Hs) / Tmm10) * (#1 / nsinh (k * ht)).

(** vangentvanderwerf2014.py:82-158 *)
Definition calculate_damage_Nod
    (Hm0 Tmm10 ht Bt tt Dn50 rho_rock rho_water cot_alpha_armour_slope g c1 c2 c3 c4 c5 : num) : M num :=
  let u_delta := calculate_velocity_u_delta Hm0 Tmm10 ht g in
  let Delta := calculate_buoyant_density_Delta rho_rock rho_water in
  let Nod :=
    (c1 * npow (Bt / Hm0) c2)
    * npow (tt / Hm0) c3
    * npow (Hm0 / (Delta * Dn50)) c4
    * npow (u_delta / nsqrt (g * Hm0)) c5 in
  check_validity Hm0 tt ht cot_alpha_armour_slope ;;
  ret Nod.

(** vangentvanderwerf2014.py:161-224 *)
Definition calculate_nominal_diameter_Dn50
    (Hm0 Tmm10 ht Bt tt Nod rho_rock rho_water cot_alpha_armour_slope g : num) : M num :=
  let u_delta := calculate_velocity_u_delta Hm0 Tmm10 ht g in
  let Delta := calculate_buoyant_density_Delta rho_rock rho_water in
  let Dn50 :=
    #0.32
    * (Hm0 / (Delta * npow Nod (#1 / #3)))
    * npow (Bt / Hm0) #0.1
    * npow (tt / Hm0) (#1 / #3)
    * npow (u_delta / nsqrt (g * Hm0)) (#1 / #3) in
  check_validity Hm0 tt ht cot_alpha_armour_slope ;;
  ret Dn50.

(** Defaults of calculate_damage_Nod, lines 92-97. *)
Definition default_damage_Nod (Hm0 Tmm10 ht Bt tt Dn50 rho_rock rho_water cot_alpha g : num) : M num :=
  calculate_damage_Nod Hm0 Tmm10 ht Bt tt Dn50 rho_rock rho_water cot_alpha g
    #0.032 #0.3 #1 #3 #1.
