(** Model of functions/structural/stability_toe_berm/vangentvanderwerf2014.py
    for arrays with one axis *)
From Coq Require Import Reals String List Bool.
From Verif.Lib Require Import Num Monad Arr.
From Verif.Model Require Import CoreUtility ArrCore.
Open Scope string_scope.
Open Scope arr_scope.

(** vangentvanderwerf2014.py:9-79 *)
Definition check_validity (Hs tt ht cot_alpha_armour_slope : nums) : M unit :=
  when (given cot_alpha_armour_slope)
    (acheck "Armour slope cot_alpha_armour_slope" "van Gent & van der Werf (2014)"
       cot_alpha_armour_slope #1.5 #4) ;;
  when (given cot_alpha_armour_slope)
    (acheck "Armour slope cot_alpha_armour_slope, closer to 1:4 more inaccuracies are found"
       "van Gent & van der Werf (2014)" cot_alpha_armour_slope #1.5 #2) ;;
  when (given ht && given tt)
    (h <- ht + tt ;;
     acheck "Relative toe height tt/h" "van Gent & van der Werf (2014)" (tt / h) #0.1 #0.3) ;;
  when (given ht && given tt && given Hs)
    (h <- ht + tt ;;
     acheck "Relative water depth h/Hs" "van Gent & van der Werf (2014)" (h / Hs) #1.2 #4.5).

(** vangentvanderwerf2014.py:227-255 *)
Definition calculate_velocity_u_delta (Hs Tmm10 ht g : nums) : M nums :=
  Lmm10 <- (g / (#2 * api)) * apow Tmm10 #2 ;;
  k <- (#2 * api) / Lmm10 ;;
  ((api * Hs) / Tmm10) * (#1 / asinh (k * ht)).

(** vangentvanderwerf2014.py:82-158 *)
Definition calculate_damage_Nod
    (Hm0 Tmm10 ht Bt tt Dn50 rho_rock rho_water cot_alpha_armour_slope g c1 c2 c3 c4 c5 : nums) : M nums :=
  u_delta <- calculate_velocity_u_delta Hm0 Tmm10 ht g ;;
  Delta <- calculate_buoyant_density_Delta rho_rock rho_water ;;
  Nod <-
    (c1 * apow (Bt / Hm0) c2)
    * apow (tt / Hm0) c3
    * apow (Hm0 / (Delta * Dn50)) c4
    * apow (u_delta / asqrt (g * Hm0)) c5 ;;
  check_validity Hm0 tt ht cot_alpha_armour_slope ;;
  ret Nod.

(** vangentvanderwerf2014.py:161-224 *)
Definition calculate_nominal_diameter_Dn50
    (Hm0 Tmm10 ht Bt tt Nod rho_rock rho_water cot_alpha_armour_slope g : nums) : M nums :=
  u_delta <- calculate_velocity_u_delta Hm0 Tmm10 ht g ;;
  Delta <- calculate_buoyant_density_Delta rho_rock rho_water ;;
  Dn50 <-
    #0.32
    * (Hm0 / (Delta * apow Nod (#1 / #3)))
    * apow (Bt / Hm0) #0.1
    * apow (tt / Hm0) (#1 / #3)
    * apow (u_delta / asqrt (g * Hm0)) (#1 / #3) ;;
  check_validity Hm0 tt ht cot_alpha_armour_slope ;;
  ret Dn50.
