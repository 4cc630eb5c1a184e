(** Model of functions/structural/stability_toe_berm/vandermeer1998.py
    for arrays with one axis *)
From Coq Require Import Reals String List Bool.
From Verif.Lib Require Import Num Monad Arr.
From Verif.Model Require Import CoreUtility ArrCore.
Open Scope string_scope.
Open Scope arr_scope.

(** vandermeer1998.py:9-84.  Line 79 computes [Hs / Delta * Dn50]. *)
Definition check_validity (Hs ht h Dn50 Nod Delta : nums) : M unit :=
  when (given Hs)
    (acheck "Relative toe height (h)" "van der Meer (1998)" Hs #0.01 #20) ;;
  when (given ht && given h)
    (acheck "Relative toe height (Dn50)" "van der Meer (1998)" (ht / h) #0.4 #0.9) ;;
  when (given ht && given Dn50)
    (acheck "Relative toe height (Dn50)" "van der Meer (1998)" (ht / Dn50) #3 #25) ;;
  when (given Nod && given Dn50 && given Hs && given Delta)
    (acheck "Nod vs Ns" "van der Meer (1998)"
       (apow Nod (- #0.15) * (Hs / Delta * Dn50)) #2 PInf).

(** vandermeer1998.py:87-131 *)
Definition calculate_damage_Nod (Hs ht h Dn50 rho_rock rho_water : nums) : M nums :=
  Delta <- calculate_buoyant_density_Delta rho_rock rho_water ;;
  Ns <- Hs / (Delta * Dn50) ;;
  Nod <- apow (Ns / (#2 + #6.2 * apow (ht / h) #2.7)) (#1 / #0.15) ;;
  check_validity Hs ht h Dn50 Nod Delta ;;
  ret Nod.

(** vandermeer1998.py:134-180 *)
Definition calculate_nominal_diameter_Dn50 (Hs ht h Nod rho_rock rho_water : nums) : M nums :=
  Delta <- calculate_buoyant_density_Delta rho_rock rho_water ;;
  Dn50 <- Hs / ((#2 + #6.2 * apow (ht / h) #2.7) * apow Nod #0.15 * Delta) ;;
  check_validity Hs ht h Dn50 Nod Delta ;;
  ret Dn50.

(** vandermeer1998.py:183-229 *)
Definition calculate_wave_height_Hs (Dn50 ht h Nod rho_rock rho_water : nums) : M nums :=
  Delta <- calculate_buoyant_density_Delta rho_rock rho_water ;;
  Hs <- ((#2 + #6.2 * apow (ht / h) #2.7) * Delta * Dn50) / apow Nod (- #0.15) ;;
  check_validity Hs ht h Dn50 Nod Delta ;;
  ret Hs.

(** vandermeer1998.py:232-282.  Line 275 takes the truth value of an array. *)
Definition calculate_depth_above_toe_ht (Hs Dn50 h Nod rho_rock rho_water : nums) : M nums :=
  Delta <- calculate_buoyant_density_Delta rho_rock rho_water ;;
  ht <- (((Hs * apow Nod (- #0.15)) / (Delta * Dn50)) - #2) / #6.2 ;;
  positive <- (ht >? #0) ;;
  positive <- truth positive ;;
  ht <- (if positive then apow ht (#1 / #2.7) * h else anan) ;;
  check_validity Hs ht h Dn50 Nod Delta ;;
  ret ht.
