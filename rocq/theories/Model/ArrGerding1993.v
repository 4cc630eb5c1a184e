(** Model of functions/structural/stability_toe_berm/gerding1993.py
    for arrays with one axis *)
From Coq Require Import Reals String List Bool.
From Verif.Lib Require Import Num Monad Arr.
From Verif.Model Require Import CoreUtility ArrCore.
Open Scope string_scope.
Open Scope arr_scope.

(** gerding1993.py:9-52 *)
Definition check_validity (ht h Dn50 : nums) : M unit :=
  when (given ht && given h)
    (acheck "Relative toe height (h)" "Gerding (1993)" (ht / h) #0.4 #0.9) ;;
  when (given ht && given Dn50)
    (acheck "Relative toe height (Dn50)" "Gerding (1993)" (ht / Dn50) #3 #25).

(** gerding1993.py:55-99 *)
Definition calculate_damage_Nod (Hs ht h Dn50 rho_rock rho_water : nums) : M nums :=
  Delta <- calculate_buoyant_density_Delta rho_rock rho_water ;;
  Nod <- apow ((Hs / (Delta * Dn50)) / (#1.6 + #0.24 * (ht / Dn50))) (#1 / #0.15) ;;
  check_validity ht h Dn50 ;;
  ret Nod.

(** gerding1993.py:102-148 *)
Definition calculate_nominal_diameter_Dn50 (Hs ht h Nod rho_rock rho_water : nums) : M nums :=
  Delta <- calculate_buoyant_density_Delta rho_rock rho_water ;;
  Dn50 <- ((Hs / Delta) - (apow Nod #0.15) * #0.24 * ht) / (apow Nod #0.15 * #1.6) ;;
  check_validity ht h Dn50 ;;
  ret Dn50.

(** gerding1993.py:151-197 *)
Definition calculate_wave_height_Hs (Dn50 ht h Nod rho_rock rho_water : nums) : M nums :=
  Delta <- calculate_buoyant_density_Delta rho_rock rho_water ;;
  Hs <- (apow Nod #0.15) * Delta * Dn50 * (#1.6 + #0.24 * (ht / Dn50)) ;;
  check_validity ht h Dn50 ;;
  ret Hs.

(** gerding1993.py:200-246 *)
Definition calculate_depth_above_toe_ht (Hs Dn50 h Nod rho_rock rho_water : nums) : M nums :=
  Delta <- calculate_buoyant_density_Delta rho_rock rho_water ;;
  ht <- (Dn50 * ((Hs / (Delta * Dn50 * (apow Nod #0.15))) - #1.6)) / #0.24 ;;
  check_validity ht h Dn50 ;;
  ret ht.
