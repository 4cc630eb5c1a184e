(** Model of functions/structural/stability_concrete_armour/
    cubes_double_layer_vandermeer1988.py and cubes_single_layer_vangent2002.py
    for arrays with one axis *)
From Coq Require Import Reals String List Bool.
From Verif.Lib Require Import Num Monad Arr.
From Verif.Model Require Import CoreUtility ArrCore.
Import ListNotations.
Open Scope string_scope.
Open Scope arr_scope.

Definition formula : string := "Double layer cubes vander Meer 1988".

(** cubes_double_layer_vandermeer1988.py:17-103 *)
Definition check_validity_range (Hs Tm rho_armour N_waves cot_alpha : nums) : M unit :=
  when (given Hs) (acheck "Significant wave height Hs" formula Hs #0.01 #20) ;;
  when (given N_waves) (acheck "Number of waves N_waves" formula N_waves #0 #7500) ;;
  when (given Tm) (acheck "Wave period Tm" formula Tm #0.5 #30) ;;
  when (given rho_armour) (acheck "Armour density rho_armour" formula rho_armour #2000 #3100) ;;
  when (given cot_alpha)
    (acheck "Cotangent of outer structure slope cot_alpha" formula cot_alpha #1.5 #1.5) ;;
  when (given Hs && given Tm)
    (som <- calculate_wave_steepness_s Hs Tm g_default ;;
     acheck "Wave steepness using Tm and Hs" formula som #0.005 #0.07).

(** cubes_double_layer_vandermeer1988.py:163 and 215 *)
Definition Ns_formula (Nod N_waves s0m : nums) : M nums :=
  (#6.7 * (apow Nod #0.4 / apow N_waves #0.3) + #1) * apow s0m (- #0.1).

(** cubes_double_layer_vandermeer1988.py:106-166 *)
Definition calculate_nominal_diameter_Dn_vanDerMeer1988
    (Hs Tm rho_water rho_armour N_waves cot_alpha Nod : nums) : M nums :=
  check_validity_range Hs Tm rho_armour N_waves cot_alpha ;;
  Delta <- calculate_buoyant_density_Delta rho_armour rho_water ;;
  s0m <- calculate_wave_steepness_s Hs Tm g_default ;;
  Ns <- Ns_formula Nod N_waves s0m ;;
  first (check_usage_stabilitynumber (Some Hs) None (Some Delta) (Some Ns)).

(** lines 217 and 280 *)
Definition Tm_from_steepness (Hs s0m : nums) : M nums :=
  apow ((Hs / s0m) / (#9.81 / (#2 * api))) #0.5.

(** cubes_double_layer_vandermeer1988.py:169-227 *)
Definition calculate_wave_height_Hs_vanDerMeer1988
    (Dn s0m rho_water rho_armour N_waves cot_alpha Nod : nums) : M nums :=
  Delta <- calculate_buoyant_density_Delta rho_armour rho_water ;;
  Ns <- Ns_formula Nod N_waves s0m ;;
  Hs <- first (check_usage_stabilitynumber None (Some Dn) (Some Delta) (Some Ns)) ;;
  Tm <- Tm_from_steepness Hs s0m ;;
  check_validity_range Hs Tm rho_armour N_waves cot_alpha ;;
  ret Hs.

(** cubes_double_layer_vandermeer1988.py:230-290 *)
Definition calculate_damage_Nod_vanDerMeer1988
    (Hs Dn s0m rho_water rho_armour N_waves cot_alpha : nums) : M nums :=
  Delta <- calculate_buoyant_density_Delta rho_armour rho_water ;;
  Ns <- first (check_usage_stabilitynumber (Some Hs) (Some Dn) (Some Delta) None) ;;
  Nod <- apow (((Ns / apow s0m (- #0.1)) - #1) / #6.7 * apow N_waves #0.3) (#1 / #0.4) ;;
  Tm <- Tm_from_steepness Hs s0m ;;
  check_validity_range Hs Tm rho_armour N_waves cot_alpha ;;
  ret Nod.

(** cubes_single_layer_vangent2002.py:18-61 *)
Definition calculate_unit_mass_M_start_of_damage (Hs rho_water rho_armour Ns : nums) : M nums :=
  Delta <- calculate_buoyant_density_Delta rho_armour rho_water ;;
  r <- first (check_usage_stabilitynumber (Some Hs) None (Some Delta) (Some Ns)) ;;
  calculate_M50_from_Dn50 r rho_armour.

(** cubes_single_layer_vangent2002.py:64-103 *)
Definition calculate_unit_mass_M_failure (Hs rho_water rho_armour Ns : nums) : M nums :=
  calculate_unit_mass_M_start_of_damage Hs rho_water rho_armour Ns.

(** cubes_single_layer_vangent2002.py:106-148 *)
Definition calculate_significant_wave_height_Hs_start_of_damage
    (m rho_water rho_armour Ns : nums) : M nums :=
  Delta <- calculate_buoyant_density_Delta rho_armour rho_water ;;
  Dn <- calculate_Dn50_from_M50 m rho_armour ;;
  first (check_usage_stabilitynumber None (Some Dn) (Some Delta) (Some Ns)).

(** cubes_single_layer_vangent2002.py:151-191 *)
Definition calculate_significant_wave_height_Hs_failure (m rho_water rho_armour Ns : nums) : M nums :=
  calculate_significant_wave_height_Hs_start_of_damage m rho_water rho_armour Ns.
