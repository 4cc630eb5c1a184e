(** Model of functions/structural/stability_concrete_armour/
    cubes_double_layer_vandermeer1988.py and cubes_single_layer_vangent2002.py *)
From Coq Require Import Reals String List Bool.
From Verif.Lib Require Import Num Monad.
From Verif.Model Require Import CoreUtility CorePhysics.
Import ListNotations.
Open Scope string_scope.
Open Scope num_scope.

Definition formula : string := "Double layer cubes vander Meer 1988".

(** cubes_double_layer_vandermeer1988.py:17-103 *)
Definition check_validity_range (Hs Tm rho_armour N_waves cot_alpha : num) : M unit :=
  when (provided Hs) (check "Significant wave height Hs" formula Hs #0.01 #20) ;;
  when (provided N_waves) (check "Number of waves N_waves" formula N_waves #0 #7500) ;;
  when (provided Tm) (check "Wave period Tm" formula Tm #0.5 #30) ;;
  when (provided rho_armour) (check "Armour density rho_armour" formula rho_armour #2000 #3100) ;;
  when (provided cot_alpha)
    (check "Cotangent of outer structure slope cot_alpha" formula cot_alpha #1.5 #1.5) ;;
  when (provided Hs && provided Tm)
    (let som := calculate_wave_steepness_s Hs Tm g_default in
     check "Wave steepness using Tm and Hs" formula som #0.005 #0.07).

(** cubes_double_layer_vandermeer1988.py:163 and 215 *)
Definition Ns_formula (Nod N_waves s0m : num) : num :=
  (#6.7 * (npow Nod #0.4 / npow N_waves #0.3) + #1) * npow s0m (- #0.1).

(** cubes_double_layer_vandermeer1988.py:106-166 *)
Definition calculate_nominal_diameter_Dn_vanDerMeer1988
    (Hs Tm rho_water rho_armour N_waves cot_alpha Nod : num) : M num :=
  check_validity_range Hs Tm rho_armour N_waves cot_alpha ;;
  let Delta := calculate_buoyant_density_Delta rho_armour rho_water in
  let s0m := calculate_wave_steepness_s Hs Tm g_default in
  let Ns := Ns_formula Nod N_waves s0m in
  r <- check_usage_stabilitynumber (Some Hs) None (Some Delta) (Some Ns) ;;
  ret (fst r).

(** lines 217 and 280 *)
Definition Tm_from_steepness (Hs s0m : num) : num :=
  npow ((Hs / s0m) / (#9.81 / (#2 * npi))) #0.5.

(** cubes_double_layer_vandermeer1988.py:169-227 *)
Definition calculate_wave_height_Hs_vanDerMeer1988
    (Dn s0m rho_water rho_armour N_waves cot_alpha Nod : num) : M num :=
  let Delta := calculate_buoyant_density_Delta rho_armour rho_water in
  let Ns := Ns_formula Nod N_waves s0m in
  r <- check_usage_stabilitynumber None (Some Dn) (Some Delta) (Some Ns) ;;
  let Hs := fst r in
  let Tm := Tm_from_steepness Hs s0m in
  check_validity_range Hs Tm rho_armour N_waves cot_alpha ;;
  ret Hs.

(** cubes_double_layer_vandermeer1988.py:230-290 *)
Definition calculate_damage_Nod_vanDerMeer1988
    (Hs Dn s0m rho_water rho_armour N_waves cot_alpha : num) : M num :=
  let Delta := calculate_buoyant_density_Delta rho_armour rho_water in
  r <- check_usage_stabilitynumber (Some Hs) (Some Dn) (Some Delta) None ;;
  let Ns := fst r in
  let Nod := npow (((Ns / npow s0m (- #0.1)) - #1) / #6.7 * npow N_waves #0.3) (#1 / #0.4) in
  let Tm := Tm_from_steepness Hs s0m in
  check_validity_range Hs Tm rho_armour N_waves cot_alpha ;;
  ret Nod.

(** cubes_single_layer_vangent2002.py:18-61 *)
Definition calculate_unit_mass_M_start_of_damage (Hs rho_water rho_armour Ns : num) : M num :=
  let Delta := calculate_buoyant_density_Delta rho_armour rho_water in
  r <- check_usage_stabilitynumber (Some Hs) None (Some Delta) (Some Ns) ;;
  ret (calculate_M50_from_Dn50 (fst r) rho_armour).

(** cubes_single_layer_vangent2002.py:64-103 *)
Definition calculate_unit_mass_M_failure (Hs rho_water rho_armour Ns : num) : M num :=
  calculate_unit_mass_M_start_of_damage Hs rho_water rho_armour Ns.

(** cubes_single_layer_vangent2002.py:106-148 *)
Definition calculate_significant_wave_height_Hs_start_of_damage
    (m rho_water rho_armour Ns : num) : M num :=
  let Delta := calculate_buoyant_density_Delta rho_armour rho_water in
  let Dn := calculate_Dn50_from_M50 m rho_armour in
  r <- check_usage_stabilitynumber None (Some Dn) (Some Delta) (Some Ns) ;;
  ret (fst r).

(** cubes_single_layer_vangent2002.py:151-191 *)
Definition calculate_significant_wave_height_Hs_failure (m rho_water rho_armour Ns : num) : M num :=
  calculate_significant_wave_height_Hs_start_of_damage m rho_water rho_armour Ns.

(** Defaults of Ns, lines 22, 110 and 68, 155. *)
Definition Ns_start_default : num := #2.9.
Definition Ns_failure_default : num := #3.5.
