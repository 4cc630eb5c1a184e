(** Model of functions/structural/stability_rock_armour/scaravaglione2025.py
    for arrays with one axis *)
From Coq Require Import Reals String List Bool.
From Verif.Lib Require Import Num Monad Arr.
From Verif.Model Require Import CoreUtility ArrCore.
Open Scope string_scope.
Open Scope arr_scope.

Definition sc25 : string := "Scaravaglione et al. (2025)".

(** scaravaglione2025.py:9-124 *)
Definition check_validity_range
    (Hm0 Tmm10 N_waves cot_alpha P Dn50 Dn50_core rho_armour rho_water : nums) : M unit :=
  when (given P) (acheck "Notional permeability P" sc25 P #0.37 #0.55) ;;
  when (given Hm0 && given Dn50)
    (acheck "Stability number Ns" sc25 (calculate_stability_number_Ns Hm0 Dn50 rho_armour rho_water) #1.47 #3.44) ;;
  when (given Hm0 && given Tmm10)
    (acheck "Wave steepness s_m-1,0" sc25 (calculate_wave_steepness_s Hm0 Tmm10 g_default) #0.020 #0.049) ;;
  when (given Hm0 && given Tmm10 && given cot_alpha)
    (acheck "Iribarren number ksi_m-1,0" sc25 (calculate_Iribarren_number_ksi Hm0 Tmm10 cot_alpha) #1.3 #15) ;;
  when (given cot_alpha)
    (acheck "Cotangent of outer structure slope cot_alpha" sc25 cot_alpha #2 #2) ;;
  when (given N_waves) (acheck "Number of waves N_waves" sc25 N_waves #652 #4064) ;;
  when (given Dn50 && given Dn50_core)
    (acheck "Ratio core to armour Dn50_core / Dn50" sc25 (Dn50_core / Dn50) #0.21 #0.71).

(** scaravaglione2025.py:127-209.  rho_water is not passed to the validity
    acheck (lines 199-207), which uses its default 1025. *)
Definition calculate_damage_number_S
    (Hm0 Tmm10 N_waves cot_alpha rho_armour rho_core Dn50 Dn50_core M50 M50_core c_VGnew rho_water : nums) : M nums :=
  Dn50 <- check_usage_Dn50_or_M50 Dn50 M50 rho_armour ;;
  Dn50_core <- check_usage_Dn50_or_M50 Dn50_core M50_core rho_core ;;
  s_mm10 <- calculate_wave_steepness_s Hm0 Tmm10 g_default ;;
  Ns <- calculate_stability_number_Ns Hm0 Dn50 rho_armour rho_water ;;
  S <-
    apow ((#1 / c_VGnew) * apow s_mm10 (- #0.1) * asqrt (#1 / cot_alpha) * Ns
          * (#1 / (#1 + Dn50_core / Dn50))) #5
    * asqrt N_waves ;;
  check_validity_range Hm0 Tmm10 N_waves cot_alpha anan Dn50 Dn50_core rho_armour #1025 ;;
  ret S.

(** scaravaglione2025.py:212-284 *)
Definition calculate_nominal_rock_diameter_Dn50
    (Hm0 Tmm10 N_waves cot_alpha rho_armour rho_core S Dn50_core M50_core c_VGnew rho_water : nums) : M nums :=
  Dn50_core <- check_usage_Dn50_or_M50 Dn50_core M50_core rho_core ;;
  s_mm10 <- calculate_wave_steepness_s Hm0 Tmm10 g_default ;;
  Delta <- calculate_buoyant_density_Delta rho_armour rho_water ;;
  Dn50 <-
    (Hm0 / Delta) * (#1 / c_VGnew) * apow (S / asqrt N_waves) (- #0.2) * (#1 / asqrt cot_alpha)
    * apow s_mm10 (- #0.1) - Dn50_core ;;
  check_validity_range Hm0 Tmm10 N_waves cot_alpha anan Dn50 Dn50_core rho_armour #1025 ;;
  ret Dn50.

(** scaravaglione2025.py:287-372 *)
Definition calculate_significant_wave_height_Hm0
    (Tmm10 N_waves cot_alpha rho_armour rho_core S Dn50 Dn50_core M50 M50_core c_VGnew g rho_water : nums) : M nums :=
  Dn50 <- check_usage_Dn50_or_M50 Dn50 M50 rho_armour ;;
  Dn50_core <- check_usage_Dn50_or_M50 Dn50_core M50_core rho_core ;;
  Delta <- calculate_buoyant_density_Delta rho_armour rho_water ;;
  Hm0 <-
    apow
      (Delta * Dn50 * c_VGnew * asqrt cot_alpha * (#1 + Dn50_core / Dn50)
       * apow (#2 * api / (g * apow Tmm10 #2)) #0.1 * apow (S / asqrt N_waves) #0.2)
      (#1 / #0.9) ;;
  check_validity_range Hm0 Tmm10 N_waves cot_alpha anan Dn50 Dn50_core rho_armour #1025 ;;
  ret Hm0.
