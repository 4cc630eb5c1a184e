(** Model of functions/structural/stability_rock_armour/scaravaglione2025.py *)
From Coq Require Import Reals String List Bool.
From Verif.Lib Require Import Num Monad.
From Verif.Model Require Import CoreUtility CorePhysics.
Open Scope string_scope.
Open Scope num_scope.

Definition sc25 : string := "Scaravaglione et al. (2025)".

(** scaravaglione2025.py:9-124 *)
Definition check_validity_range
    (Hm0 Tmm10 N_waves cot_alpha P Dn50 Dn50_core rho_armour rho_water : num) : M unit :=
  when (provided P) (check "Notional permeability P" sc25 P #0.37 #0.55) ;;
  when (provided Hm0 && provided Dn50)
    (check "Stability number Ns" sc25 (calculate_stability_number_Ns Hm0 Dn50 rho_armour rho_water) #1.47 #3.44) ;;
  when (provided Hm0 && provided Tmm10)
    (check "Wave steepness s_m-1,0" sc25 (calculate_wave_steepness_s Hm0 Tmm10 g_default) #0.020 #0.049) ;;
  when (provided Hm0 && provided Tmm10 && provided cot_alpha)
    (check "Iribarren number ksi_m-1,0" sc25 (calculate_Iribarren_number_ksi Hm0 Tmm10 cot_alpha) #1.3 #15) ;;
  when (provided cot_alpha)
    (check "Cotangent of outer structure slope cot_alpha" sc25 cot_alpha #2 #2) ;;
  when (provided N_waves) (check "Number of waves N_waves" sc25 N_waves #652 #4064) ;;
  when (provided Dn50 && provided Dn50_core)
    (check "Ratio core to armour Dn50_core / Dn50" sc25 (Dn50_core / Dn50) #0.21 #0.71).

(** scaravaglione2025.py:127-209.  rho_water is not passed to the validity
    check (lines 199-207), which uses its default 1025. *)
Definition calculate_damage_number_S
    (Hm0 Tmm10 N_waves cot_alpha rho_armour rho_core Dn50 Dn50_core M50 M50_core c_VGnew rho_water : num) : M num :=
  Dn50 <- check_usage_Dn50_or_M50 Dn50 M50 rho_armour ;;
  Dn50_core <- check_usage_Dn50_or_M50 Dn50_core M50_core rho_core ;;
  let s_mm10 := calculate_wave_steepness_s Hm0 Tmm10 g_default in
  let Ns := calculate_stability_number_Ns Hm0 Dn50 rho_armour rho_water in
  let S :=
    npow ((#1 / c_VGnew) * npow s_mm10 (- #0.1) * nsqrt (#1 / cot_alpha) * Ns
          * (#1 / (#1 + Dn50_core / Dn50))) #5
    * nsqrt N_waves in
  check_validity_range Hm0 Tmm10 N_waves cot_alpha NaN Dn50 Dn50_core rho_armour #1025 ;;
  ret S.

(** scaravaglione2025.py:212-284 *)
Definition calculate_nominal_rock_diameter_Dn50
    (Hm0 Tmm10 N_waves cot_alpha rho_armour rho_core S Dn50_core M50_core c_VGnew rho_water : num) : M num :=
  Dn50_core <- check_usage_Dn50_or_M50 Dn50_core M50_core rho_core ;;
  let s_mm10 := calculate_wave_steepness_s Hm0 Tmm10 g_default in
  let Delta := calculate_buoyant_density_Delta rho_armour rho_water in
  let Dn50 :=
    (Hm0 / Delta) * (#1 / c_VGnew) * npow (S / nsqrt N_waves) (- #0.2) * (#1 / nsqrt cot_alpha)
    * npow s_mm10 (- #0.1) - Dn50_core in
  check_validity_range Hm0 Tmm10 N_waves cot_alpha NaN Dn50 Dn50_core rho_armour #1025 ;;
  ret Dn50.

(** scaravaglione2025.py:287-372 *)
Definition calculate_significant_wave_height_Hm0
    (Tmm10 N_waves cot_alpha rho_armour rho_core S Dn50 Dn50_core M50 M50_core c_VGnew g rho_water : num) : M num :=
  Dn50 <- check_usage_Dn50_or_M50 Dn50 M50 rho_armour ;;
  Dn50_core <- check_usage_Dn50_or_M50 Dn50_core M50_core rho_core ;;
  let Delta := calculate_buoyant_density_Delta rho_armour rho_water in
  let Hm0 :=
    npow
      (Delta * Dn50 * c_VGnew * nsqrt cot_alpha * (#1 + Dn50_core / Dn50)
       * npow (#2 * npi / (g * npow Tmm10 #2)) #0.1 * npow (S / nsqrt N_waves) #0.2)
      (#1 / #0.9) in
  check_validity_range Hm0 Tmm10 N_waves cot_alpha NaN Dn50 Dn50_core rho_armour #1025 ;;
  ret Hm0.

(** Default of c_VGnew, line 138 *)
Definition c_VGnew_default : num := #3.3.
