(** Model of functions/structural/stability_rock_armour/jumelet2024.py for
    arrays with one axis: the functions of Jumelet2024.v with broadcasting operations *)
From Coq Require Import Reals String List Bool.
From Verif.Lib Require Import Num Monad Arr ArrLoop.
From Verif.Model Require Import CoreUtility ArrCore.
Open Scope string_scope.
Open Scope arr_scope.

Definition ju24 : string := "Jumelet et al., 2024".

(** jumelet2024.py:9-77 *)
Definition check_validity_range (Hs Tmm10 N_waves cot_alpha : nums) : M unit :=
  when (given Hs && given Tmm10)
    (acheck "Wave steepness sm-1,0" ju24 (calculate_wave_steepness_s Hs Tmm10 g_default) #0.009 #0.057) ;;
  when (given Hs && given Tmm10 && given cot_alpha)
    (acheck "Iribarren number ksi_m-1,0" ju24 (calculate_Iribarren_number_ksi Hs Tmm10 cot_alpha) #0.42 #1.66) ;;
  when (given cot_alpha)
    (acheck "Cotangent of outer structure slope cot_alpha" ju24 cot_alpha #6 #10) ;;
  when (given N_waves) (acheck "Number of waves N_waves" ju24 N_waves #250 #20000).

(** jumelet2024.py:319-341 *)
Definition calculate_fraction_plunging_waves_Fp (ksi_mm10 : nums) : M nums :=
  - #1.7 * apow ksi_mm10 #2 + #3.2 * ksi_mm10 - #0.5.

(** jumelet2024.py:80-147 *)
Definition calculate_damage_number_S
    (Hs Tmm10 N_waves cot_alpha rho_armour Dn50 M50 c_pl rho_water : nums) : M nums :=
  Dn50 <- check_usage_Dn50_or_M50 Dn50 M50 rho_armour ;;
  ksi_mm10 <- calculate_Iribarren_number_ksi Hs Tmm10 cot_alpha ;;
  Ns <- calculate_stability_number_Ns Hs Dn50 rho_armour rho_water ;;
  Fp <- calculate_fraction_plunging_waves_Fp ksi_mm10 ;;
  N_plunging <- around (Fp * N_waves) ;;
  S <- apow (Ns * ksi_mm10 * apow N_plunging #0.1 * (#1 / c_pl)) #5 ;;
  check_validity_range Hs Tmm10 N_waves cot_alpha ;;
  ret S.

(** jumelet2024.py:150-214 *)
Definition calculate_nominal_rock_diameter_Dn50
    (Hs Tmm10 N_waves cot_alpha rho_armour S c_pl : nums) : M nums :=
  ksi_mm10 <- calculate_Iribarren_number_ksi Hs Tmm10 cot_alpha ;;
  Delta <- calculate_buoyant_density_Delta rho_armour #1025 ;;
  Fp <- calculate_fraction_plunging_waves_Fp ksi_mm10 ;;
  N_plunging <- around (Fp * N_waves) ;;
  Dn50 <- (Hs / Delta) * ksi_mm10 * apow N_plunging #0.1 * (#1 / c_pl) * apow S (- #0.2) ;;
  check_validity_range Hs Tmm10 N_waves cot_alpha ;;
  ret Dn50.

(** The body of the loop up to jumelet2024.py:301 *)
Definition wave_height_step (Tmm10 N_waves cot_alpha S Delta Dn50 c_pl g ksi_mm10 : nums) : M nums :=
  Fp <- calculate_fraction_plunging_waves_Fp ksi_mm10 ;;
  N_plunging <- around (Fp * N_waves) ;;
  apow
    (c_pl * apow S #0.2 * apow N_plunging (- #0.1) * cot_alpha
     * asqrt ((#2 * api / g) * apow Tmm10 (- #2)) * Delta * Dn50)
    #2.

(** jumelet2024.py:217-316; c_pl, g and smm10_init are floats *)
Definition calculate_significant_wave_height_Hs
    (Tmm10 N_waves cot_alpha rho_armour S Dn50 M50 : nums) (c_pl g smm10_init : num) (max_iter : nat) (tolerance : num) : M nums :=
  Dn50 <- check_usage_Dn50_or_M50 Dn50 M50 rho_armour ;;
  Hs_init <- float smm10_init * apow Tmm10 #2 * float g / (#2 * api) ;;
  ksi_mm10 <- calculate_Iribarren_number_ksi Hs_init Tmm10 cot_alpha ;;
  Delta <- calculate_buoyant_density_Delta rho_armour #1025 ;;
  Hs <-
    until_settled (wave_height_step Tmm10 N_waves cot_alpha S Delta Dn50 (float c_pl) (float g))
      (fun Hs => calculate_Iribarren_number_ksi Hs Tmm10 cot_alpha)
      tolerance max_iter ksi_mm10 Hs_init (Sc PInf) None ;;
  Hs <- bound Hs ;;
  check_validity_range Hs Tmm10 N_waves cot_alpha ;;
  ret Hs.
