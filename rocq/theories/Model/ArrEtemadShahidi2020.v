(** Model of functions/structural/stability_rock_armour/etemadshahidi2020.py
    for arrays with one axis: the functions of EtemadShahidi2020.v with broadcasting
    operations *)
From Coq Require Import Reals String List Bool.
From Verif.Lib Require Import Num Monad Arr ArrLoop.
From Verif.Model Require Import CoreUtility ArrCore.
Open Scope string_scope.
Open Scope arr_scope.

Definition es20 : string := "Etemad-Shahidi et al., 2020".

(** etemadshahidi2020.py:9-155.  Lines 110-112 compute an unused number. *)
Definition check_validity_range
    (Hs Tmm10 N_waves cot_alpha P S Dn50 Dn50_core rho_armour rho_water : nums) : M unit :=
  when (given Hs && given Tmm10)
    (acheck "Wave steepness sm-1,0" es20 (calculate_wave_steepness_s Hs Tmm10 g_default) #0.003 #0.088) ;;
  when (given Hs && given Tmm10 && given cot_alpha)
    (acheck "Iribarren number ksi_m-1,0" es20 (calculate_Iribarren_number_ksi Hs Tmm10 cot_alpha) #0.65 #8.18) ;;
  when (given cot_alpha)
    (acheck "Cotangent of outer structure slope cot_alpha" es20 cot_alpha #1.5 #6) ;;
  when (given N_waves) (acheck "Number of waves N_waves" es20 N_waves #500 #5000) ;;
  when (given rho_armour)
    (acheck "Buoyant density Delta" es20 (calculate_buoyant_density_Delta rho_armour rho_water) #0.92 #2.05) ;;
  when (given P) (acheck "Permeability P" es20 P #0.1 #0.6) ;;
  when (given Dn50 && given Dn50_core)
    (acheck "Relative core diameter Dn50_core / Dn50" es20 (Dn50_core / Dn50) #0 #1) ;;
  when (given Hs && given Dn50 && given rho_armour)
    (acheck "Stability number Ns" es20 (calculate_stability_number_Ns Hs Dn50 rho_armour rho_water) #1 #4.3) ;;
  when (given S) (acheck "Damage number S" es20 S #2 #12).

(** etemadshahidi2020.py:576-602 *)
Definition calculate_permeability_coefficient_Cp (Dn50 Dn50_core : nums) : M nums :=
  apow (#1 + apow (Dn50_core / Dn50) (#3 / #10)) (#3 / #5).

(** etemadshahidi2020.py:222-228, repeated at 353-359 and 503-509 *)
Definition influence_depth (use_depth_limited_version : bool) (m : nums) : M nums :=
  if use_depth_limited_version then
    if any_nan m then raise ValueError else #1 - #3 * m
  else #1.

(** etemadshahidi2020.py:158-281 *)
Definition calculate_damage_number_S
    (Hs Tmm10 N_waves cot_alpha rho_armour Dn50 M50 Dn50_core M50_core rho_core rho_water m : nums)
    (use_depth_limited_version : bool) : M nums :=
  influence_depth_limitation <- influence_depth use_depth_limited_version m ;;
  Dn50 <- check_usage_Dn50_or_M50 Dn50 M50 rho_armour ;;
  Dn50_core <- check_usage_Dn50_or_M50 Dn50_core M50_core rho_core ;;
  ksi_mm10 <- calculate_Iribarren_number_ksi Hs Tmm10 cot_alpha ;;
  Ns <- calculate_stability_number_Ns Hs Dn50 rho_armour rho_water ;;
  Cp <- calculate_permeability_coefficient_Cp Dn50 Dn50_core ;;
  S_s <-
    apow (#1 / #3.9) #6 * apow Ns #6 * apow Cp (- #6) * apow N_waves #0.6
    * apow ksi_mm10 #2 * apow influence_depth_limitation (- #6) ;;
  S_pl <-
    apow (#1 / #4.5) #6 * apow Ns #6 * apow Cp (- #6) * apow N_waves #0.6
    * apow ksi_mm10 (#7 / #2) * apow influence_depth_limitation (- #6) ;;
  S <- where_ (ksi_mm10 >=? #1.8) S_s S_pl ;;
  check_validity_range Hs Tmm10 N_waves cot_alpha anan S Dn50 Dn50_core rho_armour rho_water ;;
  ret S.

(** The assignments to Dn50_s at etemadshahidi2020.py:382-390 and to Dn50_pl at
    405-413 *)
Definition formula_s (Hs Delta N_waves S ksi_mm10 influence_depth_limitation Cp : nums) : M nums :=
  (Hs / Delta) * (#1 / #3.9) * (#1 / Cp) * apow N_waves (#1 / #10) * apow S (- #1 / #6)
  * apow ksi_mm10 (#1 / #3) * apow influence_depth_limitation (- #1).
Definition formula_pl (Hs Delta N_waves S ksi_mm10 influence_depth_limitation Cp : nums) : M nums :=
  (Hs / Delta) * (#1 / #4.5) * (#1 / Cp) * apow N_waves (#1 / #10) * apow S (- #1 / #6)
  * apow ksi_mm10 (#7 / #12) * apow influence_depth_limitation (- #1).

(** etemadshahidi2020.py:284-435; Cp_init is a float *)
Definition calculate_nominal_rock_diameter_Dn50
    (Hs Tmm10 N_waves cot_alpha rho_armour S Dn50_core M50_core rho_core m : nums)
    (use_depth_limited_version : bool) (Cp_init : num) (max_iter : nat) (tolerance : num) : M nums :=
  influence_depth_limitation <- influence_depth use_depth_limited_version m ;;
  Dn50_core <- check_usage_Dn50_or_M50 Dn50_core M50_core rho_core ;;
  ksi_mm10 <- calculate_Iribarren_number_ksi Hs Tmm10 cot_alpha ;;
  Delta <- calculate_buoyant_density_Delta rho_armour #1025 ;;
  Dn50_s <-
    until_settled (formula_s Hs Delta N_waves S ksi_mm10 influence_depth_limitation)
      (fun Dn50 => calculate_permeability_coefficient_Cp Dn50 Dn50_core)
      tolerance max_iter (float Cp_init) (Sc PInf) (Sc PInf) None ;;
  Dn50_pl <-
    until_settled (formula_pl Hs Delta N_waves S ksi_mm10 influence_depth_limitation)
      (fun Dn50 => calculate_permeability_coefficient_Cp Dn50 Dn50_core)
      tolerance max_iter (float Cp_init) (Sc PInf) (Sc PInf) None ;;
  Dn50_s <- bound Dn50_s ;;
  Dn50_pl <- bound Dn50_pl ;;
  Dn50 <- where_ (ksi_mm10 >=? #1.8) Dn50_s Dn50_pl ;;
  check_validity_range Hs Tmm10 N_waves cot_alpha anan S Dn50 Dn50_core rho_armour #1025 ;;
  ret Dn50.

(** etemadshahidi2020.py:438-573 *)
Definition calculate_significant_wave_height_Hs
    (Tmm10 N_waves cot_alpha rho_armour S Dn50 M50 Dn50_core M50_core rho_core m : nums)
    (use_depth_limited_version : bool) (g : nums) : M nums :=
  influence_depth_limitation <- influence_depth use_depth_limited_version m ;;
  Dn50 <- check_usage_Dn50_or_M50 Dn50 M50 rho_armour ;;
  Dn50_core <- check_usage_Dn50_or_M50 Dn50_core M50_core rho_core ;;
  Delta <- calculate_buoyant_density_Delta rho_armour #1025 ;;
  Cp <- calculate_permeability_coefficient_Cp Dn50 Dn50_core ;;
  Hs_s <-
    apow
      (S * apow (#1 / #3.9) (- #6) * (#2 * api / g) * apow Cp #6 * apow (Delta * Dn50) #6
       * apow Tmm10 (- #2) * apow cot_alpha #2 * apow N_waves (- #0.6)
       * apow influence_depth_limitation #6)
      (#1 / #5) ;;
  Hs_pl <-
    apow
      (S * apow (#1 / #4.5) (- #6) * apow (#2 * api / g) (#7 / #4) * apow Cp #6 * apow (Delta * Dn50) #6
       * apow Tmm10 (- #7 / #2) * apow cot_alpha (#7 / #2) * apow N_waves (- #0.6)
       * apow influence_depth_limitation #6)
      (#4 / #17) ;;
  ksi_mm10_s <- calculate_Iribarren_number_ksi Hs_s Tmm10 cot_alpha ;;
  ksi_mm10_pl <- calculate_Iribarren_number_ksi Hs_pl Tmm10 cot_alpha ;;
  Hs <- where_ ((ksi_mm10_pl <? #1.8) && (ksi_mm10_s <? #1.8)) Hs_pl Hs_s ;;
  check_validity_range Hs Tmm10 N_waves cot_alpha anan S Dn50 Dn50_core rho_armour #1025 ;;
  ret Hs.
