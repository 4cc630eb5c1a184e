(** Model of functions/structural/stability_rock_armour/vandermeer1988.py for
    arrays with one axis: the functions of VanderMeer1988.v with broadcasting
    operations. *)
From Coq Require Import Reals String List Bool.
From Verif.Lib Require Import Num Monad Arr.
From Verif.Model Require Import CoreUtility ArrCore.
Open Scope string_scope.
Open Scope arr_scope.

Definition vdm88 : string := "Van der Meer (1988)".

(** vandermeer1988.py:9-84 *)
Definition check_validity_range (Hs H2p Tp N_waves cot_alpha P rho_armour : nums) : M unit :=
  when (given P) (acheck "Notional permeability P" vdm88 P #0.1 #0.6) ;;
  when (given cot_alpha)
    (acheck "Cotangent of outer structure slope cot_alpha" vdm88 cot_alpha #1.1 #7) ;;
  when (given Hs && given Tp)
    (s0p <- calculate_wave_steepness_s Hs Tp g_default ;;
     acheck "Wave steepness s0p" vdm88 s0p #0.005 #0.06) ;;
  when (given N_waves) (acheck "Number of waves N_waves" vdm88 N_waves #0 #7500) ;;
  when (given Hs && given H2p) (acheck "Ratio H2%/Hs" vdm88 (H2p / Hs) #1.10 #1.40) ;;
  when (given rho_armour)
    (acheck "Density of armour layer rock rho_armour" vdm88 rho_armour #2000 #3100).

(** vandermeer1988.py:418-447 *)
Definition calculate_correction_term_gamma_N (N_waves : nums) : M nums :=
  gamma_N_few <- asqrt (#1000 / N_waves) ;;
  gamma_N_many <-
    asqrt N_waves / (asqrt #5000 * (#1.3 * (#1 - aexp (- #0.00031 * N_waves)))) ;;
  gamma_N_tmp <- where_ (N_waves <? #1000) gamma_N_few #1 ;;
  where_ (N_waves >? #5000) gamma_N_many gamma_N_tmp.

(** vandermeer1988.py:87-194 *)
Definition calculate_damage_number_S
    (Hs H2p Tm N_waves cot_alpha P rho_armour Dn50 M50 c_pl c_s rho_water : nums) : M nums :=
  Dn50 <- check_usage_Dn50_or_M50 Dn50 M50 rho_armour ;;
  ksi_0m <- calculate_Iribarren_number_ksi Hs Tm cot_alpha ;;
  ksi_mc <- calculate_critical_Iribarren_number_ksi_mc c_pl c_s P cot_alpha ;;
  gamma_N <- calculate_correction_term_gamma_N N_waves ;;
  Ns <- calculate_stability_number_Ns Hs Dn50 rho_armour rho_water ;;
  S_pl <-
    apow (Ns * (H2p / Hs) * (#1 / c_pl) * apow P (- #0.18) * apow ksi_0m #0.5) #5
    * (#1 / gamma_N)
    * asqrt N_waves ;;
  S_s <-
    apow (Ns * (H2p / Hs) * (#1 / c_s) * apow P #0.13 * (#1 / asqrt cot_alpha) * apow ksi_0m (- P)) #5
    * (#1 / gamma_N)
    * asqrt N_waves ;;
  S <- where_ ((ksi_0m <? ksi_mc) || (cot_alpha >=? #4)) S_pl S_s ;;
  check_validity_range Hs H2p anan N_waves cot_alpha P rho_armour ;;
  ret S.

(** vandermeer1988.py:197-295 *)
Definition calculate_nominal_rock_diameter_Dn50
    (Hs H2p Tm N_waves cot_alpha P rho_armour S c_pl c_s rho_water : nums) : M nums :=
  ksi_0m <- calculate_Iribarren_number_ksi Hs Tm cot_alpha ;;
  ksi_mc <- calculate_critical_Iribarren_number_ksi_mc c_pl c_s P cot_alpha ;;
  gamma_N <- calculate_correction_term_gamma_N N_waves ;;
  Delta <- calculate_buoyant_density_Delta rho_armour rho_water ;;
  Dn50_pl <-
    (Hs / Delta) * (H2p / Hs) * (#1 / c_pl) * apow P (- #0.18)
    * apow (gamma_N * S / asqrt N_waves) (- #0.2) * apow ksi_0m #0.5 ;;
  Dn50_s <-
    (Hs / Delta) * (H2p / Hs) * (#1 / c_s) * apow P #0.13
    * apow (gamma_N * S / asqrt N_waves) (- #0.2) * (#1 / asqrt cot_alpha) * apow ksi_0m (- P) ;;
  Dn50 <- where_ ((ksi_0m <? ksi_mc) || (cot_alpha >=? #4)) Dn50_pl Dn50_s ;;
  check_validity_range Hs H2p anan N_waves cot_alpha P rho_armour ;;
  ret Dn50.

(** vandermeer1988.py:298-415 *)
Definition calculate_significant_wave_height_Hs
    (ratio_H2p_Hs Tm N_waves cot_alpha P rho_armour S Dn50 M50 c_pl c_s g rho_water : nums) : M nums :=
  Dn50 <- check_usage_Dn50_or_M50 Dn50 M50 rho_armour ;;
  ksi_mc <- calculate_critical_Iribarren_number_ksi_mc c_pl c_s P cot_alpha ;;
  gamma_N <- calculate_correction_term_gamma_N N_waves ;;
  Delta <- calculate_buoyant_density_Delta rho_armour rho_water ;;
  Hs_pl <-
    apow
      (c_pl * apow P #0.18 * apow (gamma_N * S / asqrt N_waves) #0.2
       * apow (#1 / cot_alpha) (- #0.5)
       * apow ((#2 * api / g) * (#1 / apow Tm #2)) #0.25
       * Delta * Dn50 * (#1 / ratio_H2p_Hs))
      (#1 / #0.75) ;;
  Hs_s <-
    apow
      (c_s * apow P (- #0.13) * apow (gamma_N * S / asqrt N_waves) #0.2
       * apow (#1 / cot_alpha) P
       * apow ((#2 * api / g) * (#1 / apow Tm #2)) (- #0.5 * P)
       * apow (#1 / cot_alpha) (- #0.5)
       * Delta * Dn50 * (#1 / ratio_H2p_Hs))
      (#1 / (#1 + #0.5 * P)) ;;
  ksi_0m_pl <- calculate_Iribarren_number_ksi Hs_pl Tm cot_alpha ;;
  ksi_0m_s <- calculate_Iribarren_number_ksi Hs_s Tm cot_alpha ;;
  Hs <-
    where_ (((ksi_0m_pl <? ksi_mc) && (ksi_0m_s <? ksi_mc)) || (cot_alpha >=? #4)) Hs_pl Hs_s ;;
  check_validity_range Hs anan anan N_waves cot_alpha P rho_armour ;;
  ret Hs.
