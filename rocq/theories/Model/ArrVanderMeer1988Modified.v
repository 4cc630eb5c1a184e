(** Model of functions/structural/stability_rock_armour/vandermeer1988_modified.py
    and vandermeer2021.py
    for arrays with one axis *)
From Coq Require Import Reals String List Bool.
From Verif.Lib Require Import Num Monad Arr.
From Verif.Model Require Import CoreUtility ArrCore.
From Verif.Model Require ArrVanderMeer1988.
Open Scope string_scope.
Open Scope arr_scope.

Definition vdmm : string := "Modified Van der Meer (Van Gent et al., 2003)".

(** vandermeer1988_modified.py:9-119 *)
Definition check_validity_range (Hs H2p Tmm10 N_waves cot_alpha P Dn50 rho_armour rho_water : nums) : M unit :=
  when (given P) (acheck "Notional permeability P" vdmm P #0.1 #0.6) ;;
  when (given Hs && given Dn50 && given rho_armour)
    (Ns <- calculate_stability_number_Ns Hs Dn50 rho_armour rho_water ;;
     acheck "Stability number Ns" vdmm Ns #0.5 #4.5) ;;
  when (given Hs && given Tmm10 && given cot_alpha)
    (ksi_mm10 <- calculate_Iribarren_number_ksi Hs Tmm10 cot_alpha ;;
     acheck "Iribarren number ksi_m-1,0" vdmm ksi_mm10 #1.3 #15) ;;
  when (given cot_alpha)
    (acheck "Cotangent of outer structure slope cot_alpha" vdmm cot_alpha #2 #4) ;;
  when (given N_waves) (acheck "Number of waves N_waves" vdmm N_waves #0 #3000) ;;
  when (given Hs && given H2p) (acheck "Ratio H2%/Hs" vdmm (H2p / Hs) #1.20 #1.40).

(** vandermeer1988_modified.py:122-223 *)
Definition calculate_damage_number_S
    (Hs H2p Tmm10 N_waves cot_alpha P rho_armour Dn50 M50 c_pl c_s rho_water : nums) : M nums :=
  Dn50 <- check_usage_Dn50_or_M50 Dn50 M50 rho_armour ;;
  ksi_mm10 <- calculate_Iribarren_number_ksi Hs Tmm10 cot_alpha ;;
  ksi_mc <- calculate_critical_Iribarren_number_ksi_mc c_pl c_s P cot_alpha ;;
  Ns <- calculate_stability_number_Ns Hs Dn50 rho_armour rho_water ;;
  S_pl <-
    apow ((#1 / c_pl) * apow P (- #0.18) * apow ksi_mm10 #0.5 * Ns * (H2p / Hs)) #5 * asqrt N_waves ;;
  S_s <-
    apow ((#1 / c_s) * apow P #0.13 * apow ksi_mm10 (- P) * asqrt (#1 / cot_alpha) * Ns * (H2p / Hs)) #5
    * asqrt N_waves ;;
  S <- where_ ((ksi_mm10 <? ksi_mc) || (cot_alpha >=? #4)) S_pl S_s ;;
  check_validity_range Hs H2p Tmm10 N_waves cot_alpha P Dn50 rho_armour #1025 ;;
  ret S.

(** vandermeer1988_modified.py:226-324 *)
Definition calculate_nominal_rock_diameter_Dn50
    (Hs H2p Tmm10 N_waves cot_alpha P rho_armour S c_pl c_s rho_water : nums) : M nums :=
  ksi_mm10 <- calculate_Iribarren_number_ksi Hs Tmm10 cot_alpha ;;
  ksi_mc <- calculate_critical_Iribarren_number_ksi_mc c_pl c_s P cot_alpha ;;
  Delta <- calculate_buoyant_density_Delta rho_armour rho_water ;;
  Dn50_pl <-
    (Hs / Delta) * (H2p / Hs) * (#1 / c_pl) * apow P (- #0.18)
    * apow (S / asqrt N_waves) (- #0.2) * apow ksi_mm10 #0.5 ;;
  Dn50_s <-
    (Hs / Delta) * (H2p / Hs) * (#1 / c_s) * apow P #0.13
    * apow (S / asqrt N_waves) (- #0.2) * (#1 / asqrt cot_alpha) * apow ksi_mm10 (- P) ;;
  Dn50 <- where_ ((ksi_mm10 <? ksi_mc) || (cot_alpha >=? #4)) Dn50_pl Dn50_s ;;
  check_validity_range Hs H2p Tmm10 N_waves cot_alpha P Dn50 rho_armour #1025 ;;
  ret Dn50.

(** vandermeer1988_modified.py:327-447 *)
Definition calculate_significant_wave_height_Hs
    (ratio_H2p_Hs Tmm10 N_waves cot_alpha P rho_armour S Dn50 M50 c_pl c_s g rho_water : nums) : M nums :=
  Dn50 <- check_usage_Dn50_or_M50 Dn50 M50 rho_armour ;;
  ksi_mc <- calculate_critical_Iribarren_number_ksi_mc c_pl c_s P cot_alpha ;;
  Delta <- calculate_buoyant_density_Delta rho_armour rho_water ;;
  Hs_pl <-
    apow
      (c_pl * apow P #0.18 * apow (S / asqrt N_waves) #0.2
       * apow (#1 / cot_alpha) (- #0.5)
       * apow ((#2 * api / g) * (#1 / apow Tmm10 #2)) #0.25
       * Delta * Dn50 * (#1 / ratio_H2p_Hs))
      (#1 / #0.75) ;;
  Hs_s <-
    apow
      (c_s * apow P (- #0.13) * apow (S / asqrt N_waves) #0.2
       * apow (#1 / cot_alpha) P
       * apow ((#2 * api / g) * (#1 / apow Tmm10 #2)) (- #0.5 * P)
       * apow (#1 / cot_alpha) (- #0.5)
       * Delta * Dn50 * (#1 / ratio_H2p_Hs))
      (#1 / (#1 + #0.5 * P)) ;;
  ksi_mm10_pl <- calculate_Iribarren_number_ksi Hs_pl Tmm10 cot_alpha ;;
  ksi_mm10_s <- calculate_Iribarren_number_ksi Hs_s Tmm10 cot_alpha ;;
  Hs <-
    where_ (((ksi_mm10_pl <? ksi_mc) && (ksi_mm10_s <? ksi_mc)) || (cot_alpha >=? #4)) Hs_pl Hs_s ;;
  check_validity_range Hs anan Tmm10 N_waves cot_alpha P Dn50 rho_armour #1025 ;;
  ret Hs.

(** ** vandermeer2021.py *)
(** vandermeer2021.py:77-83: vdm.check_validity_range without H2p and Tp *)
Definition check_2021 (Hs N_waves cot_alpha P rho_armour : nums) : M unit :=
  ArrVanderMeer1988.check_validity_range Hs anan anan N_waves cot_alpha P rho_armour.

(** vandermeer2021.py:9-85.  rho_water keeps the default of the callee. *)
Definition damage_number_S_2021
    (Hs Tmm10 N_waves cot_alpha P rho_armour Dn50 M50 c_pl c_s c_pl_mult c_s_mult : nums) : M nums :=
  c_pl <- c_pl * c_pl_mult ;;
  c_s <- c_s * c_s_mult ;;
  S <- calculate_damage_number_S Hs Hs Tmm10 N_waves cot_alpha P rho_armour Dn50 M50 c_pl c_s #1025 ;;
  check_2021 Hs N_waves cot_alpha P rho_armour ;;
  ret S.

(** vandermeer2021.py:88-159 *)
Definition nominal_rock_diameter_Dn50_2021
    (Hs Tmm10 N_waves cot_alpha P rho_armour S c_pl c_s c_pl_mult c_s_mult : nums) : M nums :=
  c_pl <- c_pl * c_pl_mult ;;
  c_s <- c_s * c_s_mult ;;
  Dn50 <- calculate_nominal_rock_diameter_Dn50 Hs Hs Tmm10 N_waves cot_alpha P rho_armour S c_pl c_s #1025 ;;
  check_2021 Hs N_waves cot_alpha P rho_armour ;;
  ret Dn50.

(** vandermeer2021.py:162-241 *)
Definition significant_wave_height_Hs_2021
    (Tmm10 N_waves cot_alpha P rho_armour S Dn50 M50 c_pl c_s c_pl_mult c_s_mult g : nums) : M nums :=
  c_pl <- c_pl * c_pl_mult ;;
  c_s <- c_s * c_s_mult ;;
  Hs <- calculate_significant_wave_height_Hs #1 Tmm10 N_waves cot_alpha P rho_armour S Dn50 M50 c_pl c_s g #1025 ;;
  check_2021 Hs N_waves cot_alpha P rho_armour ;;
  ret Hs.
