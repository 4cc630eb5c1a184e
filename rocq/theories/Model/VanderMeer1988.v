(** Model of functions/structural/stability_rock_armour/vandermeer1988.py *)
From Coq Require Import Reals String List Bool.
From Verif.Lib Require Import Num Monad.
From Verif.Model Require Import CoreUtility CorePhysics.
Open Scope string_scope.
Open Scope num_scope.

Definition vdm88 : string := "Van der Meer (1988)".

(** vandermeer1988.py:9-84 *)
Definition check_validity_range (Hs H2p Tp N_waves cot_alpha P rho_armour : num) : M unit :=
  when (provided P) (check "Notional permeability P" vdm88 P #0.1 #0.6) ;;
  when (provided cot_alpha)
    (check "Cotangent of outer structure slope cot_alpha" vdm88 cot_alpha #1.1 #7) ;;
  when (provided Hs && provided Tp)
    (let s0p := calculate_wave_steepness_s Hs Tp g_default in
     check "Wave steepness s0p" vdm88 s0p #0.005 #0.06) ;;
  when (provided N_waves) (check "Number of waves N_waves" vdm88 N_waves #0 #7500) ;;
  when (provided Hs && provided H2p) (check "Ratio H2%/Hs" vdm88 (H2p / Hs) #1.10 #1.40) ;;
  when (provided rho_armour)
    (check "Density of armour layer rock rho_armour" vdm88 rho_armour #2000 #3100).

(** vandermeer1988.py:418-447 *)
Definition calculate_correction_term_gamma_N (N_waves : num) : num :=
  let gamma_N_few := nsqrt (#1000 / N_waves) in
  let gamma_N_many :=
    nsqrt N_waves / (nsqrt #5000 * (#1.3 * (#1 - nexp (- #0.00031 * N_waves)))) in
  let gamma_N_tmp := if N_waves <? #1000 then gamma_N_few else #1 in
  if N_waves >? #5000 then gamma_N_many else gamma_N_tmp.

(** vandermeer1988.py:87-194 *)
Definition calculate_damage_number_S
    (Hs H2p Tm N_waves cot_alpha P rho_armour Dn50 M50 c_pl c_s rho_water : num) : M num :=
  Dn50 <- check_usage_Dn50_or_M50 Dn50 M50 rho_armour ;;
  let ksi_0m := calculate_Iribarren_number_ksi Hs Tm cot_alpha in
  let ksi_mc := calculate_critical_Iribarren_number_ksi_mc c_pl c_s P cot_alpha in
  let gamma_N := calculate_correction_term_gamma_N N_waves in
  let Ns := calculate_stability_number_Ns Hs Dn50 rho_armour rho_water in
  let S_pl :=
    npow (Ns * (H2p / Hs) * (#1 / c_pl) * npow P (- #0.18) * npow ksi_0m #0.5) #5
    * (#1 / gamma_N)
    * nsqrt N_waves in
  let S_s :=
    npow (Ns * (H2p / Hs) * (#1 / c_s) * npow P #0.13 * (#1 / nsqrt cot_alpha) * npow ksi_0m (- P)) #5
    * (#1 / gamma_N)
    * nsqrt N_waves in
  let S := if (ksi_0m <? ksi_mc) || (cot_alpha >=? #4) then S_pl else S_s in
  check_validity_range Hs H2p NaN N_waves cot_alpha P rho_armour ;;
  ret S.

(** vandermeer1988.py:197-295 *)
Definition calculate_nominal_rock_diameter_Dn50
    (Hs H2p Tm N_waves cot_alpha P rho_armour S c_pl c_s rho_water : num) : M num :=
  let ksi_0m := calculate_Iribarren_number_ksi Hs Tm cot_alpha in
  let ksi_mc := calculate_critical_Iribarren_number_ksi_mc c_pl c_s P cot_alpha in
  let gamma_N := calculate_correction_term_gamma_N N_waves in
  let Delta := calculate_buoyant_density_Delta rho_armour rho_water in
  let Dn50_pl :=
    (Hs / Delta) * (H2p / Hs) * (#1 / c_pl) * npow P (- #0.18)
    * npow (gamma_N * S / nsqrt N_waves) (- #0.2) * npow ksi_0m #0.5 in
  let Dn50_s :=
    (Hs / Delta) * (H2p / Hs) * (#1 / c_s) * npow P #0.13
    * npow (gamma_N * S / nsqrt N_waves) (- #0.2) * (#1 / nsqrt cot_alpha) * npow ksi_0m (- P) in
  let Dn50 := if (ksi_0m <? ksi_mc) || (cot_alpha >=? #4) then Dn50_pl else Dn50_s in
  check_validity_range Hs H2p NaN N_waves cot_alpha P rho_armour ;;
  ret Dn50.

(** vandermeer1988.py:298-415 *)
Definition calculate_significant_wave_height_Hs
    (ratio_H2p_Hs Tm N_waves cot_alpha P rho_armour S Dn50 M50 c_pl c_s g rho_water : num) : M num :=
  Dn50 <- check_usage_Dn50_or_M50 Dn50 M50 rho_armour ;;
  let ksi_mc := calculate_critical_Iribarren_number_ksi_mc c_pl c_s P cot_alpha in
  let gamma_N := calculate_correction_term_gamma_N N_waves in
  let Delta := calculate_buoyant_density_Delta rho_armour rho_water in
  let Hs_pl :=
    npow
      (c_pl * npow P #0.18 * npow (gamma_N * S / nsqrt N_waves) #0.2
       * npow (#1 / cot_alpha) (- #0.5)
       * npow ((#2 * npi / g) * (#1 / npow Tm #2)) #0.25
       * Delta * Dn50 * (#1 / ratio_H2p_Hs))
      (#1 / #0.75) in
  let Hs_s :=
    npow
      (c_s * npow P (- #0.13) * npow (gamma_N * S / nsqrt N_waves) #0.2
       * npow (#1 / cot_alpha) P
       * npow ((#2 * npi / g) * (#1 / npow Tm #2)) (- #0.5 * P)
       * npow (#1 / cot_alpha) (- #0.5)
       * Delta * Dn50 * (#1 / ratio_H2p_Hs))
      (#1 / (#1 + #0.5 * P)) in
  let ksi_0m_pl := calculate_Iribarren_number_ksi Hs_pl Tm cot_alpha in
  let ksi_0m_s := calculate_Iribarren_number_ksi Hs_s Tm cot_alpha in
  let Hs :=
    if ((ksi_0m_pl <? ksi_mc) && (ksi_0m_s <? ksi_mc)) || (cot_alpha >=? #4) then Hs_pl else Hs_s in
  check_validity_range Hs NaN NaN N_waves cot_alpha P rho_armour ;;
  ret Hs.

(** Defaults of c_pl and c_s, lines 97-98 *)
Definition c_pl_default : num := #8.7.
Definition c_s_default : num := #1.4.
