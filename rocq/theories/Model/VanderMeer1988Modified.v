(** Model of functions/structural/stability_rock_armour/vandermeer1988_modified.py
    and vandermeer2021.py *)
From Coq Require Import Reals String List Bool.
From Verif.Lib Require Import Num Monad.
From Verif.Model Require Import CoreUtility CorePhysics.
From Verif.Model Require VanderMeer1988.
Open Scope string_scope.
Open Scope num_scope.

Definition vdmm : string := "Modified Van der Meer (Van Gent et al., 2003)".

(** vandermeer1988_modified.py:9-119 *)
Definition check_validity_range (Hs H2p Tmm10 N_waves cot_alpha P Dn50 rho_armour rho_water : num) : M unit :=
  when (provided P) (check "Notional permeability P" vdmm P #0.1 #0.6) ;;
  when (provided Hs && provided Dn50 && provided rho_armour)
    (let Ns := calculate_stability_number_Ns Hs Dn50 rho_armour rho_water in
     check "Stability number Ns" vdmm Ns #0.5 #4.5) ;;
  when (provided Hs && provided Tmm10 && provided cot_alpha)
    (let ksi_mm10 := calculate_Iribarren_number_ksi Hs Tmm10 cot_alpha in
     check "Iribarren number ksi_m-1,0" vdmm ksi_mm10 #1.3 #15) ;;
  when (provided cot_alpha)
    (check "Cotangent of outer structure slope cot_alpha" vdmm cot_alpha #2 #4) ;;
  when (provided N_waves) (check "Number of waves N_waves" vdmm N_waves #0 #3000) ;;
  when (provided Hs && provided H2p) (check "Ratio H2%/Hs" vdmm (H2p / Hs) #1.20 #1.40).

(** vandermeer1988_modified.py:122-223 *)
Definition calculate_damage_number_S
    (Hs H2p Tmm10 N_waves cot_alpha P rho_armour Dn50 M50 c_pl c_s rho_water : num) : M num :=
  Dn50 <- check_usage_Dn50_or_M50 Dn50 M50 rho_armour ;;
  let ksi_mm10 := calculate_Iribarren_number_ksi Hs Tmm10 cot_alpha in
  let ksi_mc := calculate_critical_Iribarren_number_ksi_mc c_pl c_s P cot_alpha in
  let Ns := calculate_stability_number_Ns Hs Dn50 rho_armour rho_water in
  let S_pl :=
    npow ((#1 / c_pl) * npow P (- #0.18) * npow ksi_mm10 #0.5 * Ns * (H2p / Hs)) #5 * nsqrt N_waves in
  let S_s :=
    npow ((#1 / c_s) * npow P #0.13 * npow ksi_mm10 (- P) * nsqrt (#1 / cot_alpha) * Ns * (H2p / Hs)) #5
    * nsqrt N_waves in
  let S := if (ksi_mm10 <? ksi_mc) || (cot_alpha >=? #4) then S_pl else S_s in
  check_validity_range Hs H2p Tmm10 N_waves cot_alpha P Dn50 rho_armour #1025 ;;
  ret S.

(** vandermeer1988_modified.py:226-324 *)
Definition calculate_nominal_rock_diameter_Dn50
    (Hs H2p Tmm10 N_waves cot_alpha P rho_armour S c_pl c_s rho_water : num) : M num :=
  let ksi_mm10 := calculate_Iribarren_number_ksi Hs Tmm10 cot_alpha in
  let ksi_mc := calculate_critical_Iribarren_number_ksi_mc c_pl c_s P cot_alpha in
  let Delta := calculate_buoyant_density_Delta rho_armour rho_water in
  let Dn50_pl :=
    (Hs / Delta) * (H2p / Hs) * (#1 / c_pl) * npow P (- #0.18)
    * npow (S / nsqrt N_waves) (- #0.2) * npow ksi_mm10 #0.5 in
  let Dn50_s :=
    (Hs / Delta) * (H2p / Hs) * (#1 / c_s) * npow P #0.13
    * npow (S / nsqrt N_waves) (- #0.2) * (#1 / nsqrt cot_alpha) * npow ksi_mm10 (- P) in
  let Dn50 := if (ksi_mm10 <? ksi_mc) || (cot_alpha >=? #4) then Dn50_pl else Dn50_s in
  check_validity_range Hs H2p Tmm10 N_waves cot_alpha P Dn50 rho_armour #1025 ;;
  ret Dn50.

(** vandermeer1988_modified.py:327-447 *)
Definition calculate_significant_wave_height_Hs
    (ratio_H2p_Hs Tmm10 N_waves cot_alpha P rho_armour S Dn50 M50 c_pl c_s g rho_water : num) : M num :=
  Dn50 <- check_usage_Dn50_or_M50 Dn50 M50 rho_armour ;;
  let ksi_mc := calculate_critical_Iribarren_number_ksi_mc c_pl c_s P cot_alpha in
  let Delta := calculate_buoyant_density_Delta rho_armour rho_water in
  let Hs_pl :=
    npow
      (c_pl * npow P #0.18 * npow (S / nsqrt N_waves) #0.2
       * npow (#1 / cot_alpha) (- #0.5)
       * npow ((#2 * npi / g) * (#1 / npow Tmm10 #2)) #0.25
       * Delta * Dn50 * (#1 / ratio_H2p_Hs))
      (#1 / #0.75) in
  let Hs_s :=
    npow
      (c_s * npow P (- #0.13) * npow (S / nsqrt N_waves) #0.2
       * npow (#1 / cot_alpha) P
       * npow ((#2 * npi / g) * (#1 / npow Tmm10 #2)) (- #0.5 * P)
       * npow (#1 / cot_alpha) (- #0.5)
       * Delta * Dn50 * (#1 / ratio_H2p_Hs))
      (#1 / (#1 + #0.5 * P)) in
  let ksi_mm10_pl := calculate_Iribarren_number_ksi Hs_pl Tmm10 cot_alpha in
  let ksi_mm10_s := calculate_Iribarren_number_ksi Hs_s Tmm10 cot_alpha in
  let Hs :=
    if ((ksi_mm10_pl <? ksi_mc) && (ksi_mm10_s <? ksi_mc)) || (cot_alpha >=? #4) then Hs_pl else Hs_s in
  check_validity_range Hs NaN Tmm10 N_waves cot_alpha P Dn50 rho_armour #1025 ;;
  ret Hs.

(** Defaults, lines 132-133 *)
Definition c_pl_default : num := #8.4.
Definition c_s_default : num := #1.3.

(** ** vandermeer2021.py *)
(** vandermeer2021.py:77-83: vdm.check_validity_range without H2p and Tp *)
Definition check_2021 (Hs N_waves cot_alpha P rho_armour : num) : M unit :=
  VanderMeer1988.check_validity_range Hs NaN NaN N_waves cot_alpha P rho_armour.

(** vandermeer2021.py:9-85.  rho_water keeps the default of the callee. *)
Definition damage_number_S_2021
    (Hs Tmm10 N_waves cot_alpha P rho_armour Dn50 M50 c_pl c_s c_pl_mult c_s_mult : num) : M num :=
  S <- calculate_damage_number_S Hs Hs Tmm10 N_waves cot_alpha P rho_armour Dn50 M50
         (c_pl * c_pl_mult) (c_s * c_s_mult) #1025 ;;
  check_2021 Hs N_waves cot_alpha P rho_armour ;;
  ret S.

(** vandermeer2021.py:88-159 *)
Definition nominal_rock_diameter_Dn50_2021
    (Hs Tmm10 N_waves cot_alpha P rho_armour S c_pl c_s c_pl_mult c_s_mult : num) : M num :=
  Dn50 <- calculate_nominal_rock_diameter_Dn50 Hs Hs Tmm10 N_waves cot_alpha P rho_armour S
            (c_pl * c_pl_mult) (c_s * c_s_mult) #1025 ;;
  check_2021 Hs N_waves cot_alpha P rho_armour ;;
  ret Dn50.

(** vandermeer2021.py:162-241 *)
Definition significant_wave_height_Hs_2021
    (Tmm10 N_waves cot_alpha P rho_armour S Dn50 M50 c_pl c_s c_pl_mult c_s_mult g : num) : M num :=
  Hs <- calculate_significant_wave_height_Hs #1 Tmm10 N_waves cot_alpha P rho_armour S Dn50 M50
          (c_pl * c_pl_mult) (c_s * c_s_mult) g #1025 ;;
  check_2021 Hs N_waves cot_alpha P rho_armour ;;
  ret Hs.

(** Defaults, lines 18-19 *)
Definition c_pl_default_2021 : num := #6.49.
Definition c_s_default_2021 : num := #0.97.
