(** Model of functions/structural/forces_crestwall/vangentvanderwerf2019.py
    for arrays with one axis *)
From Coq Require Import Reals String List Bool.
From Verif.Lib Require Import Num Monad Arr.
From Verif.Model Require Import CoreUtility ArrCore ArrVanGent2001.
Import ListNotations.
Open Scope string_scope.
Open Scope arr_scope.

(** vangentvanderwerf2019.py:8-70; a missing argument is anan. *)
Definition check_validity (Rc Ac Hm0 Fb beta : nums) : M unit :=
  when (given Hm0 && given Rc && given Ac)
    (acheck "(Rc-Ac)/Hm0" "Van Gent and Van der Werf 2019" ((Rc - Ac) / Hm0) #0.26 #0.77) ;;
  when (given Rc && given Ac)
    (acheck "Rc/Ac" "Van Gent and Van der Werf 2019" (Rc / Ac) #1.27 #1.55) ;;
  when (given Hm0 && given Rc)
    (acheck "Rc/Hm0" "Van Gent and Van der Werf 2019" (Rc / Hm0) #0.79 #2.18) ;;
  when (given Hm0 && given Fb)
    (acheck "Fb/Hm0" "Van Gent and Van der Werf 2019" (Fb / Hm0) #0 #0.62) ;;
  when (given beta)
    (acheck "beta" "Van Gent and Van der Werf 2019" beta #0 #75).

(** vangentvanderwerf2019.py:73-109 *)
Definition calculate_influence_oblique_waves_force_gamma_F_beta (z2p Ac beta gamma_A : nums) : M nums :=
  ((#0.5 * apow (acos (adeg2rad beta)) #2 + #0.5) * z2p - gamma_A * Ac) / (z2p - gamma_A * Ac).

(** vangentvanderwerf2019.py:112-148 *)
Definition calculate_influence_oblique_waves_horizontal_force_gamma_FH_beta (z2p Ac beta gamma_A : nums) : M nums :=
  calculate_influence_oblique_waves_force_gamma_F_beta z2p Ac beta gamma_A.

(** vangentvanderwerf2019.py:151-187 *)
Definition calculate_influence_oblique_waves_vertical_force_gamma_FV_beta (z2p Ac beta gamma_A : nums) : M nums :=
  calculate_influence_oblique_waves_force_gamma_F_beta z2p Ac beta gamma_A.

(** vangentvanderwerf2019.py:190-211 *)
Definition calculate_influence_oblique_waves_gamma_beta (beta c_beta : nums) : M nums :=
  (#1 - c_beta) * apow (acos (adeg2rad beta)) #2 + c_beta.

(** vangentvanderwerf2019.py:289-341 *)
Definition calculate_FH2p_perpendicular_from_z2p (Hm0 z2p Ac Rc Hwall rho_water g cFH : nums) : M nums :=
  check_validity Rc Ac Hm0 anan anan ;;
  FH2p <- cFH * rho_water * g * Hwall * (z2p - Ac) ;;
  FH2p <- amax FH2p #0 ;;
  check_validity Rc Ac Hm0 anan anan ;;
  ret FH2p.

(** vangentvanderwerf2019.py:214-286 *)
Definition calculate_FH2p_perpendicular
    (Hm0 Tmm10 cot_alpha Ac Rc Hwall gamma_beta gamma_f c0 c1 rho_water g cFH : nums) : M nums :=
  gamma <- gamma_f * gamma_beta ;;
  z2p <- calculate_wave_runup_height_zXp Hm0 Tmm10 gamma cot_alpha c0 c1 ;;
  FH2p <- calculate_FH2p_perpendicular_from_z2p Hm0 z2p Ac Rc Hwall rho_water g cFH ;;
  check_validity Rc Ac Hm0 anan anan ;;
  ret FH2p.

(** vangentvanderwerf2019.py:344-425 *)
Definition calculate_FH2p_oblique
    (Hm0 Tmm10 beta cot_alpha Ac Rc Hwall gamma_beta gamma_f c0 c1 cFH rho_water g : nums) : M nums :=
  gamma <- gamma_f * gamma_beta ;;
  z2p <- calculate_wave_runup_height_zXp Hm0 Tmm10 gamma cot_alpha c0 c1 ;;
  FH2p_perpendicular <- calculate_FH2p_perpendicular_from_z2p Hm0 z2p Ac Rc Hwall rho_water g cFH ;;
  gamma_FH_beta <-
    calculate_influence_oblique_waves_horizontal_force_gamma_FH_beta z2p Ac beta #1 ;;
  FH2p_oblique <- gamma_FH_beta * FH2p_perpendicular ;;
  check_validity Rc Ac Hm0 anan beta ;;
  ret FH2p_oblique.

(** vangentvanderwerf2019.py:506-556 *)
Definition calculate_FV2p_perpendicular_from_z2p (z2p Ac Bwall Fb cFV cFb rho_water g : nums) : M nums :=
  FV2p <- cFV * rho_water * g * Bwall * (z2p - #0.75 * Ac) * (#1 - apow (Fb / Ac) cFb) ;;
  amax FV2p #0.

(** vangentvanderwerf2019.py:428-503 *)
Definition calculate_FV2p_perpendicular
    (Hm0 Tmm10 cot_alpha Ac Bwall Fb gamma_beta gamma_f c0 c1 cFV cFb rho_water g : nums) : M nums :=
  gamma <- gamma_f * gamma_beta ;;
  z2p <- calculate_wave_runup_height_zXp Hm0 Tmm10 gamma cot_alpha c0 c1 ;;
  FV2p_perpendicular <- calculate_FV2p_perpendicular_from_z2p z2p Ac Bwall Fb cFV cFb rho_water g ;;
  check_validity anan Ac Hm0 Fb anan ;;
  ret FV2p_perpendicular.

(** vangentvanderwerf2019.py:559-643 *)
Definition calculate_FV2p_oblique
    (Hm0 Tmm10 beta cot_alpha Ac Bwall Fb gamma_beta gamma_f c0 c1 cFV cFb rho_water g : nums) : M nums :=
  gamma <- gamma_f * gamma_beta ;;
  z2p <- calculate_wave_runup_height_zXp Hm0 Tmm10 gamma cot_alpha c0 c1 ;;
  FV2p_perpendicular <- calculate_FV2p_perpendicular_from_z2p z2p Ac Bwall Fb cFV cFb rho_water g ;;
  gamma_FV_beta <-
    calculate_influence_oblique_waves_vertical_force_gamma_FV_beta z2p Ac beta #0.75 ;;
  FV2p_oblique <- gamma_FV_beta * FV2p_perpendicular ;;
  check_validity anan Ac Hm0 Fb beta ;;
  ret FV2p_oblique.

(** vangentvanderwerf2019.py:646-670 *)
Definition calculate_FH01p_perpendicular (FH2p : nums) : M nums := #1.6 * FH2p.

(** vangentvanderwerf2019.py:673-700 *)
Definition calculate_FV01p_perpendicular (FV2p s0p : nums) : M nums := (#2.88 - #32 * s0p) * FV2p.
