(** Model of functions/structural/forces_crestwall/vangentvanderwerf2019.py, for
    scalar arguments. *)
From Coq Require Import Reals String List Bool.
From Verif.Lib Require Import Num Monad.
From Verif.Model Require Import CoreUtility CorePhysics Numpy VanGent2001.
Import ListNotations.
Open Scope string_scope.
Open Scope num_scope.

(** vangentvanderwerf2019.py:8-70; a missing argument is NaN. *)
Definition check_validity (Rc Ac Hm0 Fb beta : num) : M unit :=
  when (provided Hm0 && provided Rc && provided Ac)
    (check "(Rc-Ac)/Hm0" "Van Gent and Van der Werf 2019" ((Rc - Ac) / Hm0) #0.26 #0.77) ;;
  when (provided Rc && provided Ac)
    (check "Rc/Ac" "Van Gent and Van der Werf 2019" (Rc / Ac) #1.27 #1.55) ;;
  when (provided Hm0 && provided Rc)
    (check "Rc/Hm0" "Van Gent and Van der Werf 2019" (Rc / Hm0) #0.79 #2.18) ;;
  when (provided Hm0 && provided Fb)
    (check "Fb/Hm0" "Van Gent and Van der Werf 2019" (Fb / Hm0) #0 #0.62) ;;
  when (provided beta)
    (check "beta" "Van Gent and Van der Werf 2019" beta #0 #75).

(** vangentvanderwerf2019.py:73-109 *)
Definition calculate_influence_oblique_waves_force_gamma_F_beta (z2p Ac beta gamma_A : num) : num :=
  ((#0.5 * npow (ncos (deg2rad beta)) #2 + #0.5) * z2p - gamma_A * Ac) / (z2p - gamma_A * Ac).

(** vangentvanderwerf2019.py:112-148 *)
Definition calculate_influence_oblique_waves_horizontal_force_gamma_FH_beta (z2p Ac beta gamma_A : num) : num :=
  calculate_influence_oblique_waves_force_gamma_F_beta z2p Ac beta gamma_A.
(** Default of gamma_A, line 116. *)
Definition gamma_A_FH : num := #1.

(** vangentvanderwerf2019.py:151-187 *)
Definition calculate_influence_oblique_waves_vertical_force_gamma_FV_beta (z2p Ac beta gamma_A : num) : num :=
  calculate_influence_oblique_waves_force_gamma_F_beta z2p Ac beta gamma_A.
(** Default of gamma_A, line 155. *)
Definition gamma_A_FV : num := #0.75.

(** vangentvanderwerf2019.py:190-211 *)
Definition calculate_influence_oblique_waves_gamma_beta (beta c_beta : num) : num :=
  (#1 - c_beta) * npow (ncos (deg2rad beta)) #2 + c_beta.
(** Default of c_beta, line 192. *)
Definition gamma_beta_c : num := #0.5.

(** vangentvanderwerf2019.py:289-341 *)
Definition calculate_FH2p_perpendicular_from_z2p (Hm0 z2p Ac Rc Hwall rho_water g cFH : num) : M num :=
  check_validity Rc Ac Hm0 NaN NaN ;;
  let FH2p := cFH * rho_water * g * Hwall * (z2p - Ac) in
  let FH2p := nmax FH2p #0 in
  check_validity Rc Ac Hm0 NaN NaN ;;
  ret FH2p.

(** vangentvanderwerf2019.py:214-286 *)
Definition calculate_FH2p_perpendicular
    (Hm0 Tmm10 cot_alpha Ac Rc Hwall gamma_beta gamma_f c0 c1 rho_water g cFH : num) : M num :=
  let gamma := gamma_f * gamma_beta in
  let z2p := calculate_wave_runup_height_zXp Hm0 Tmm10 gamma cot_alpha c0 c1 in
  FH2p <- calculate_FH2p_perpendicular_from_z2p Hm0 z2p Ac Rc Hwall rho_water g cFH ;;
  check_validity Rc Ac Hm0 NaN NaN ;;
  ret FH2p.

(** vangentvanderwerf2019.py:344-425 *)
Definition calculate_FH2p_oblique
    (Hm0 Tmm10 beta cot_alpha Ac Rc Hwall gamma_beta gamma_f c0 c1 cFH rho_water g : num) : M num :=
  let gamma := gamma_f * gamma_beta in
  let z2p := calculate_wave_runup_height_zXp Hm0 Tmm10 gamma cot_alpha c0 c1 in
  FH2p_perpendicular <- calculate_FH2p_perpendicular_from_z2p Hm0 z2p Ac Rc Hwall rho_water g cFH ;;
  let gamma_FH_beta :=
    calculate_influence_oblique_waves_horizontal_force_gamma_FH_beta z2p Ac beta gamma_A_FH in
  let FH2p_oblique := gamma_FH_beta * FH2p_perpendicular in
  check_validity Rc Ac Hm0 NaN beta ;;
  ret FH2p_oblique.

(** vangentvanderwerf2019.py:506-556 *)
Definition calculate_FV2p_perpendicular_from_z2p (z2p Ac Bwall Fb cFV cFb rho_water g : num) : num :=
  let FV2p := cFV * rho_water * g * Bwall * (z2p - #0.75 * Ac) * (#1 - npow (Fb / Ac) cFb) in
  nmax FV2p #0.

(** vangentvanderwerf2019.py:428-503 *)
Definition calculate_FV2p_perpendicular
    (Hm0 Tmm10 cot_alpha Ac Bwall Fb gamma_beta gamma_f c0 c1 cFV cFb rho_water g : num) : M num :=
  let gamma := gamma_f * gamma_beta in
  let z2p := calculate_wave_runup_height_zXp Hm0 Tmm10 gamma cot_alpha c0 c1 in
  let FV2p_perpendicular := calculate_FV2p_perpendicular_from_z2p z2p Ac Bwall Fb cFV cFb rho_water g in
  check_validity NaN Ac Hm0 Fb NaN ;;
  ret FV2p_perpendicular.

(** vangentvanderwerf2019.py:559-643 *)
Definition calculate_FV2p_oblique
    (Hm0 Tmm10 beta cot_alpha Ac Bwall Fb gamma_beta gamma_f c0 c1 cFV cFb rho_water g : num) : M num :=
  let gamma := gamma_f * gamma_beta in
  let z2p := calculate_wave_runup_height_zXp Hm0 Tmm10 gamma cot_alpha c0 c1 in
  let FV2p_perpendicular := calculate_FV2p_perpendicular_from_z2p z2p Ac Bwall Fb cFV cFb rho_water g in
  let gamma_FV_beta :=
    calculate_influence_oblique_waves_vertical_force_gamma_FV_beta z2p Ac beta gamma_A_FV in
  let FV2p_oblique := gamma_FV_beta * FV2p_perpendicular in
  check_validity NaN Ac Hm0 Fb beta ;;
  ret FV2p_oblique.

(** vangentvanderwerf2019.py:646-670 *)
Definition calculate_FH01p_perpendicular (FH2p : num) : num := #1.6 * FH2p.

(** vangentvanderwerf2019.py:673-700 *)
Definition calculate_FV01p_perpendicular (FV2p s0p : num) : num := (#2.88 - #32 * s0p) * FV2p.

(** Defaults of the coefficients, lines 221-227, 352-358, 435-442, 511-514, 567-574. *)
Definition default_gamma_beta : num := #1.
Definition default_gamma_f : num := #0.45.
Definition default_c0 : num := #1.45.
Definition default_c1 : num := #5.
Definition default_cFH : num := #1.
Definition default_cFV : num := #0.4.
Definition default_cFb : num := #0.5.
Definition default_rho_water : num := #1025.
