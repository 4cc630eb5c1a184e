(** Model of functions/hydraulic/wave_overtopping/vangent2021_caisson.py *)
From Coq Require Import Reals String List Bool.
From Verif.Lib Require Import Num Monad.
From Verif.Model Require Import CoreUtility CorePhysics Numpy.
Open Scope string_scope.
Open Scope num_scope.

(** vangent2021_caisson.py:9-66 *)
Definition check_validity_range (Hm0 Tmm10 beta Rc q_diml : num) : M unit :=
  when (provided Hm0 && provided Tmm10)
    (check "Wave steepness sm-1,0" "Van Gent (2021)"
       (calculate_wave_steepness_s Hm0 Tmm10 g_default) #0.015 #0.041) ;;
  when (provided Hm0 && provided Rc)
    (check "Dimensionless freeboard Rc/Hm0" "Van Gent (2021)" (Rc / Hm0) #1.2 #2.9) ;;
  when (provided q_diml)
    (check "Dimensionless overtopping discharge q" "Van Gent (2021)" q_diml #0 #0.0012) ;;
  when (provided beta)
    (check "Incident wave angle beta" "Van Gent (2021)" beta #0 #75).

(** vangent2021_caisson.py:434-491: (a, b, c_beta, gamma_p) *)
Definition determine_coefficients (c : num) (short_crested_waves crossing_seas parapet : bool)
  : M (num * num * num * num) :=
  if c =? #1 then
    if short_crested_waves || crossing_seas then
      ret (#0.2, #3.9, #0.75, if parapet then #0.89 else #1)
    else if parapet then raise ValueError
    else ret (#0.2, #4, #0.8, #1)
  else if c =? #1.3 then
    if short_crested_waves || crossing_seas then
      ret (#0.047, #2.57, #0.70, if parapet then #0.85 else #1)
    else if parapet then raise ValueError
    else ret (#0.047, #2.7, #0.8, #1)
  else raise ValueError.

(** vangent2021_caisson.py:231-261 *)
Definition calculate_influence_oblique_waves_gamma_beta (beta gamma_p c_beta : num) : num :=
  (#1 - c_beta / gamma_p) * npow (ncos (deg2rad beta)) #2 + c_beta / gamma_p.

(** Lines 202-208 and 401-407: the swell coefficient used. *)
Definition swell_coefficient (crossing_seas : bool) (c_swell Hm0_swell : num) : M num :=
  if negb crossing_seas then ret #0
  else if isnan Hm0_swell then raise ValueError
  else ret c_swell.

(** vangent2021_caisson.py:139-228 *)
Definition calculate_dimensionless_overtopping_discharge_q
    (Hm0 Rc beta gamma_beta Hm0_swell c c_swell : num)
    (short_crested_waves crossing_seas parapet : bool) : M num :=
  '(a, b, c_beta, gamma_p) <- determine_coefficients c short_crested_waves crossing_seas parapet ;;
  c_swell <- swell_coefficient crossing_seas c_swell Hm0_swell ;;
  let gamma_beta :=
    if isnan gamma_beta
    then calculate_influence_oblique_waves_gamma_beta beta gamma_p c_beta else gamma_beta in
  let q_diml :=
    a * nexp (- (b / (gamma_beta * gamma_p)) * npow ((Rc - c_swell * Hm0_swell) / Hm0) c) in
  check_validity_range Hm0 NaN beta Rc q_diml ;;
  ret q_diml.

(** vangent2021_caisson.py:69-136 *)
Definition calculate_overtopping_discharge_q
    (Hm0 Rc beta gamma_beta Hm0_swell c c_swell : num)
    (short_crested_waves crossing_seas parapet : bool) (g : num) : M num :=
  q_diml <- calculate_dimensionless_overtopping_discharge_q Hm0 Rc beta gamma_beta Hm0_swell c c_swell
              short_crested_waves crossing_seas parapet ;;
  ret (q_diml * nsqrt (g * npow Hm0 #3)).

(** vangent2021_caisson.py:336-431 *)
Definition calculate_dimensionless_crest_freeboard
    (Hm0 q beta gamma_beta Hm0_swell c c_swell : num)
    (short_crested_waves crossing_seas parapet : bool) (g : num) : M num :=
  '(a, b, c_beta, gamma_p) <- determine_coefficients c short_crested_waves crossing_seas parapet ;;
  c_swell <- swell_coefficient crossing_seas c_swell Hm0_swell ;;
  let gamma_beta :=
    if isnan gamma_beta
    then calculate_influence_oblique_waves_gamma_beta beta gamma_p c_beta else gamma_beta in
  let Rc_diml :=
    npow (nlog ((q / nsqrt (g * npow Hm0 #3)) * (#1 / a)) * (- gamma_beta * gamma_p / b)) (#1 / c)
    + c_swell * Hm0_swell / Hm0 in
  check_validity_range Hm0 NaN beta (Rc_diml * Hm0) NaN ;;
  ret Rc_diml.

(** vangent2021_caisson.py:264-333 *)
Definition calculate_crest_freeboard_Rc
    (Hm0 q beta gamma_beta Hm0_swell c c_swell : num)
    (short_crested_waves crossing_seas parapet : bool) (g : num) : M num :=
  Rc_diml <- calculate_dimensionless_crest_freeboard Hm0 q beta gamma_beta Hm0_swell c c_swell
               short_crested_waves crossing_seas parapet g ;;
  ret (Rc_diml * Hm0).

(** Defaults of the four functions above (lines 72-80, 142-149, 267-275, 339-347). *)
Definition c_default : num := #1.
Definition c_swell_default : num := #0.4.
Definition short_crested_default : bool := true.
Definition crossing_seas_default : bool := false.
Definition parapet_default : bool := false.
