(** Model of functions/hydraulic/wave_overtopping/vangent2021_caisson.py for arrays with
    one axis.  The exponent c, c_swell and g are numbers, as in the signatures. *)
From Coq Require Import Reals String List Bool.
From Verif.Lib Require Import Num Monad Arr ArrFlags ArrLoop.
From Verif.Model Require Import ArrCore.
From Verif.Model Require VanGent2021Caisson.
Open Scope string_scope.
Open Scope arr_scope.

(** vangent2021_caisson.py:9-66 *)
Definition check_validity_range (Hm0 Tmm10 beta Rc q_diml : nums) : M unit :=
  when (given Hm0 && given Tmm10)%bool
    (acheck "Wave steepness sm-1,0" "Van Gent (2021)"
       (calculate_wave_steepness_s Hm0 Tmm10 g_default) #0.015 #0.041) ;;
  when (given Hm0 && given Rc)%bool
    (acheck "Dimensionless freeboard Rc/Hm0" "Van Gent (2021)" (Rc / Hm0) #1.2 #2.9) ;;
  when (given q_diml)
    (acheck "Dimensionless overtopping discharge q" "Van Gent (2021)" q_diml #0 #0.0012) ;;
  when (given beta)
    (acheck "Incident wave angle beta" "Van Gent (2021)" beta #0 #75).

(** vangent2021_caisson.py:231-261 *)
Definition calculate_influence_oblique_waves_gamma_beta (beta : nums) (gamma_p c_beta : num) : M nums :=
  (#1 - float c_beta / float gamma_p) * apow (acos (adeg2rad beta)) #2 + float c_beta / float gamma_p.

(** Lines 202-208 and 401-407: the swell coefficient used. *)
Definition swell_coefficient (crossing_seas : bool) (c_swell : num) (Hm0_swell : nums) : M num :=
  if negb crossing_seas then ret #0%num
  else
    missing <- is_nan Hm0_swell ;;
    if missing : bool then raise ValueError else ret c_swell.

(** Lines 210-215 and 409-414 *)
Definition factor_beta (beta gamma_beta : nums) (gamma_p c_beta : num) : M nums :=
  missing <- is_nan gamma_beta ;;
  if missing : bool then calculate_influence_oblique_waves_gamma_beta beta gamma_p c_beta else gamma_beta.

(** vangent2021_caisson.py:139-228; the coefficients of lines 434-491 are numbers. *)
Definition calculate_dimensionless_overtopping_discharge_q
    (Hm0 Rc beta gamma_beta Hm0_swell : nums) (c c_swell : num)
    (short_crested_waves crossing_seas parapet : bool) : M nums :=
  '(a, b, c_beta, gamma_p) <- VanGent2021Caisson.determine_coefficients c short_crested_waves crossing_seas parapet ;;
  c_swell <- swell_coefficient crossing_seas c_swell Hm0_swell ;;
  gamma_beta <- factor_beta beta gamma_beta gamma_p c_beta ;;
  q_diml <- float a * aexp (- (float b / (gamma_beta * float gamma_p)) * apow ((Rc - float c_swell * Hm0_swell) / Hm0) (float c)) ;;
  check_validity_range Hm0 anan beta Rc q_diml ;;
  ret q_diml.

(** vangent2021_caisson.py:69-136 *)
Definition calculate_overtopping_discharge_q
    (Hm0 Rc beta gamma_beta Hm0_swell : nums) (c c_swell : num)
    (short_crested_waves crossing_seas parapet : bool) (g : num) : M nums :=
  q_diml <- calculate_dimensionless_overtopping_discharge_q Hm0 Rc beta gamma_beta Hm0_swell c c_swell
              short_crested_waves crossing_seas parapet ;;
  q_diml * asqrt (float g * apow Hm0 #3).

(** vangent2021_caisson.py:336-431 *)
Definition calculate_dimensionless_crest_freeboard
    (Hm0 q beta gamma_beta Hm0_swell : nums) (c c_swell : num)
    (short_crested_waves crossing_seas parapet : bool) (g : num) : M nums :=
  '(a, b, c_beta, gamma_p) <- VanGent2021Caisson.determine_coefficients c short_crested_waves crossing_seas parapet ;;
  c_swell <- swell_coefficient crossing_seas c_swell Hm0_swell ;;
  gamma_beta <- factor_beta beta gamma_beta gamma_p c_beta ;;
  Rc_diml <-
    apow (alog ((q / asqrt (float g * apow Hm0 #3)) * (#1 / float a)) * (- gamma_beta * float gamma_p / float b)) (#1 / float c)
    + float c_swell * Hm0_swell / Hm0 ;;
  Rc <- Rc_diml * Hm0 ;;
  check_validity_range Hm0 anan beta Rc anan ;;
  ret Rc_diml.

(** vangent2021_caisson.py:264-333 *)
Definition calculate_crest_freeboard_Rc
    (Hm0 q beta gamma_beta Hm0_swell : nums) (c c_swell : num)
    (short_crested_waves crossing_seas parapet : bool) (g : num) : M nums :=
  Rc_diml <- calculate_dimensionless_crest_freeboard Hm0 q beta gamma_beta Hm0_swell c c_swell
               short_crested_waves crossing_seas parapet g ;;
  Rc_diml * Hm0.
