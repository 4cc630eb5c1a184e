(** Model of functions/hydraulic/wave_overtopping/deridder2026.py *)
From Coq Require Import Reals String List Bool.
From Verif.Lib Require Import Num Monad.
From Verif.Model Require Import CoreUtility CorePhysics Numpy.
Open Scope string_scope.
Open Scope num_scope.

(** deridder2026.py:9-90 *)
Definition check_validity_range (h Hm0 Hm0_HF Hm0_LF Tmm10 Tmm10_HF Rc Dn50 theta : num) : M unit :=
  when (provided Hm0 && provided Tmm10)
    (check "Wave steepness sm-1,0" "De Ridder et al. (2026)"
       (calculate_wave_steepness_s Hm0 Tmm10 g_default) #0.003 #0.041) ;;
  when (provided Hm0_HF && provided Tmm10_HF)
    (check "Short wave steepness sm-1,0_HF" "De Ridder et al. (2026)"
       (calculate_wave_steepness_s Hm0_HF Tmm10_HF g_default) #0.012 #0.049) ;;
  when (provided Rc && provided Hm0)
    (check "Rc/Hm0" "De Ridder et al. (2026)" (Rc / Hm0) #0.98 #1.94) ;;
  when (provided Dn50 && provided Hm0)
    (check "Dn50/Hm0" "De Ridder et al. (2026)" (Dn50 / Hm0) #0.18 #0.35) ;;
  when (provided Hm0 && provided Hm0_LF)
    (check "Hm0_LF/Hm0" "De Ridder et al. (2026)" (Hm0_LF / Hm0) #0.15 #0.55) ;;
  when (provided h && provided Hm0)
    (check "h/Hm0" "De Ridder et al. (2026)" (h / Hm0) #1.41 #2.15) ;;
  when (provided theta)
    (check "theta" "De Ridder et al. (2026)" theta #0 #56).

(** The period handed to the check at lines 354 and 423. *)
Definition period_HF (Hm0 smm10_HF : num) : num :=
  nsqrt ((#2 * npi * Hm0) / smm10_HF / #9.81).

(** deridder2026.py:361-374 *)
Definition calculate_gamma_beta (theta : num) : num :=
  #0.65 * npow (ncos (deg2rad (nabs theta))) #2 + #0.35.

(** deridder2026.py:189-229 *)
Definition calculate_dimensionless_crest_freeboard_discharge_q_eq28
    (Hm0 smm10_HF gamma_f q g gamma_beta : num) : num :=
  - (nlog (q / nsqrt (g * npow Hm0 #3)) - nlog #0.16)
  / (#6.93 * npow smm10_HF #0.36) * gamma_f * gamma_beta.

(** deridder2026.py:93-139 *)
Definition calculate_crest_freeboard_discharge_q_eq28 (Hm0 smm10_HF gamma_f q g theta : num) : num :=
  let gamma_beta := calculate_gamma_beta theta in
  calculate_dimensionless_crest_freeboard_discharge_q_eq28 Hm0 smm10_HF gamma_f q g gamma_beta * Hm0.

(** deridder2026.py:142-186 *)
Definition calculate_crest_freeboard_discharge_q_eq32
    (Hm0_HF smm10_HF Hm0_LF gamma_f q g theta : num) : num :=
  let gamma_beta := calculate_gamma_beta theta in
  (- (nlog (q / nsqrt (g * npow Hm0_HF #3)) - nlog #0.05)
   / (#10.40 * npow smm10_HF #0.50 * (#1 / (gamma_f * gamma_beta))) * Hm0_HF)
  + #0.97 * Hm0_LF.

(** deridder2026.py:317-358 *)
Definition calculate_dimensionless_overtopping_discharge_eq28
    (Hm0 smm10_HF gamma_f Rc theta : num) : M num :=
  let gamma_beta := calculate_gamma_beta theta in
  let q_dimensionless :=
    #0.16 * nexp (- #6.93 * (Rc / (Hm0 * gamma_f * gamma_beta)) * npow smm10_HF #0.36) in
  check_validity_range NaN Hm0 NaN NaN NaN (period_HF Hm0 smm10_HF) Rc NaN theta ;;
  ret q_dimensionless.

(** deridder2026.py:232-270 *)
Definition calculate_overtopping_discharge_q_eq28 (Hm0 smm10_HF gamma_f Rc g theta : num) : M num :=
  q_diml <- calculate_dimensionless_overtopping_discharge_eq28 Hm0 smm10_HF gamma_f Rc theta ;;
  ret (q_diml * nsqrt (g * npow Hm0 #3)).

(** deridder2026.py:377-429 *)
Definition calculate_dimensionless_overtopping_discharge_eq32
    (Hm0_HF smm10_HF Hm0_LF gamma_f Rc theta : num) : M num :=
  let gamma_beta := calculate_gamma_beta theta in
  let q_dimensionless :=
    #0.05 * nexp (- #10.40 * ((Rc - #0.97 * Hm0_LF) / Hm0_HF)
                  * (#1 / (gamma_f * gamma_beta)) * npow smm10_HF #0.50) in
  check_validity_range NaN Hm0_HF NaN Hm0_LF NaN (period_HF Hm0_HF smm10_HF) Rc NaN theta ;;
  ret q_dimensionless.

(** deridder2026.py:273-314 *)
Definition calculate_overtopping_discharge_q_eq32
    (Hm0_HF smm10_HF Hm0_LF gamma_f Rc g theta : num) : M num :=
  q_diml <- calculate_dimensionless_overtopping_discharge_eq32 Hm0_HF smm10_HF Hm0_LF gamma_f Rc theta ;;
  ret (q_diml * nsqrt (g * npow Hm0_HF #3)).

(** Default of theta, lines 99, 149, 238, 280, 322 and 383; of g, 9.81. *)
Definition theta_default : num := #0.
