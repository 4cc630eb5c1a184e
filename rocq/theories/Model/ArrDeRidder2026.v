(** Model of functions/hydraulic/wave_overtopping/deridder2026.py
    for arrays with one axis *)
From Coq Require Import Reals String List Bool.
From Verif.Lib Require Import Num Monad Arr.
From Verif.Model Require Import CoreUtility ArrCore.
Open Scope string_scope.
Open Scope arr_scope.

(** deridder2026.py:9-90 *)
Definition check_validity_range (h Hm0 Hm0_HF Hm0_LF Tmm10 Tmm10_HF Rc Dn50 theta : nums) : M unit :=
  when (given Hm0 && given Tmm10)
    (acheck "Wave steepness sm-1,0" "De Ridder et al. (2026)"
       (calculate_wave_steepness_s Hm0 Tmm10 g_default) #0.003 #0.041) ;;
  when (given Hm0_HF && given Tmm10_HF)
    (acheck "Short wave steepness sm-1,0_HF" "De Ridder et al. (2026)"
       (calculate_wave_steepness_s Hm0_HF Tmm10_HF g_default) #0.012 #0.049) ;;
  when (given Rc && given Hm0)
    (acheck "Rc/Hm0" "De Ridder et al. (2026)" (Rc / Hm0) #0.98 #1.94) ;;
  when (given Dn50 && given Hm0)
    (acheck "Dn50/Hm0" "De Ridder et al. (2026)" (Dn50 / Hm0) #0.18 #0.35) ;;
  when (given Hm0 && given Hm0_LF)
    (acheck "Hm0_LF/Hm0" "De Ridder et al. (2026)" (Hm0_LF / Hm0) #0.15 #0.55) ;;
  when (given h && given Hm0)
    (acheck "h/Hm0" "De Ridder et al. (2026)" (h / Hm0) #1.41 #2.15) ;;
  when (given theta)
    (acheck "theta" "De Ridder et al. (2026)" theta #0 #56).

(** The period handed to the check at lines 354 and 423. *)
Definition period_HF (Hm0 smm10_HF : nums) : M nums :=
  asqrt ((#2 * api * Hm0) / smm10_HF / #9.81).

(** deridder2026.py:361-374 *)
Definition calculate_gamma_beta (theta : nums) : M nums :=
  #0.65 * apow (acos (adeg2rad (aabs theta))) #2 + #0.35.

(** deridder2026.py:189-229 *)
Definition calculate_dimensionless_crest_freeboard_discharge_q_eq28
    (Hm0 smm10_HF gamma_f q g gamma_beta : nums) : M nums :=
  - (alog (q / asqrt (g * apow Hm0 #3)) - alog #0.16)
  / (#6.93 * apow smm10_HF #0.36) * gamma_f * gamma_beta.

(** deridder2026.py:93-139 *)
Definition calculate_crest_freeboard_discharge_q_eq28 (Hm0 smm10_HF gamma_f q g theta : nums) : M nums :=
  gamma_beta <- calculate_gamma_beta theta ;;
  Rc_diml <- calculate_dimensionless_crest_freeboard_discharge_q_eq28 Hm0 smm10_HF gamma_f q g gamma_beta ;;
  Rc_diml * Hm0.

(** deridder2026.py:142-186 *)
Definition calculate_crest_freeboard_discharge_q_eq32
    (Hm0_HF smm10_HF Hm0_LF gamma_f q g theta : nums) : M nums :=
  gamma_beta <- calculate_gamma_beta theta ;;
  (- (alog (q / asqrt (g * apow Hm0_HF #3)) - alog #0.05)
   / (#10.40 * apow smm10_HF #0.50 * (#1 / (gamma_f * gamma_beta))) * Hm0_HF)
  + #0.97 * Hm0_LF.

(** deridder2026.py:317-358 *)
Definition calculate_dimensionless_overtopping_discharge_eq28
    (Hm0 smm10_HF gamma_f Rc theta : nums) : M nums :=
  gamma_beta <- calculate_gamma_beta theta ;;
  q_dimensionless <-
    #0.16 * aexp (- #6.93 * (Rc / (Hm0 * gamma_f * gamma_beta)) * apow smm10_HF #0.36) ;;
  Tmm10_HF <- period_HF Hm0 smm10_HF ;;
  check_validity_range anan Hm0 anan anan anan Tmm10_HF Rc anan theta ;;
  ret q_dimensionless.

(** deridder2026.py:232-270 *)
Definition calculate_overtopping_discharge_q_eq28 (Hm0 smm10_HF gamma_f Rc g theta : nums) : M nums :=
  q_diml <- calculate_dimensionless_overtopping_discharge_eq28 Hm0 smm10_HF gamma_f Rc theta ;;
  q_diml * asqrt (g * apow Hm0 #3).

(** deridder2026.py:377-429 *)
Definition calculate_dimensionless_overtopping_discharge_eq32
    (Hm0_HF smm10_HF Hm0_LF gamma_f Rc theta : nums) : M nums :=
  gamma_beta <- calculate_gamma_beta theta ;;
  q_dimensionless <-
    #0.05 * aexp (- #10.40 * ((Rc - #0.97 * Hm0_LF) / Hm0_HF)
                  * (#1 / (gamma_f * gamma_beta)) * apow smm10_HF #0.50) ;;
  Tmm10_HF <- period_HF Hm0_HF smm10_HF ;;
  check_validity_range anan Hm0_HF anan Hm0_LF anan Tmm10_HF Rc anan theta ;;
  ret q_dimensionless.

(** deridder2026.py:273-314 *)
Definition calculate_overtopping_discharge_q_eq32
    (Hm0_HF smm10_HF Hm0_LF gamma_f Rc g theta : nums) : M nums :=
  q_diml <- calculate_dimensionless_overtopping_discharge_eq32 Hm0_HF smm10_HF Hm0_LF gamma_f Rc theta ;;
  q_diml * asqrt (g * apow Hm0_HF #3).
