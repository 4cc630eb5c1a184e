(** Model of functions/hydraulic/wave_overtopping/deridder2024.py *)
From Coq Require Import Reals String List Bool.
From Verif.Lib Require Import Num Monad.
From Verif.Model Require Import CoreUtility CorePhysics.
Open Scope string_scope.
Open Scope num_scope.

(** deridder2024.py:9-111 *)
Definition check_validity_range
    (h Hm0 Hm0_HF Hm0_LF Tmm10 Tmm10_HF Rc cot_alpha m_foreshore_slope Dn50 : num) : M unit :=
  when (provided Hm0 && provided Tmm10)
    (check "Wave steepness sm-1,0" "De Ridder et al. (2024)"
       (calculate_wave_steepness_s Hm0 Tmm10 g_default) #0.001 #0.040) ;;
  when (provided Hm0_HF && provided Tmm10_HF)
    (check "Short wave steepness sm-1,0_HF" "De Ridder et al. (2024)"
       (calculate_wave_steepness_s Hm0_HF Tmm10_HF g_default) #0.004 #0.047) ;;
  when (provided Hm0 && provided Tmm10 && provided cot_alpha)
    (check "Iribarren number Ksi_m-1,0" "De Ridder et al. (2024)"
       (calculate_Iribarren_number_ksi Hm0 Tmm10 cot_alpha) #0.05 #1.11) ;;
  when (provided m_foreshore_slope)
    (check "Foreshore slope m" "De Ridder et al. (2024)" m_foreshore_slope (#1 / #100) (#1 / #20)) ;;
  when (provided Rc && provided Hm0)
    (check "Rc/Hm0" "De Ridder et al. (2024)" (Rc / Hm0) #0.80 #3.72) ;;
  when (provided Dn50 && provided Hm0)
    (check "Dn50/Hm0" "De Ridder et al. (2024)" (Dn50 / Hm0) #0.12 #0.89) ;;
  when (provided Hm0 && provided Hm0_LF)
    (check "Hm0_LF/Hm0" "De Ridder et al. (2024)" (Hm0_LF / Hm0) #0.10 #0.81) ;;
  when (provided h && provided Hm0)
    (check "h/Hm0" "De Ridder et al. (2024)" (h / Hm0) #0.57 #4.95).

(** The period handed to the check at lines 200, 248, 371 and 416. *)
Definition period_HF (Hm0 smm10_HF : num) : num :=
  nsqrt ((#2 * npi * Hm0) / smm10_HF / #9.81).

(** deridder2024.py:208-252 *)
Definition calculate_dimensionless_crest_freeboard_discharge_q_eq24
    (Hm0 smm10_HF gamma_f q g : num) : M num :=
  let Rc_diml :=
    - (nlog (q / nsqrt (g * npow Hm0 #3)) - nlog #0.74)
    / (#8.51 * npow smm10_HF #0.32) * gamma_f in
  check_validity_range NaN Hm0 NaN NaN NaN (period_HF Hm0 smm10_HF) (Rc_diml * Hm0) NaN NaN NaN ;;
  ret Rc_diml.

(** deridder2024.py:114-154; the gravity [g] is not passed on (lines 145-150) *)
Definition calculate_crest_freeboard_discharge_q_eq24
    (Hm0 smm10_HF gamma_f q g : num) : M num :=
  Rc_diml <- calculate_dimensionless_crest_freeboard_discharge_q_eq24 Hm0 smm10_HF gamma_f q g_default ;;
  ret (Rc_diml * Hm0).

(** deridder2024.py:157-205 *)
Definition calculate_crest_freeboard_discharge_q_eq26
    (Hm0 smm10_HF Hm0_LF gamma_f q g : num) : M num :=
  let Rc :=
    (- (nlog (q / nsqrt (g * npow Hm0 #3)) - nlog #0.50)
     / (#7.91 * npow smm10_HF #0.30) * (gamma_f * Hm0))
    + #0.21 * Hm0_LF in
  check_validity_range NaN Hm0 NaN Hm0_LF NaN (period_HF Hm0 smm10_HF) Rc NaN NaN NaN ;;
  ret Rc.

(** deridder2024.py:336-375 *)
Definition calculate_dimensionless_overtopping_discharge_eq24
    (Hm0 smm10_HF gamma_f Rc : num) : M num :=
  let q_dimensionless :=
    #0.74 * nexp (- #8.51 * (Rc / (Hm0 * gamma_f)) * npow smm10_HF #0.32) in
  check_validity_range NaN Hm0 NaN NaN NaN (period_HF Hm0 smm10_HF) Rc NaN NaN NaN ;;
  ret q_dimensionless.

(** deridder2024.py:255-291 *)
Definition calculate_overtopping_discharge_q_eq24 (Hm0 smm10_HF gamma_f Rc g : num) : M num :=
  q_diml <- calculate_dimensionless_overtopping_discharge_eq24 Hm0 smm10_HF gamma_f Rc ;;
  ret (q_diml * nsqrt (g * npow Hm0 #3)).

(** deridder2024.py:378-421 *)
Definition calculate_dimensionless_overtopping_discharge_eq26
    (Hm0 smm10_HF Hm0_LF gamma_f Rc : num) : M num :=
  let q_dimensionless :=
    #0.50 * nexp (- #7.91 * ((Rc - #0.21 * Hm0_LF) / (Hm0 * gamma_f)) * npow smm10_HF #0.30) in
  check_validity_range NaN Hm0 NaN Hm0_LF NaN (period_HF Hm0 smm10_HF) Rc NaN NaN NaN ;;
  ret q_dimensionless.

(** deridder2024.py:294-333 *)
Definition calculate_overtopping_discharge_q_eq26
    (Hm0 smm10_HF Hm0_LF gamma_f Rc g : num) : M num :=
  q_diml <- calculate_dimensionless_overtopping_discharge_eq26 Hm0 smm10_HF Hm0_LF gamma_f Rc ;;
  ret (q_diml * nsqrt (g * npow Hm0 #3)).
