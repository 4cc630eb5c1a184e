(** Model of functions/hydraulic/wave_overtopping/deridder2024.py
    for arrays with one axis *)
From Coq Require Import Reals String List Bool.
From Verif.Lib Require Import Num Monad Arr.
From Verif.Model Require Import CoreUtility ArrCore.
Open Scope string_scope.
Open Scope arr_scope.

(** deridder2024.py:9-111 *)
Definition check_validity_range
    (h Hm0 Hm0_HF Hm0_LF Tmm10 Tmm10_HF Rc cot_alpha m_foreshore_slope Dn50 : nums) : M unit :=
  when (given Hm0 && given Tmm10)
    (acheck "Wave steepness sm-1,0" "De Ridder et al. (2024)"
       (calculate_wave_steepness_s Hm0 Tmm10 g_default) #0.001 #0.040) ;;
  when (given Hm0_HF && given Tmm10_HF)
    (acheck "Short wave steepness sm-1,0_HF" "De Ridder et al. (2024)"
       (calculate_wave_steepness_s Hm0_HF Tmm10_HF g_default) #0.004 #0.047) ;;
  when (given Hm0 && given Tmm10 && given cot_alpha)
    (acheck "Iribarren number Ksi_m-1,0" "De Ridder et al. (2024)"
       (calculate_Iribarren_number_ksi Hm0 Tmm10 cot_alpha) #0.05 #1.11) ;;
  when (given m_foreshore_slope)
    (acheck "Foreshore slope m" "De Ridder et al. (2024)" m_foreshore_slope (#1 / #100) (#1 / #20)) ;;
  when (given Rc && given Hm0)
    (acheck "Rc/Hm0" "De Ridder et al. (2024)" (Rc / Hm0) #0.80 #3.72) ;;
  when (given Dn50 && given Hm0)
    (acheck "Dn50/Hm0" "De Ridder et al. (2024)" (Dn50 / Hm0) #0.12 #0.89) ;;
  when (given Hm0 && given Hm0_LF)
    (acheck "Hm0_LF/Hm0" "De Ridder et al. (2024)" (Hm0_LF / Hm0) #0.10 #0.81) ;;
  when (given h && given Hm0)
    (acheck "h/Hm0" "De Ridder et al. (2024)" (h / Hm0) #0.57 #4.95).

(** The period handed to the check at lines 200, 248, 371 and 416. *)
Definition period_HF (Hm0 smm10_HF : nums) : M nums :=
  asqrt ((#2 * api * Hm0) / smm10_HF / #9.81).

(** deridder2024.py:208-252 *)
Definition calculate_dimensionless_crest_freeboard_discharge_q_eq24
    (Hm0 smm10_HF gamma_f q g : nums) : M nums :=
  Rc_diml <-
    - (alog (q / asqrt (g * apow Hm0 #3)) - alog #0.74)
    / (#8.51 * apow smm10_HF #0.32) * gamma_f ;;
  Tmm10_HF <- period_HF Hm0 smm10_HF ;;
  Rc <- Rc_diml * Hm0 ;;
  check_validity_range anan Hm0 anan anan anan Tmm10_HF Rc anan anan anan ;;
  ret Rc_diml.

(** deridder2024.py:114-154; the gravity [g] is not passed on (lines 145-150) *)
Definition calculate_crest_freeboard_discharge_q_eq24
    (Hm0 smm10_HF gamma_f q g : nums) : M nums :=
  Rc_diml <- calculate_dimensionless_crest_freeboard_discharge_q_eq24 Hm0 smm10_HF gamma_f q g_default ;;
  Rc_diml * Hm0.

(** deridder2024.py:157-205 *)
Definition calculate_crest_freeboard_discharge_q_eq26
    (Hm0 smm10_HF Hm0_LF gamma_f q g : nums) : M nums :=
  Rc <-
    (- (alog (q / asqrt (g * apow Hm0 #3)) - alog #0.50)
     / (#7.91 * apow smm10_HF #0.30) * (gamma_f * Hm0))
    + #0.21 * Hm0_LF ;;
  Tmm10_HF <- period_HF Hm0 smm10_HF ;;
  check_validity_range anan Hm0 anan Hm0_LF anan Tmm10_HF Rc anan anan anan ;;
  ret Rc.

(** deridder2024.py:336-375 *)
Definition calculate_dimensionless_overtopping_discharge_eq24
    (Hm0 smm10_HF gamma_f Rc : nums) : M nums :=
  q_dimensionless <-
    #0.74 * aexp (- #8.51 * (Rc / (Hm0 * gamma_f)) * apow smm10_HF #0.32) ;;
  Tmm10_HF <- period_HF Hm0 smm10_HF ;;
  check_validity_range anan Hm0 anan anan anan Tmm10_HF Rc anan anan anan ;;
  ret q_dimensionless.

(** deridder2024.py:255-291 *)
Definition calculate_overtopping_discharge_q_eq24 (Hm0 smm10_HF gamma_f Rc g : nums) : M nums :=
  q_diml <- calculate_dimensionless_overtopping_discharge_eq24 Hm0 smm10_HF gamma_f Rc ;;
  q_diml * asqrt (g * apow Hm0 #3).

(** deridder2024.py:378-421 *)
Definition calculate_dimensionless_overtopping_discharge_eq26
    (Hm0 smm10_HF Hm0_LF gamma_f Rc : nums) : M nums :=
  q_dimensionless <-
    #0.50 * aexp (- #7.91 * ((Rc - #0.21 * Hm0_LF) / (Hm0 * gamma_f)) * apow smm10_HF #0.30) ;;
  Tmm10_HF <- period_HF Hm0 smm10_HF ;;
  check_validity_range anan Hm0 anan Hm0_LF anan Tmm10_HF Rc anan anan anan ;;
  ret q_dimensionless.

(** deridder2024.py:294-333 *)
Definition calculate_overtopping_discharge_q_eq26
    (Hm0 smm10_HF Hm0_LF gamma_f Rc g : nums) : M nums :=
  q_diml <- calculate_dimensionless_overtopping_discharge_eq26 Hm0 smm10_HF Hm0_LF gamma_f Rc ;;
  q_diml * asqrt (g * apow Hm0 #3).
