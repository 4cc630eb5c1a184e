(** Model of functions/hydraulic/wave_overtopping/eurotop2007.py for arrays with one
    axis.  The coefficients c2 and c3 are numbers, as in the signatures. *)
From Coq Require Import Reals String List Bool.
From Verif.Lib Require Import Num Monad Arr ArrLoop.
From Verif.Model Require RunupTAW2002 OvertoppingTAW2002 OvertoppingEurotop2007.
From Verif.Model Require Import ArrCore ArrRunupTAW2002.
From Verif.Model Require ArrOvertoppingTAW2002.
Open Scope arr_scope.

(** Default of cor3 in taw2002.py:406 and 785. *)
Definition cor3_default : nums := float OvertoppingTAW2002.cor3_default.

(** Lines 136-148 and 307-319, which are the same. *)
Definition influence_factors (Hm0 Tmm10 beta gamma_beta gamma_f cot_alpha : nums) : M (nums * nums) :=
  calculate_gamma_beta <- check_calculate_gamma_beta beta gamma_beta ;;
  gamma_beta <-
    (if calculate_gamma_beta : bool
     then calculate_influence_oblique_waves_gamma_beta beta RunupTAW2002.c_gamma_beta_default RunupTAW2002.max_angle_default
     else gamma_beta) ;;
  ksi_mm10 <- calculate_Iribarren_number_ksi Hm0 Tmm10 cot_alpha ;;
  gamma_f_adj <- calculate_adjusted_influence_roughness_gamma_f gamma_f #1 ksi_mm10 ;;
  ret (gamma_beta, gamma_f_adj).

(** eurotop2007.py:80-154 *)
Definition calculate_dimensionless_overtopping_discharge_q_rubble_mound
    (Hm0 Tmm10 Rc beta gamma_beta gamma_f cot_alpha : nums) (c2 c3 : num) (use_best_fit : bool) : M nums :=
  let '(c2, c3) := OvertoppingEurotop2007.check_best_fit c2 c3 use_best_fit in
  factors <- influence_factors Hm0 Tmm10 beta gamma_beta gamma_f cot_alpha ;;
  ArrOvertoppingTAW2002.q_diml_max_equation Hm0 Rc (fst factors) (snd factors) c3 cor3_default c2.

(** eurotop2007.py:10-77 *)
Definition calculate_overtopping_discharge_q_rubble_mound
    (Hm0 Tmm10 Rc beta gamma_beta gamma_f cot_alpha : nums) (c2 c3 : num) (use_best_fit : bool) (g : nums) : M nums :=
  q_diml <- calculate_dimensionless_overtopping_discharge_q_rubble_mound Hm0 Tmm10 Rc beta gamma_beta gamma_f
              cot_alpha c2 c3 use_best_fit ;;
  q_diml * asqrt (g * apow Hm0 #3).

(** eurotop2007.py:251-325 *)
Definition calculate_dimensionless_crest_freeboard_rubble_mound
    (Hm0 Tmm10 q beta gamma_beta gamma_f cot_alpha : nums) (c2 c3 : num) (use_best_fit : bool) : M nums :=
  let '(c2, c3) := OvertoppingEurotop2007.check_best_fit c2 c3 use_best_fit in
  factors <- influence_factors Hm0 Tmm10 beta gamma_beta gamma_f cot_alpha ;;
  ArrOvertoppingTAW2002.Rc_diml_max_equation Hm0 q (fst factors) (snd factors) c3 cor3_default c2 g_default.

(** eurotop2007.py:183-248 (no gravity among the arguments) *)
Definition calculate_crest_freeboard_Rc_rubble_mound
    (Hm0 Tmm10 q beta gamma_beta gamma_f cot_alpha : nums) (c2 c3 : num) (use_best_fit : bool) : M nums :=
  Rc_diml <- calculate_dimensionless_crest_freeboard_rubble_mound Hm0 Tmm10 q beta gamma_beta gamma_f
               cot_alpha c2 c3 use_best_fit ;;
  Rc_diml * Hm0.
