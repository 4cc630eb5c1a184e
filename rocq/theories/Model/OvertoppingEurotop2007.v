(** Model of functions/hydraulic/wave_overtopping/eurotop2007.py, for scalar
    arguments. *)
From Coq Require Import Reals String List Bool.
From Verif.Lib Require Import Num Monad.
From Verif.Model Require Import CoreUtility CorePhysics.
From Verif.Model Require RunupTAW2002 OvertoppingTAW2002.
Open Scope num_scope.

(** eurotop2007.py:157-180 *)
Definition check_best_fit (c2 c3 : num) (use_best_fit : bool) : num * num :=
  if use_best_fit then (#0.2, #2.6) else (c2, c3).
(** Defaults of c2 and c3, lines 18-19, 88-89, 191-192 and 259-260. *)
Definition c2_default : num := #0.2.
Definition c3_default : num := #2.3.

(** Lines 136-148 and 307-319, which are the same: the influence factors of
    oblique waves (that of the run-up) and of roughness. *)
Definition influence_factors (Hm0 Tmm10 beta gamma_beta gamma_f cot_alpha : num) : M (num * num) :=
  calculate_gamma_beta <- RunupTAW2002.check_calculate_gamma_beta beta gamma_beta ;;
  let gamma_beta :=
    if calculate_gamma_beta
    then RunupTAW2002.calculate_influence_oblique_waves_gamma_beta beta
           RunupTAW2002.c_gamma_beta_default RunupTAW2002.max_angle_default
    else gamma_beta in
  let ksi_mm10 := calculate_Iribarren_number_ksi Hm0 Tmm10 cot_alpha in
  ret (gamma_beta, RunupTAW2002.calculate_adjusted_influence_roughness_gamma_f gamma_f #1 ksi_mm10).

(** eurotop2007.py:80-154 *)
Definition calculate_dimensionless_overtopping_discharge_q_rubble_mound
    (Hm0 Tmm10 Rc beta gamma_beta gamma_f cot_alpha c2 c3 : num) (use_best_fit : bool) : M num :=
  let '(c2, c3) := check_best_fit c2 c3 use_best_fit in
  '(gamma_beta, gamma_f_adj) <- influence_factors Hm0 Tmm10 beta gamma_beta gamma_f cot_alpha ;;
  ret (OvertoppingTAW2002.q_diml_max_equation Hm0 Rc gamma_beta gamma_f_adj c3
         OvertoppingTAW2002.cor3_default c2).

(** eurotop2007.py:10-77 *)
Definition calculate_overtopping_discharge_q_rubble_mound
    (Hm0 Tmm10 Rc beta gamma_beta gamma_f cot_alpha c2 c3 : num) (use_best_fit : bool) (g : num) : M num :=
  q_diml <- calculate_dimensionless_overtopping_discharge_q_rubble_mound Hm0 Tmm10 Rc beta gamma_beta gamma_f
              cot_alpha c2 c3 use_best_fit ;;
  ret (q_diml * nsqrt (g * npow Hm0 #3)).

(** eurotop2007.py:251-325 *)
Definition calculate_dimensionless_crest_freeboard_rubble_mound
    (Hm0 Tmm10 q beta gamma_beta gamma_f cot_alpha c2 c3 : num) (use_best_fit : bool) : M num :=
  let '(c2, c3) := check_best_fit c2 c3 use_best_fit in
  '(gamma_beta, gamma_f_adj) <- influence_factors Hm0 Tmm10 beta gamma_beta gamma_f cot_alpha ;;
  ret (OvertoppingTAW2002.Rc_diml_max_equation Hm0 q gamma_beta gamma_f_adj c3
         OvertoppingTAW2002.cor3_default c2 g_default).

(** eurotop2007.py:183-248 (no gravity among the arguments) *)
Definition calculate_crest_freeboard_Rc_rubble_mound
    (Hm0 Tmm10 q beta gamma_beta gamma_f cot_alpha c2 c3 : num) (use_best_fit : bool) : M num :=
  Rc_diml <- calculate_dimensionless_crest_freeboard_rubble_mound Hm0 Tmm10 q beta gamma_beta gamma_f
               cot_alpha c2 c3 use_best_fit ;;
  ret (Rc_diml * Hm0).
