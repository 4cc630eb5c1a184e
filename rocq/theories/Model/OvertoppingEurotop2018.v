(** Model of functions/hydraulic/wave_overtopping/eurotop2018.py, for scalar
    arguments. *)
From Coq Require Import Reals String List Bool.
From Verif.Lib Require Import Num Monad.
From Verif.Model Require Import CoreUtility CorePhysics.
From Verif.Model Require RunupTAW2002 RunupEurotop2018.
Open Scope string_scope.
Open Scope num_scope.

(** eurotop2018.py:11-39; a missing argument is NaN. *)
Definition check_validity_range_rubble_mound (cot_alpha : num) : M unit :=
  when (provided cot_alpha)
    (check "Cotangent alpha" "EurOtop (2018) - rubble mound" cot_alpha (#4 / #3) #2).

(** eurotop2018.py:321-368 *)
Definition q_diml_max_equation (Hm0 Rc gamma_beta gamma_f gamma_star c2 c3 : num) : num :=
  c2 * nexp (- #1 * npow (c3 * (Rc / Hm0) * (#1 / (gamma_f * gamma_beta * gamma_star))) #1.3).

(** eurotop2018.py:371-402 *)
Definition check_best_fit (c1 c2 c3 c4 : num) (use_best_fit : bool) : num * num * num * num :=
  if use_best_fit then (#2.7, #0.09, #1.5, #0.023) else (c1, c2, c3, c4).
(** Defaults of c1 to c4, lines 57-60, 166-169, 466-469 and 577-580. *)
Definition c1_default : num := #2.5.
Definition c2_default : num := #0.1035.
Definition c3_default : num := #1.35.
Definition c4_default : num := #0.026.
(** Default of gamma_star, used by the rubble-mound functions. *)
Definition gamma_star_default : num := #1.

(** eurotop2018.py:405-448 *)
Definition calculate_influence_oblique_waves_gamma_beta
    (beta gamma_f gamma_f_crit c_gamma_beta_smooth c_gamma_beta_rough max_angle : num) : num :=
  RunupEurotop2018.calculate_influence_oblique_waves_gamma_beta
    beta gamma_f gamma_f_crit c_gamma_beta_smooth c_gamma_beta_rough max_angle.
(** Defaults, lines 408-411. *)
Definition gamma_f_crit_default : num := #0.6.
Definition c_gamma_beta_smooth_default : num := #0.0033.
Definition c_gamma_beta_rough_default : num := #0.0063.
Definition max_angle_default : num := #80.

(** Lines 235-238, 649-652, 951-954 and 1165-1168 *)
Definition factor_beta (beta gamma_beta gamma_f : num) : M num :=
  calculate_gamma_beta <- RunupTAW2002.check_calculate_gamma_beta beta gamma_beta ;;
  ret (if calculate_gamma_beta
       then calculate_influence_oblique_waves_gamma_beta beta gamma_f gamma_f_crit_default
              c_gamma_beta_smooth_default c_gamma_beta_rough_default max_angle_default
       else gamma_beta).

(** Lines 240-262, 654-675, 956-978 and 1170-1191.  Only the discharge functions
    pass use_best_fit on to the iteration procedure. *)
Definition slope
    (Hm0 Tmm10 cot_alpha cot_alpha_down cot_alpha_up B_berm db gamma_f gamma_beta : num) (use_best_fit : bool) : M num :=
  composite <- RunupTAW2002.check_composite_slope cot_alpha cot_alpha_down cot_alpha_up ;;
  if composite then
    z2p_for_slope <-
      RunupEurotop2018.iteration_procedure_z2p Hm0 Tmm10 cot_alpha_down cot_alpha_up B_berm db gamma_f gamma_beta
        RunupEurotop2018.c1_default RunupEurotop2018.c2_default RunupEurotop2018.c3_default
        RunupEurotop2018.c4_default use_best_fit
        RunupEurotop2018.tolerance_default RunupEurotop2018.max_iter_default ;;
    ret (RunupTAW2002.determine_average_slope Hm0 z2p_for_slope cot_alpha_down cot_alpha_up B_berm db)
  else ret cot_alpha.

(** Lines 264-289 and 677-702: Iribarren number, influence factor of the berm
    (that of the caller is not used) and of the roughness. *)
Definition berm_and_roughness
    (Hm0 Tmm10 cot_alpha cot_alpha_down cot_alpha_up B_berm db gamma_f gamma_beta : num) : M (num * num * num) :=
  let ksi_mm10 := calculate_Iribarren_number_ksi Hm0 Tmm10 cot_alpha in
  L_berm <- RunupTAW2002.calculate_berm_length Hm0 B_berm cot_alpha cot_alpha_down cot_alpha_up ;;
  gamma_b <-
    RunupEurotop2018.iteration_procedure_gamma_b Hm0 Tmm10 cot_alpha B_berm L_berm db gamma_beta
      RunupEurotop2018.c1_default RunupEurotop2018.c2_default RunupEurotop2018.c3_default
      RunupEurotop2018.c4_default false gamma_f ;;
  ret (ksi_mm10, gamma_b, RunupTAW2002.calculate_adjusted_influence_roughness_gamma_f gamma_f gamma_b ksi_mm10).

(** eurotop2018.py:151-318.  The maximum gets gamma_f, not gamma_f_adj. *)
Definition calculate_dimensionless_overtopping_discharge_q
    (Hm0 Tmm10 Rc beta gamma_beta gamma_b gamma_f gamma_v gamma_star B_berm db
     cot_alpha cot_alpha_down cot_alpha_up c1 c2 c3 c4 : num) (use_best_fit : bool) : M (num * bool) :=
  let '(c1, c2, c3, c4) := check_best_fit c1 c2 c3 c4 use_best_fit in
  gamma_beta <- factor_beta beta gamma_beta gamma_f ;;
  cot_alpha <-
    slope Hm0 Tmm10 cot_alpha cot_alpha_down cot_alpha_up B_berm db gamma_f gamma_beta use_best_fit ;;
  '(ksi_mm10, gamma_b, gamma_f_adj) <-
    berm_and_roughness Hm0 Tmm10 cot_alpha cot_alpha_down cot_alpha_up B_berm db gamma_f gamma_beta ;;
  let q_diml_eq510 :=
    (c4 / nsqrt (#1 / cot_alpha)) * ksi_mm10 * gamma_b
    * nexp (- #1 * npow (c1 * (Rc / Hm0)
                         * (#1 / (ksi_mm10 * gamma_b * gamma_f_adj * gamma_beta * gamma_v))) #1.3) in
  let q_diml_max := q_diml_max_equation Hm0 Rc gamma_beta gamma_f gamma_star c2 c3 in
  let q_diml := nmin q_diml_eq510 q_diml_max in
  let max_reached := nmin q_diml_eq510 q_diml_max =? q_diml_max in
  ret (q_diml, max_reached).

(** eurotop2018.py:42-148 *)
Definition calculate_overtopping_discharge_q
    (Hm0 Tmm10 Rc beta gamma_beta gamma_b gamma_f gamma_v gamma_star B_berm db
     cot_alpha cot_alpha_down cot_alpha_up c1 c2 c3 c4 : num) (use_best_fit : bool) (g : num) : M (num * bool) :=
  '(q_diml, max_reached) <-
    calculate_dimensionless_overtopping_discharge_q Hm0 Tmm10 Rc beta gamma_beta gamma_b gamma_f gamma_v
      gamma_star B_berm db cot_alpha cot_alpha_down cot_alpha_up c1 c2 c3 c4 use_best_fit ;;
  ret (q_diml * nsqrt (g * npow Hm0 #3), max_reached).

(** eurotop2018.py:739-792 *)
Definition Rc_diml_max_equation (Hm0 q gamma_beta gamma_f gamma_star c2 c3 g : num) : num :=
  npow (- nlog ((q / nsqrt (g * npow Hm0 #3)) * (#1 / c2))) (#1 / #1.3)
  * (#1 / c3) * gamma_f * gamma_beta * gamma_star.

(** eurotop2018.py:562-736 *)
Definition calculate_dimensionless_crest_freeboard
    (Hm0 Tmm10 q beta gamma_beta gamma_b gamma_f gamma_v gamma_star B_berm db
     cot_alpha cot_alpha_down cot_alpha_up c1 c2 c3 c4 : num) (use_best_fit : bool) (g : num) : M (num * bool) :=
  let '(c1, c2, c3, c4) := check_best_fit c1 c2 c3 c4 use_best_fit in
  gamma_beta <- factor_beta beta gamma_beta gamma_f ;;
  cot_alpha <-
    slope Hm0 Tmm10 cot_alpha cot_alpha_down cot_alpha_up B_berm db gamma_f gamma_beta false ;;
  '(ksi_mm10, gamma_b, gamma_f_adj) <-
    berm_and_roughness Hm0 Tmm10 cot_alpha cot_alpha_down cot_alpha_up B_berm db gamma_f gamma_beta ;;
  let Rc_diml_eq510 :=
    npow (- nlog ((q / nsqrt (g * npow Hm0 #3)) * nsqrt (#1 / cot_alpha) * (#1 / c4)
                  * (#1 / (gamma_b * ksi_mm10)))) (#1 / #1.3)
    * (#1 / c1) * ksi_mm10 * gamma_b * gamma_f_adj * gamma_beta * gamma_v in
  let Rc_diml_max := Rc_diml_max_equation Hm0 q gamma_beta gamma_f_adj gamma_star c2 c3 g in
  let Rc_diml := nmin Rc_diml_eq510 Rc_diml_max in
  let max_reached := nmin Rc_diml_eq510 Rc_diml_max =? Rc_diml_max in
  ret (Rc_diml, max_reached).

(** eurotop2018.py:451-559 *)
Definition calculate_crest_freeboard_Rc
    (Hm0 Tmm10 q beta gamma_beta gamma_b gamma_f gamma_v gamma_star B_berm db
     cot_alpha cot_alpha_down cot_alpha_up c1 c2 c3 c4 : num) (use_best_fit : bool) (g : num) : M (num * bool) :=
  '(Rc_diml, max_reached) <-
    calculate_dimensionless_crest_freeboard Hm0 Tmm10 q beta gamma_beta gamma_b gamma_f gamma_v
      gamma_star B_berm db cot_alpha cot_alpha_down cot_alpha_up c1 c2 c3 c4 use_best_fit g ;;
  ret (Rc_diml * Hm0, max_reached).

(** eurotop2018.py:883-1001 *)
Definition calculate_dimensionless_overtopping_discharge_q_rubble_mound
    (Hm0 Tmm10 Rc beta gamma_beta gamma_f B_berm db cot_alpha cot_alpha_down cot_alpha_up c2 c3 : num)
    (use_best_fit : bool) : M num :=
  let '(_, c2, c3, _) := check_best_fit NaN c2 c3 NaN use_best_fit in
  gamma_beta <- factor_beta beta gamma_beta gamma_f ;;
  cot_alpha <-
    slope Hm0 Tmm10 cot_alpha cot_alpha_down cot_alpha_up B_berm db gamma_f gamma_beta use_best_fit ;;
  let ksi_mm10 := calculate_Iribarren_number_ksi Hm0 Tmm10 cot_alpha in
  let gamma_f_adj := RunupTAW2002.calculate_adjusted_influence_roughness_gamma_f gamma_f #1 ksi_mm10 in
  let q_diml := q_diml_max_equation Hm0 Rc gamma_beta gamma_f_adj gamma_star_default c2 c3 in
  check_validity_range_rubble_mound cot_alpha ;;
  ret q_diml.

(** eurotop2018.py:795-880 *)
Definition calculate_overtopping_discharge_q_rubble_mound
    (Hm0 Tmm10 Rc beta gamma_beta gamma_f B_berm db cot_alpha cot_alpha_down cot_alpha_up c2 c3 : num)
    (use_best_fit : bool) (g : num) : M num :=
  q_diml <- calculate_dimensionless_overtopping_discharge_q_rubble_mound Hm0 Tmm10 Rc beta gamma_beta gamma_f
              B_berm db cot_alpha cot_alpha_down cot_alpha_up c2 c3 use_best_fit ;;
  ret (q_diml * nsqrt (g * npow Hm0 #3)).

(** eurotop2018.py:1094-1215 *)
Definition calculate_dimensionless_crest_freeboard_rubble_mound
    (Hm0 Tmm10 q beta gamma_beta gamma_f B_berm db cot_alpha cot_alpha_down cot_alpha_up c2 c3 : num)
    (use_best_fit : bool) (g : num) : M num :=
  let '(_, c2, c3, _) := check_best_fit NaN c2 c3 NaN use_best_fit in
  gamma_beta <- factor_beta beta gamma_beta gamma_f ;;
  cot_alpha <-
    slope Hm0 Tmm10 cot_alpha cot_alpha_down cot_alpha_up B_berm db gamma_f gamma_beta false ;;
  let ksi_mm10 := calculate_Iribarren_number_ksi Hm0 Tmm10 cot_alpha in
  let gamma_f_adj := RunupTAW2002.calculate_adjusted_influence_roughness_gamma_f gamma_f #1 ksi_mm10 in
  let Rc_diml := Rc_diml_max_equation Hm0 q gamma_beta gamma_f_adj gamma_star_default c2 c3 g in
  check_validity_range_rubble_mound cot_alpha ;;
  ret Rc_diml.

(** eurotop2018.py:1004-1091 *)
Definition calculate_crest_freeboard_Rc_rubble_mound
    (Hm0 Tmm10 q beta gamma_beta gamma_f B_berm db cot_alpha cot_alpha_down cot_alpha_up c2 c3 : num)
    (use_best_fit : bool) (g : num) : M num :=
  Rc_diml <- calculate_dimensionless_crest_freeboard_rubble_mound Hm0 Tmm10 q beta gamma_beta gamma_f
               B_berm db cot_alpha cot_alpha_down cot_alpha_up c2 c3 use_best_fit g ;;
  ret (Rc_diml * Hm0).
