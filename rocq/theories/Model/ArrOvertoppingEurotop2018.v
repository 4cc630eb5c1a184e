(** Model of functions/hydraulic/wave_overtopping/eurotop2018.py for arrays with one
    axis.  The coefficients are numbers, as in the signatures. *)
From Coq Require Import Reals String List Bool.
From Verif.Lib Require Import Num Monad Arr ArrFlags ArrLoop.
From Verif.Model Require RunupTAW2002 RunupEurotop2018 OvertoppingEurotop2018.
From Verif.Model Require Import ArrCore.
From Verif.Model Require ArrRunupTAW2002 ArrRunupEurotop2018.
Open Scope string_scope.
Open Scope arr_scope.

(** eurotop2018.py:11-39; a missing argument is NaN. *)
Definition check_validity_range_rubble_mound (cot_alpha : nums) : M unit :=
  when (given cot_alpha)
    (acheck "Cotangent alpha" "EurOtop (2018) - rubble mound" cot_alpha (#4 / #3) #2).

(** eurotop2018.py:321-368 *)
Definition q_diml_max_equation (Hm0 Rc gamma_beta gamma_f gamma_star : nums) (c2 c3 : num) : M nums :=
  float c2 * aexp (- #1 * apow (float c3 * (Rc / Hm0) * (#1 / (gamma_f * gamma_beta * gamma_star))) #1.3).

(** eurotop2018.py:405-448 *)
Definition calculate_influence_oblique_waves_gamma_beta
    (beta gamma_f : nums) (gamma_f_crit c_gamma_beta_smooth c_gamma_beta_rough max_angle : num) : M nums :=
  ArrRunupEurotop2018.calculate_influence_oblique_waves_gamma_beta
    beta gamma_f gamma_f_crit c_gamma_beta_smooth c_gamma_beta_rough max_angle.

(** Lines 235-238, 649-652, 951-954 and 1165-1168 *)
Definition factor_beta (beta gamma_beta gamma_f : nums) : M nums :=
  calculate_gamma_beta <- ArrRunupTAW2002.check_calculate_gamma_beta beta gamma_beta ;;
  if calculate_gamma_beta : bool
  then calculate_influence_oblique_waves_gamma_beta beta gamma_f OvertoppingEurotop2018.gamma_f_crit_default
         OvertoppingEurotop2018.c_gamma_beta_smooth_default OvertoppingEurotop2018.c_gamma_beta_rough_default
         OvertoppingEurotop2018.max_angle_default
  else gamma_beta.

(** Lines 240-262, 654-675, 956-978 and 1170-1191.  Only the discharge functions
    pass use_best_fit on to the iteration procedure. *)
Definition slope
    (Hm0 Tmm10 cot_alpha cot_alpha_down cot_alpha_up B_berm db gamma_f gamma_beta : nums) (use_best_fit : bool) : M nums :=
  composite <- ArrRunupTAW2002.check_composite_slope cot_alpha cot_alpha_down cot_alpha_up ;;
  if composite : bool then
    z2p_for_slope <-
      ArrRunupEurotop2018.iteration_procedure_z2p Hm0 Tmm10 cot_alpha_down cot_alpha_up B_berm db gamma_f gamma_beta
        RunupEurotop2018.c1_default RunupEurotop2018.c2_default RunupEurotop2018.c3_default
        RunupEurotop2018.c4_default use_best_fit
        RunupEurotop2018.tolerance_default RunupEurotop2018.max_iter_default ;;
    ArrRunupTAW2002.determine_average_slope Hm0 z2p_for_slope cot_alpha_down cot_alpha_up B_berm db
  else cot_alpha.

(** The Iribarren number and the influence factors of the berm and of the roughness *)
Record factors := { fac_ksi : nums; fac_gamma_b : nums; fac_gamma_f : nums }.

(** Lines 264-289 and 677-702; the influence factor of the berm of the caller is not
    used. *)
Definition berm_and_roughness
    (Hm0 Tmm10 cot_alpha cot_alpha_down cot_alpha_up B_berm db gamma_f gamma_beta : nums) : M factors :=
  ksi_mm10 <- calculate_Iribarren_number_ksi Hm0 Tmm10 cot_alpha ;;
  L_berm <- ArrRunupTAW2002.calculate_berm_length Hm0 B_berm cot_alpha cot_alpha_down cot_alpha_up ;;
  gamma_b <-
    ArrRunupEurotop2018.iteration_procedure_gamma_b Hm0 Tmm10 cot_alpha B_berm L_berm db gamma_beta
      RunupEurotop2018.c1_default RunupEurotop2018.c2_default RunupEurotop2018.c3_default
      RunupEurotop2018.c4_default false gamma_f ;;
  gamma_f_adj <- ArrRunupTAW2002.calculate_adjusted_influence_roughness_gamma_f gamma_f gamma_b ksi_mm10 ;;
  ret {| fac_ksi := ksi_mm10; fac_gamma_b := gamma_b; fac_gamma_f := gamma_f_adj |}.

(** eurotop2018.py:151-318.  The maximum gets gamma_f, not gamma_f_adj. *)
Definition calculate_dimensionless_overtopping_discharge_q
    (Hm0 Tmm10 Rc beta gamma_beta gamma_b gamma_f gamma_v gamma_star B_berm db
     cot_alpha cot_alpha_down cot_alpha_up : nums) (c1 c2 c3 c4 : num) (use_best_fit : bool) : M (nums * arr bool) :=
  let '(c1, c2, c3, c4) := OvertoppingEurotop2018.check_best_fit c1 c2 c3 c4 use_best_fit in
  gamma_beta <- factor_beta beta gamma_beta gamma_f ;;
  cot_alpha <-
    slope Hm0 Tmm10 cot_alpha cot_alpha_down cot_alpha_up B_berm db gamma_f gamma_beta use_best_fit ;;
  fac <- berm_and_roughness Hm0 Tmm10 cot_alpha cot_alpha_down cot_alpha_up B_berm db gamma_f gamma_beta ;;
  q_diml_eq510 <-
    (float c4 / asqrt (#1 / cot_alpha)) * fac_ksi fac * fac_gamma_b fac
    * aexp (- #1 * apow (float c1 * (Rc / Hm0)
                         * (#1 / (fac_ksi fac * fac_gamma_b fac * fac_gamma_f fac * gamma_beta * gamma_v))) #1.3) ;;
  q_diml_max <- q_diml_max_equation Hm0 Rc gamma_beta gamma_f gamma_star c2 c3 ;;
  q_diml <- stacked_min q_diml_eq510 q_diml_max ;;
  max_reached <- (stacked_min q_diml_eq510 q_diml_max =? q_diml_max) ;;
  ret (q_diml, max_reached).

(** eurotop2018.py:42-148 *)
Definition calculate_overtopping_discharge_q
    (Hm0 Tmm10 Rc beta gamma_beta gamma_b gamma_f gamma_v gamma_star B_berm db
     cot_alpha cot_alpha_down cot_alpha_up : nums) (c1 c2 c3 c4 : num) (use_best_fit : bool) (g : nums) : M (nums * arr bool) :=
  diml <-
    calculate_dimensionless_overtopping_discharge_q Hm0 Tmm10 Rc beta gamma_beta gamma_b gamma_f gamma_v
      gamma_star B_berm db cot_alpha cot_alpha_down cot_alpha_up c1 c2 c3 c4 use_best_fit ;;
  q <- fst diml * asqrt (g * apow Hm0 #3) ;;
  ret (q, snd diml).

(** eurotop2018.py:739-792 *)
Definition Rc_diml_max_equation (Hm0 q gamma_beta gamma_f gamma_star : nums) (c2 c3 : num) (g : nums) : M nums :=
  apow (- alog ((q / asqrt (g * apow Hm0 #3)) * (#1 / float c2))) (#1 / #1.3)
  * (#1 / float c3) * gamma_f * gamma_beta * gamma_star.

(** eurotop2018.py:562-736 *)
Definition calculate_dimensionless_crest_freeboard
    (Hm0 Tmm10 q beta gamma_beta gamma_b gamma_f gamma_v gamma_star B_berm db
     cot_alpha cot_alpha_down cot_alpha_up : nums) (c1 c2 c3 c4 : num) (use_best_fit : bool) (g : nums) : M (nums * arr bool) :=
  let '(c1, c2, c3, c4) := OvertoppingEurotop2018.check_best_fit c1 c2 c3 c4 use_best_fit in
  gamma_beta <- factor_beta beta gamma_beta gamma_f ;;
  cot_alpha <-
    slope Hm0 Tmm10 cot_alpha cot_alpha_down cot_alpha_up B_berm db gamma_f gamma_beta false ;;
  fac <- berm_and_roughness Hm0 Tmm10 cot_alpha cot_alpha_down cot_alpha_up B_berm db gamma_f gamma_beta ;;
  Rc_diml_eq510 <-
    apow (- alog ((q / asqrt (g * apow Hm0 #3)) * asqrt (#1 / cot_alpha) * (#1 / float c4)
                  * (#1 / (fac_gamma_b fac * fac_ksi fac)))) (#1 / #1.3)
    * (#1 / float c1) * fac_ksi fac * fac_gamma_b fac * fac_gamma_f fac * gamma_beta * gamma_v ;;
  Rc_diml_max <- Rc_diml_max_equation Hm0 q gamma_beta (fac_gamma_f fac) gamma_star c2 c3 g ;;
  Rc_diml <- stacked_min Rc_diml_eq510 Rc_diml_max ;;
  max_reached <- (stacked_min Rc_diml_eq510 Rc_diml_max =? Rc_diml_max) ;;
  ret (Rc_diml, max_reached).

(** eurotop2018.py:451-559 *)
Definition calculate_crest_freeboard_Rc
    (Hm0 Tmm10 q beta gamma_beta gamma_b gamma_f gamma_v gamma_star B_berm db
     cot_alpha cot_alpha_down cot_alpha_up : nums) (c1 c2 c3 c4 : num) (use_best_fit : bool) (g : nums) : M (nums * arr bool) :=
  diml <-
    calculate_dimensionless_crest_freeboard Hm0 Tmm10 q beta gamma_beta gamma_b gamma_f gamma_v
      gamma_star B_berm db cot_alpha cot_alpha_down cot_alpha_up c1 c2 c3 c4 use_best_fit g ;;
  Rc <- fst diml * Hm0 ;;
  ret (Rc, snd diml).

(** eurotop2018.py:883-1001 *)
Definition calculate_dimensionless_overtopping_discharge_q_rubble_mound
    (Hm0 Tmm10 Rc beta gamma_beta gamma_f B_berm db cot_alpha cot_alpha_down cot_alpha_up : nums) (c2 c3 : num)
    (use_best_fit : bool) : M nums :=
  let '(_, c2, c3, _) := OvertoppingEurotop2018.check_best_fit NaN c2 c3 NaN use_best_fit in
  gamma_beta <- factor_beta beta gamma_beta gamma_f ;;
  cot_alpha <-
    slope Hm0 Tmm10 cot_alpha cot_alpha_down cot_alpha_up B_berm db gamma_f gamma_beta use_best_fit ;;
  ksi_mm10 <- calculate_Iribarren_number_ksi Hm0 Tmm10 cot_alpha ;;
  gamma_f_adj <- ArrRunupTAW2002.calculate_adjusted_influence_roughness_gamma_f gamma_f #1 ksi_mm10 ;;
  q_diml <- q_diml_max_equation Hm0 Rc gamma_beta gamma_f_adj (float OvertoppingEurotop2018.gamma_star_default) c2 c3 ;;
  check_validity_range_rubble_mound cot_alpha ;;
  ret q_diml.

(** eurotop2018.py:795-880 *)
Definition calculate_overtopping_discharge_q_rubble_mound
    (Hm0 Tmm10 Rc beta gamma_beta gamma_f B_berm db cot_alpha cot_alpha_down cot_alpha_up : nums) (c2 c3 : num)
    (use_best_fit : bool) (g : nums) : M nums :=
  q_diml <- calculate_dimensionless_overtopping_discharge_q_rubble_mound Hm0 Tmm10 Rc beta gamma_beta gamma_f
              B_berm db cot_alpha cot_alpha_down cot_alpha_up c2 c3 use_best_fit ;;
  q_diml * asqrt (g * apow Hm0 #3).

(** eurotop2018.py:1094-1215 *)
Definition calculate_dimensionless_crest_freeboard_rubble_mound
    (Hm0 Tmm10 q beta gamma_beta gamma_f B_berm db cot_alpha cot_alpha_down cot_alpha_up : nums) (c2 c3 : num)
    (use_best_fit : bool) (g : nums) : M nums :=
  let '(_, c2, c3, _) := OvertoppingEurotop2018.check_best_fit NaN c2 c3 NaN use_best_fit in
  gamma_beta <- factor_beta beta gamma_beta gamma_f ;;
  cot_alpha <-
    slope Hm0 Tmm10 cot_alpha cot_alpha_down cot_alpha_up B_berm db gamma_f gamma_beta false ;;
  ksi_mm10 <- calculate_Iribarren_number_ksi Hm0 Tmm10 cot_alpha ;;
  gamma_f_adj <- ArrRunupTAW2002.calculate_adjusted_influence_roughness_gamma_f gamma_f #1 ksi_mm10 ;;
  Rc_diml <- Rc_diml_max_equation Hm0 q gamma_beta gamma_f_adj (float OvertoppingEurotop2018.gamma_star_default) c2 c3 g ;;
  check_validity_range_rubble_mound cot_alpha ;;
  ret Rc_diml.

(** eurotop2018.py:1004-1091 *)
Definition calculate_crest_freeboard_Rc_rubble_mound
    (Hm0 Tmm10 q beta gamma_beta gamma_f B_berm db cot_alpha cot_alpha_down cot_alpha_up : nums) (c2 c3 : num)
    (use_best_fit : bool) (g : nums) : M nums :=
  Rc_diml <- calculate_dimensionless_crest_freeboard_rubble_mound Hm0 Tmm10 q beta gamma_beta gamma_f
               B_berm db cot_alpha cot_alpha_down cot_alpha_up c2 c3 use_best_fit g ;;
  Rc_diml * Hm0.
