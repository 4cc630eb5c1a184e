(** Model of functions/hydraulic/wave_runup/eurotop2018.py for arrays with one axis.
    The coefficients are numbers, as in the signatures. *)
From Coq Require Import Reals String List Bool.
From Verif.Lib Require Import Num Monad Arr ArrFlags ArrLoop.
From Verif.Model Require RunupTAW2002 RunupEurotop2018.
From Verif.Model Require Import ArrCore.
From Verif.Model Require ArrRunupTAW2002.
Open Scope arr_scope.

(** eurotop2018.py:243-290; the [if] of line 277 looks at the truth of the whole
    comparison. *)
Definition calculate_influence_oblique_waves_gamma_beta
    (beta gamma_f : nums) (gamma_f_crit c_gamma_beta_smooth c_gamma_beta_rough max_angle : num) : M nums :=
  smooth <- holds (gamma_f >? float gamma_f_crit) ;;
  let c_gamma_beta := if smooth : bool then c_gamma_beta_smooth else c_gamma_beta_rough in
  ArrRunupTAW2002.calculate_influence_oblique_waves_gamma_beta beta c_gamma_beta max_angle.

(** eurotop2018.py:104-206.  The gamma_beta of the caller is overwritten at line
    182; neither beta nor use_best_fit is passed on. *)
Definition calculate_dimensionless_wave_runup_height_z2p
    (Hm0 Tmm10 beta gamma_beta gamma_b gamma_f B_berm db cot_alpha cot_alpha_down cot_alpha_up : nums) (c1 c2 c3 c4 : num)
    (use_best_fit : bool) : M (nums * arr bool) :=
  let '(c1, c2, c3, c4) := RunupEurotop2018.check_best_fit c1 c2 c3 c4 use_best_fit in
  gamma_beta <-
    calculate_influence_oblique_waves_gamma_beta beta gamma_f RunupEurotop2018.gamma_f_crit_default
      RunupEurotop2018.c_gamma_beta_smooth_default RunupEurotop2018.c_gamma_beta_rough_default
      RunupEurotop2018.max_angle_default ;;
  ArrRunupTAW2002.calculate_dimensionless_wave_runup_height_z2p
    Hm0 Tmm10 anan gamma_beta gamma_b gamma_f B_berm db cot_alpha cot_alpha_down cot_alpha_up c1 c2 c3 c4 false.

(** eurotop2018.py:8-101 *)
Definition calculate_wave_runup_height_z2p
    (Hm0 Tmm10 beta gamma_beta gamma_b gamma_f B_berm db cot_alpha cot_alpha_down cot_alpha_up : nums) (c1 c2 c3 c4 : num)
    (use_best_fit : bool) : M (nums * arr bool) :=
  diml <-
    calculate_dimensionless_wave_runup_height_z2p Hm0 Tmm10 beta gamma_beta gamma_b gamma_f B_berm db
      cot_alpha cot_alpha_down cot_alpha_up c1 c2 c3 c4 use_best_fit ;;
  z2p <- fst diml * Hm0 ;;
  ret (z2p, snd diml).

(** eurotop2018.py:293-377 *)
Definition iteration_procedure_z2p
    (Hm0 Tmm10 cot_alpha_down cot_alpha_up B_berm db gamma_f gamma_beta : nums) (c1 c2 c3 c4 : num) (use_best_fit : bool)
    (tolerance : num) (max_iter : nat) : M nums :=
  let '(c1, c2, c3, c4) := RunupEurotop2018.check_best_fit c1 c2 c3 c4 use_best_fit in
  ArrRunupTAW2002.iteration_procedure_z2p Hm0 Tmm10 cot_alpha_down cot_alpha_up B_berm db gamma_f gamma_beta
    c1 c2 c3 c4 use_best_fit tolerance max_iter.

(** eurotop2018.py:380-456 *)
Definition iteration_procedure_gamma_b
    (Hm0 Tmm10 cot_alpha_average B_berm L_berm db gamma_beta : nums) (c1 c2 c3 c4 : num) (use_best_fit : bool)
    (gamma_f : nums) : M nums :=
  let '(c1, c2, c3, c4) := RunupEurotop2018.check_best_fit c1 c2 c3 c4 use_best_fit in
  ArrRunupTAW2002.iteration_procedure_gamma_b Hm0 Tmm10 cot_alpha_average B_berm L_berm db gamma_beta
    c1 c2 c3 c4 use_best_fit gamma_f.
