(** Model of functions/hydraulic/wave_runup/eurotop2018.py, for scalar
    arguments. *)
From Coq Require Import Reals String List Bool.
From Verif.Lib Require Import Num Monad.
From Verif.Model Require Import CoreUtility CorePhysics.
From Verif.Model Require RunupTAW2002.
Open Scope num_scope.

(** eurotop2018.py:209-240 *)
Definition check_best_fit (c1 c2 c3 c4 : num) (use_best_fit : bool) : num * num * num * num :=
  if use_best_fit then (#1.65, #4, #1.5, #1) else (c1, c2, c3, c4).

(** eurotop2018.py:243-290; a missing gamma_f compares as rough. *)
Definition calculate_influence_oblique_waves_gamma_beta
    (beta gamma_f gamma_f_crit c_gamma_beta_smooth c_gamma_beta_rough max_angle : num) : num :=
  let c_gamma_beta := if gamma_f >? gamma_f_crit then c_gamma_beta_smooth else c_gamma_beta_rough in
  RunupTAW2002.calculate_influence_oblique_waves_gamma_beta beta c_gamma_beta max_angle.
(** Defaults, lines 246-249. *)
Definition gamma_f_crit_default : num := #0.6.
Definition c_gamma_beta_smooth_default : num := #0.0022.
Definition c_gamma_beta_rough_default : num := #0.0063.
Definition max_angle_default : num := #80.

(** eurotop2018.py:104-206.  The gamma_beta of the caller is overwritten at line
    182; neither beta nor use_best_fit is passed on. *)
Definition calculate_dimensionless_wave_runup_height_z2p
    (Hm0 Tmm10 beta gamma_beta gamma_b gamma_f B_berm db cot_alpha cot_alpha_down cot_alpha_up c1 c2 c3 c4 : num)
    (use_best_fit : bool) : M (num * bool) :=
  let '(c1, c2, c3, c4) := check_best_fit c1 c2 c3 c4 use_best_fit in
  let gamma_beta :=
    calculate_influence_oblique_waves_gamma_beta beta gamma_f gamma_f_crit_default
      c_gamma_beta_smooth_default c_gamma_beta_rough_default max_angle_default in
  RunupTAW2002.calculate_dimensionless_wave_runup_height_z2p
    Hm0 Tmm10 NaN gamma_beta gamma_b gamma_f B_berm db cot_alpha cot_alpha_down cot_alpha_up c1 c2 c3 c4 false.

(** eurotop2018.py:8-101 *)
Definition calculate_wave_runup_height_z2p
    (Hm0 Tmm10 beta gamma_beta gamma_b gamma_f B_berm db cot_alpha cot_alpha_down cot_alpha_up c1 c2 c3 c4 : num)
    (use_best_fit : bool) : M (num * bool) :=
  '(z2p_diml, max_reached) <-
    calculate_dimensionless_wave_runup_height_z2p Hm0 Tmm10 beta gamma_beta gamma_b gamma_f B_berm db
      cot_alpha cot_alpha_down cot_alpha_up c1 c2 c3 c4 use_best_fit ;;
  ret (z2p_diml * Hm0, max_reached).

(** Defaults of c1 to c4, lines 20-23, 116-119, 302-305 and 388-391. *)
Definition c1_default : num := #1.75.
Definition c2_default : num := #4.3.
Definition c3_default : num := #1.5.
Definition c4_default : num := #1.07.

(** eurotop2018.py:293-377 *)
Definition iteration_procedure_z2p
    (Hm0 Tmm10 cot_alpha_down cot_alpha_up B_berm db gamma_f gamma_beta c1 c2 c3 c4 : num) (use_best_fit : bool)
    (tolerance : num) (max_iter : nat) : M num :=
  let '(c1, c2, c3, c4) := check_best_fit c1 c2 c3 c4 use_best_fit in
  RunupTAW2002.iteration_procedure_z2p Hm0 Tmm10 cot_alpha_down cot_alpha_up B_berm db gamma_f gamma_beta
    c1 c2 c3 c4 use_best_fit tolerance max_iter.
(** Defaults of tolerance and max_iter, lines 307-308. *)
Definition tolerance_default : num := #0.0001.
Definition max_iter_default : nat := 1000.

(** eurotop2018.py:380-456 *)
Definition iteration_procedure_gamma_b
    (Hm0 Tmm10 cot_alpha_average B_berm L_berm db gamma_beta c1 c2 c3 c4 : num) (use_best_fit : bool)
    (gamma_f : num) : M num :=
  let '(c1, c2, c3, c4) := check_best_fit c1 c2 c3 c4 use_best_fit in
  RunupTAW2002.iteration_procedure_gamma_b Hm0 Tmm10 cot_alpha_average B_berm L_berm db gamma_beta
    c1 c2 c3 c4 use_best_fit gamma_f.
