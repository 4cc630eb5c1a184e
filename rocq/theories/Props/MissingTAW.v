(** A missing number does not turn into a number: overtopping of TAW (2002). *)
From Coq Require Import Reals Lra List Bool String ZArith.
From Verif.Lib Require Import Num Monad RTac NTac.
From Verif.Spec Require Import Missing.
From Verif.Proofs Require Import Missing.
From Verif.Model Require CoreUtility CorePhysics Numpy OvertoppingTAW2002 RunupTAW2002.
Import ListNotations.
Open Scope R_scope.

(** * C83 *)
(** Overtopping: TAW (2002). *)
Theorem C83_taw :
  (forall beta c_gamma_beta max_angle, missing [beta; c_gamma_beta] -> no_number (OvertoppingTAW2002.calculate_influence_oblique_waves_gamma_beta beta c_gamma_beta max_angle)) /\
  (forall alpha_wall_deg, missing [alpha_wall_deg] -> no_number (OvertoppingTAW2002.calculate_influence_crest_wall_gamma_v alpha_wall_deg)) /\
  (forall Hm0 Tmm10 Rc cot_alpha cot_alpha_down cot_alpha_up beta B_berm db gamma_beta gamma_b gamma_f gamma_v sigma use_best_fit, missing [Hm0; Tmm10; Rc; gamma_f; gamma_v; sigma] -> no_number (OvertoppingTAW2002.calculate_dimensionless_overtopping_discharge_q Hm0 Tmm10 Rc cot_alpha cot_alpha_down cot_alpha_up beta B_berm db gamma_beta gamma_b gamma_f gamma_v sigma use_best_fit)) /\
  (forall Hm0 Tmm10 Rc cot_alpha cot_alpha_down cot_alpha_up beta B_berm db gamma_beta gamma_b gamma_f gamma_v sigma g use_best_fit, missing [Hm0; Tmm10; Rc; gamma_f; gamma_v; sigma; g] -> no_number (OvertoppingTAW2002.calculate_overtopping_discharge_q Hm0 Tmm10 Rc cot_alpha cot_alpha_down cot_alpha_up beta B_berm db gamma_beta gamma_b gamma_f gamma_v sigma g use_best_fit)) /\
  (forall Hm0 Tmm10 q cot_alpha cot_alpha_down cot_alpha_up beta B_berm db gamma_beta gamma_b gamma_f gamma_v sigma g use_best_fit, missing [Hm0; Tmm10; q; gamma_f; gamma_v; sigma; g] -> no_number (OvertoppingTAW2002.calculate_dimensionless_crest_freeboard Hm0 Tmm10 q cot_alpha cot_alpha_down cot_alpha_up beta B_berm db gamma_beta gamma_b gamma_f gamma_v sigma g use_best_fit)) /\
  (forall Hm0 Tmm10 q cot_alpha cot_alpha_down cot_alpha_up beta B_berm db gamma_beta gamma_b gamma_f gamma_v sigma g use_best_fit, missing [Hm0; Tmm10; q; gamma_f; gamma_v; sigma; g] -> no_number (OvertoppingTAW2002.calculate_crest_freeboard_Rc Hm0 Tmm10 q cot_alpha cot_alpha_down cot_alpha_up beta B_berm db gamma_beta gamma_b gamma_f gamma_v sigma g use_best_fit)).
Proof.
  repeat apply conj; missing;
    cbv beta delta [CorePhysics.calculate_wave_steepness_s CorePhysics.calculate_Iribarren_number_ksi
      CorePhysics.calculate_critical_Iribarren_number_ksi_mc CorePhysics.calculate_buoyant_density_Delta CorePhysics.calculate_stability_number_Ns
      CorePhysics.calculate_M50_from_Dn50 CorePhysics.calculate_Dn50_from_M50 CorePhysics.calculate_S_from_Nod CorePhysics.calculate_Nod_from_S
      CorePhysics.g_default CorePhysics.local_wavelength CorePhysics.two_pi Numpy.deg2rad OvertoppingTAW2002.q_diml_max_equation
      OvertoppingTAW2002.cor3_default OvertoppingTAW2002.c2_default OvertoppingTAW2002.calculate_influence_oblique_waves_gamma_beta
      OvertoppingTAW2002.c_gamma_beta_default OvertoppingTAW2002.max_angle_default OvertoppingTAW2002.calculate_influence_crest_wall_gamma_v
      OvertoppingTAW2002.coefficients OvertoppingTAW2002.sigma_warning OvertoppingTAW2002.corrections OvertoppingTAW2002.influence_factors
      OvertoppingTAW2002.calculate_dimensionless_overtopping_discharge_q OvertoppingTAW2002.calculate_overtopping_discharge_q
      OvertoppingTAW2002.Rc_diml_max_equation OvertoppingTAW2002.calculate_dimensionless_crest_freeboard
      OvertoppingTAW2002.calculate_crest_freeboard_Rc RunupTAW2002.calculate_influence_oblique_waves_gamma_beta RunupTAW2002.c_gamma_beta_default
      RunupTAW2002.max_angle_default RunupTAW2002.calculate_adjusted_influence_roughness_gamma_f RunupTAW2002.best_fit_coefficients
      RunupTAW2002.c1_default RunupTAW2002.c2_default RunupTAW2002.c3_default RunupTAW2002.c4_default RunupTAW2002.tolerance_default
      RunupTAW2002.max_iter_default RunupTAW2002.depth_limit]; nanrun.
Qed.
