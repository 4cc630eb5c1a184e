(** A missing number does not turn into a number: overtopping. *)
From Coq Require Import Reals Lra List Bool String ZArith.
From Verif.Lib Require Import Num Monad RTac NTac.
From Verif.Spec Require Import Missing.
From Verif.Proofs Require Import Missing.
From Verif.Model Require CoreUtility CorePhysics DeRidder2024 DeRidder2026 Numpy OvertoppingEurotop2007 OvertoppingEurotop2018 OvertoppingTAW2002 RunupEurotop2018 RunupTAW2002 VanGent2025.
Import ListNotations.
Open Scope R_scope.

(** * C83 *)
(** Overtopping: De Ridder et al. (2024); the gravity of the first freeboard is not used. *)
Theorem C83_deridder2024 :
  (forall Hm0 smm10_HF gamma_f q g, missing [Hm0; smm10_HF; gamma_f; q; g] -> no_number (DeRidder2024.calculate_dimensionless_crest_freeboard_discharge_q_eq24 Hm0 smm10_HF gamma_f q g)) /\
  (forall Hm0 smm10_HF gamma_f q g, missing [Hm0; smm10_HF; gamma_f; q] -> no_number (DeRidder2024.calculate_crest_freeboard_discharge_q_eq24 Hm0 smm10_HF gamma_f q g)) /\
  (forall Hm0 smm10_HF Hm0_LF gamma_f q g, missing [Hm0; smm10_HF; Hm0_LF; gamma_f; q; g] -> no_number (DeRidder2024.calculate_crest_freeboard_discharge_q_eq26 Hm0 smm10_HF Hm0_LF gamma_f q g)) /\
  (forall Hm0 smm10_HF gamma_f Rc, missing [Hm0; smm10_HF; gamma_f; Rc] -> no_number (DeRidder2024.calculate_dimensionless_overtopping_discharge_eq24 Hm0 smm10_HF gamma_f Rc)) /\
  (forall Hm0 smm10_HF gamma_f Rc g, missing [Hm0; smm10_HF; gamma_f; Rc; g] -> no_number (DeRidder2024.calculate_overtopping_discharge_q_eq24 Hm0 smm10_HF gamma_f Rc g)) /\
  (forall Hm0 smm10_HF Hm0_LF gamma_f Rc, missing [Hm0; smm10_HF; Hm0_LF; gamma_f; Rc] -> no_number (DeRidder2024.calculate_dimensionless_overtopping_discharge_eq26 Hm0 smm10_HF Hm0_LF gamma_f Rc)) /\
  (forall Hm0 smm10_HF Hm0_LF gamma_f Rc g, missing [Hm0; smm10_HF; Hm0_LF; gamma_f; Rc; g] -> no_number (DeRidder2024.calculate_overtopping_discharge_q_eq26 Hm0 smm10_HF Hm0_LF gamma_f Rc g)).
Proof.
  repeat apply conj; missing;
    cbv beta delta [CorePhysics.calculate_wave_steepness_s CorePhysics.calculate_Iribarren_number_ksi
      CorePhysics.calculate_critical_Iribarren_number_ksi_mc CorePhysics.calculate_buoyant_density_Delta CorePhysics.calculate_stability_number_Ns
      CorePhysics.calculate_M50_from_Dn50 CorePhysics.calculate_Dn50_from_M50 CorePhysics.check_usage_Dn50_or_M50 CorePhysics.calculate_S_from_Nod
      CorePhysics.calculate_Nod_from_S CorePhysics.g_default CorePhysics.local_wavelength CorePhysics.two_pi CorePhysics.check_usage_stabilitynumber
      Numpy.deg2rad DeRidder2024.period_HF DeRidder2024.calculate_dimensionless_crest_freeboard_discharge_q_eq24
      DeRidder2024.calculate_crest_freeboard_discharge_q_eq24 DeRidder2024.calculate_crest_freeboard_discharge_q_eq26
      DeRidder2024.calculate_dimensionless_overtopping_discharge_eq24 DeRidder2024.calculate_overtopping_discharge_q_eq24
      DeRidder2024.calculate_dimensionless_overtopping_discharge_eq26 DeRidder2024.calculate_overtopping_discharge_q_eq26]; nanrun.
Qed.

(** Overtopping: De Ridder et al. (2026). *)
Theorem C83_deridder2026 :
  (forall theta, missing [theta] -> no_number (DeRidder2026.calculate_gamma_beta theta)) /\
  (forall Hm0 smm10_HF gamma_f q g gamma_beta, missing [Hm0; smm10_HF; gamma_f; q; g; gamma_beta] -> no_number (DeRidder2026.calculate_dimensionless_crest_freeboard_discharge_q_eq28 Hm0 smm10_HF gamma_f q g gamma_beta)) /\
  (forall Hm0 smm10_HF gamma_f q g theta, missing [Hm0; smm10_HF; gamma_f; q; g; theta] -> no_number (DeRidder2026.calculate_crest_freeboard_discharge_q_eq28 Hm0 smm10_HF gamma_f q g theta)) /\
  (forall Hm0_HF smm10_HF Hm0_LF gamma_f q g theta, missing [Hm0_HF; smm10_HF; Hm0_LF; gamma_f; q; g; theta] -> no_number (DeRidder2026.calculate_crest_freeboard_discharge_q_eq32 Hm0_HF smm10_HF Hm0_LF gamma_f q g theta)) /\
  (forall Hm0 smm10_HF gamma_f Rc theta, missing [Hm0; smm10_HF; gamma_f; Rc; theta] -> no_number (DeRidder2026.calculate_dimensionless_overtopping_discharge_eq28 Hm0 smm10_HF gamma_f Rc theta)) /\
  (forall Hm0 smm10_HF gamma_f Rc g theta, missing [Hm0; smm10_HF; gamma_f; Rc; g; theta] -> no_number (DeRidder2026.calculate_overtopping_discharge_q_eq28 Hm0 smm10_HF gamma_f Rc g theta)) /\
  (forall Hm0_HF smm10_HF Hm0_LF gamma_f Rc theta, missing [Hm0_HF; smm10_HF; Hm0_LF; gamma_f; Rc; theta] -> no_number (DeRidder2026.calculate_dimensionless_overtopping_discharge_eq32 Hm0_HF smm10_HF Hm0_LF gamma_f Rc theta)) /\
  (forall Hm0_HF smm10_HF Hm0_LF gamma_f Rc g theta, missing [Hm0_HF; smm10_HF; Hm0_LF; gamma_f; Rc; g; theta] -> no_number (DeRidder2026.calculate_overtopping_discharge_q_eq32 Hm0_HF smm10_HF Hm0_LF gamma_f Rc g theta)).
Proof.
  repeat apply conj; missing;
    cbv beta delta [CorePhysics.calculate_wave_steepness_s CorePhysics.calculate_Iribarren_number_ksi
      CorePhysics.calculate_critical_Iribarren_number_ksi_mc CorePhysics.calculate_buoyant_density_Delta CorePhysics.calculate_stability_number_Ns
      CorePhysics.calculate_M50_from_Dn50 CorePhysics.calculate_Dn50_from_M50 CorePhysics.check_usage_Dn50_or_M50 CorePhysics.calculate_S_from_Nod
      CorePhysics.calculate_Nod_from_S CorePhysics.g_default CorePhysics.local_wavelength CorePhysics.two_pi CorePhysics.check_usage_stabilitynumber
      Numpy.deg2rad DeRidder2026.period_HF DeRidder2026.calculate_gamma_beta DeRidder2026.calculate_dimensionless_crest_freeboard_discharge_q_eq28
      DeRidder2026.calculate_crest_freeboard_discharge_q_eq28 DeRidder2026.calculate_crest_freeboard_discharge_q_eq32
      DeRidder2026.calculate_dimensionless_overtopping_discharge_eq28 DeRidder2026.calculate_overtopping_discharge_q_eq28
      DeRidder2026.calculate_dimensionless_overtopping_discharge_eq32 DeRidder2026.calculate_overtopping_discharge_q_eq32 DeRidder2026.theta_default];
      nanrun.
Qed.

(** Overtopping: EurOtop (2018). *)
Theorem C83_eurotop2018 :
  (forall beta gamma_f gamma_f_crit c_gamma_beta_smooth c_gamma_beta_rough max_angle, missing [beta] -> no_number (OvertoppingEurotop2018.calculate_influence_oblique_waves_gamma_beta beta gamma_f gamma_f_crit c_gamma_beta_smooth c_gamma_beta_rough max_angle)) /\
  (forall Hm0 Tmm10 Rc beta gamma_beta gamma_b gamma_f gamma_v gamma_star B_berm db cot_alpha cot_alpha_down cot_alpha_up c1 c2 c3 c4 use_best_fit, missing [Hm0; Tmm10; Rc; gamma_f; gamma_v; gamma_star] -> no_number (OvertoppingEurotop2018.calculate_dimensionless_overtopping_discharge_q Hm0 Tmm10 Rc beta gamma_beta gamma_b gamma_f gamma_v gamma_star B_berm db cot_alpha cot_alpha_down cot_alpha_up c1 c2 c3 c4 use_best_fit)) /\
  (forall Hm0 Tmm10 Rc beta gamma_beta gamma_b gamma_f gamma_v gamma_star B_berm db cot_alpha cot_alpha_down cot_alpha_up c1 c2 c3 c4 use_best_fit g, missing [Hm0; Tmm10; Rc; gamma_f; gamma_v; gamma_star; g] -> no_number (OvertoppingEurotop2018.calculate_overtopping_discharge_q Hm0 Tmm10 Rc beta gamma_beta gamma_b gamma_f gamma_v gamma_star B_berm db cot_alpha cot_alpha_down cot_alpha_up c1 c2 c3 c4 use_best_fit g)) /\
  (forall Hm0 Tmm10 q beta gamma_beta gamma_b gamma_f gamma_v gamma_star B_berm db cot_alpha cot_alpha_down cot_alpha_up c1 c2 c3 c4 use_best_fit g, missing [Hm0; Tmm10; q; gamma_f; gamma_v; gamma_star; g] -> no_number (OvertoppingEurotop2018.calculate_dimensionless_crest_freeboard Hm0 Tmm10 q beta gamma_beta gamma_b gamma_f gamma_v gamma_star B_berm db cot_alpha cot_alpha_down cot_alpha_up c1 c2 c3 c4 use_best_fit g)) /\
  (forall Hm0 Tmm10 q beta gamma_beta gamma_b gamma_f gamma_v gamma_star B_berm db cot_alpha cot_alpha_down cot_alpha_up c1 c2 c3 c4 use_best_fit g, missing [Hm0; Tmm10; q; gamma_f; gamma_v; gamma_star; g] -> no_number (OvertoppingEurotop2018.calculate_crest_freeboard_Rc Hm0 Tmm10 q beta gamma_beta gamma_b gamma_f gamma_v gamma_star B_berm db cot_alpha cot_alpha_down cot_alpha_up c1 c2 c3 c4 use_best_fit g)) /\
  (forall Hm0 Tmm10 Rc beta gamma_beta gamma_f B_berm db cot_alpha cot_alpha_down cot_alpha_up c2 c3 use_best_fit, missing [Hm0; Rc; gamma_f] -> no_number (OvertoppingEurotop2018.calculate_dimensionless_overtopping_discharge_q_rubble_mound Hm0 Tmm10 Rc beta gamma_beta gamma_f B_berm db cot_alpha cot_alpha_down cot_alpha_up c2 c3 use_best_fit)) /\
  (forall Hm0 Tmm10 Rc beta gamma_beta gamma_f B_berm db cot_alpha cot_alpha_down cot_alpha_up c2 c3 use_best_fit g, missing [Hm0; Rc; gamma_f; g] -> no_number (OvertoppingEurotop2018.calculate_overtopping_discharge_q_rubble_mound Hm0 Tmm10 Rc beta gamma_beta gamma_f B_berm db cot_alpha cot_alpha_down cot_alpha_up c2 c3 use_best_fit g)) /\
  (forall Hm0 Tmm10 q beta gamma_beta gamma_f B_berm db cot_alpha cot_alpha_down cot_alpha_up c2 c3 use_best_fit g, missing [Hm0; q; gamma_f; g] -> no_number (OvertoppingEurotop2018.calculate_dimensionless_crest_freeboard_rubble_mound Hm0 Tmm10 q beta gamma_beta gamma_f B_berm db cot_alpha cot_alpha_down cot_alpha_up c2 c3 use_best_fit g)) /\
  (forall Hm0 Tmm10 q beta gamma_beta gamma_f B_berm db cot_alpha cot_alpha_down cot_alpha_up c2 c3 use_best_fit g, missing [Hm0; q; gamma_f; g] -> no_number (OvertoppingEurotop2018.calculate_crest_freeboard_Rc_rubble_mound Hm0 Tmm10 q beta gamma_beta gamma_f B_berm db cot_alpha cot_alpha_down cot_alpha_up c2 c3 use_best_fit g)).
Proof.
  repeat apply conj; missing;
    cbv beta delta [CorePhysics.calculate_wave_steepness_s CorePhysics.calculate_Iribarren_number_ksi
      CorePhysics.calculate_critical_Iribarren_number_ksi_mc CorePhysics.calculate_buoyant_density_Delta CorePhysics.calculate_stability_number_Ns
      CorePhysics.calculate_M50_from_Dn50 CorePhysics.calculate_Dn50_from_M50 CorePhysics.calculate_S_from_Nod CorePhysics.calculate_Nod_from_S
      CorePhysics.g_default CorePhysics.local_wavelength CorePhysics.two_pi Numpy.deg2rad OvertoppingEurotop2018.q_diml_max_equation
      OvertoppingEurotop2018.check_best_fit OvertoppingEurotop2018.c1_default OvertoppingEurotop2018.c2_default OvertoppingEurotop2018.c3_default
      OvertoppingEurotop2018.c4_default OvertoppingEurotop2018.gamma_star_default OvertoppingEurotop2018.calculate_influence_oblique_waves_gamma_beta
      OvertoppingEurotop2018.gamma_f_crit_default OvertoppingEurotop2018.c_gamma_beta_smooth_default OvertoppingEurotop2018.c_gamma_beta_rough_default
      OvertoppingEurotop2018.max_angle_default OvertoppingEurotop2018.berm_and_roughness
      OvertoppingEurotop2018.calculate_dimensionless_overtopping_discharge_q OvertoppingEurotop2018.calculate_overtopping_discharge_q
      OvertoppingEurotop2018.Rc_diml_max_equation OvertoppingEurotop2018.calculate_dimensionless_crest_freeboard
      OvertoppingEurotop2018.calculate_crest_freeboard_Rc OvertoppingEurotop2018.calculate_dimensionless_overtopping_discharge_q_rubble_mound
      OvertoppingEurotop2018.calculate_overtopping_discharge_q_rubble_mound
      OvertoppingEurotop2018.calculate_dimensionless_crest_freeboard_rubble_mound OvertoppingEurotop2018.calculate_crest_freeboard_Rc_rubble_mound
      RunupTAW2002.calculate_influence_oblique_waves_gamma_beta RunupTAW2002.c_gamma_beta_default RunupTAW2002.max_angle_default
      RunupTAW2002.calculate_adjusted_influence_roughness_gamma_f RunupTAW2002.best_fit_coefficients RunupTAW2002.c1_default RunupTAW2002.c2_default
      RunupTAW2002.c3_default RunupTAW2002.c4_default RunupTAW2002.tolerance_default RunupTAW2002.max_iter_default RunupTAW2002.depth_limit
      RunupEurotop2018.check_best_fit RunupEurotop2018.calculate_influence_oblique_waves_gamma_beta RunupEurotop2018.gamma_f_crit_default
      RunupEurotop2018.c_gamma_beta_smooth_default RunupEurotop2018.c_gamma_beta_rough_default RunupEurotop2018.max_angle_default
      RunupEurotop2018.c1_default RunupEurotop2018.c2_default RunupEurotop2018.c3_default RunupEurotop2018.c4_default
      RunupEurotop2018.tolerance_default RunupEurotop2018.max_iter_default]; nanrun.
Qed.

(** Overtopping: EurOtop (2007). *)
Theorem C83_eurotop2007 :
  (forall Hm0 Tmm10 Rc beta gamma_beta gamma_f cot_alpha c2 c3 use_best_fit, missing [Hm0; Rc; gamma_f] -> no_number (OvertoppingEurotop2007.calculate_dimensionless_overtopping_discharge_q_rubble_mound Hm0 Tmm10 Rc beta gamma_beta gamma_f cot_alpha c2 c3 use_best_fit)) /\
  (forall Hm0 Tmm10 Rc beta gamma_beta gamma_f cot_alpha c2 c3 use_best_fit g, missing [Hm0; Rc; gamma_f; g] -> no_number (OvertoppingEurotop2007.calculate_overtopping_discharge_q_rubble_mound Hm0 Tmm10 Rc beta gamma_beta gamma_f cot_alpha c2 c3 use_best_fit g)) /\
  (forall Hm0 Tmm10 q beta gamma_beta gamma_f cot_alpha c2 c3 use_best_fit, missing [Hm0; q; gamma_f] -> no_number (OvertoppingEurotop2007.calculate_dimensionless_crest_freeboard_rubble_mound Hm0 Tmm10 q beta gamma_beta gamma_f cot_alpha c2 c3 use_best_fit)) /\
  (forall Hm0 Tmm10 q beta gamma_beta gamma_f cot_alpha c2 c3 use_best_fit, missing [Hm0; q; gamma_f] -> no_number (OvertoppingEurotop2007.calculate_crest_freeboard_Rc_rubble_mound Hm0 Tmm10 q beta gamma_beta gamma_f cot_alpha c2 c3 use_best_fit)).
Proof.
  repeat apply conj; missing;
    cbv beta delta [CorePhysics.calculate_wave_steepness_s CorePhysics.calculate_Iribarren_number_ksi
      CorePhysics.calculate_critical_Iribarren_number_ksi_mc CorePhysics.calculate_buoyant_density_Delta CorePhysics.calculate_stability_number_Ns
      CorePhysics.calculate_M50_from_Dn50 CorePhysics.calculate_Dn50_from_M50 CorePhysics.calculate_S_from_Nod CorePhysics.calculate_Nod_from_S
      CorePhysics.g_default CorePhysics.local_wavelength CorePhysics.two_pi Numpy.deg2rad OvertoppingEurotop2007.check_best_fit
      OvertoppingEurotop2007.c2_default OvertoppingEurotop2007.c3_default OvertoppingEurotop2007.influence_factors
      OvertoppingEurotop2007.calculate_dimensionless_overtopping_discharge_q_rubble_mound
      OvertoppingEurotop2007.calculate_overtopping_discharge_q_rubble_mound
      OvertoppingEurotop2007.calculate_dimensionless_crest_freeboard_rubble_mound OvertoppingEurotop2007.calculate_crest_freeboard_Rc_rubble_mound
      OvertoppingTAW2002.q_diml_max_equation OvertoppingTAW2002.cor3_default OvertoppingTAW2002.c2_default
      OvertoppingTAW2002.calculate_influence_oblique_waves_gamma_beta OvertoppingTAW2002.c_gamma_beta_default OvertoppingTAW2002.max_angle_default
      OvertoppingTAW2002.coefficients OvertoppingTAW2002.sigma_warning OvertoppingTAW2002.corrections OvertoppingTAW2002.influence_factors
      OvertoppingTAW2002.calculate_dimensionless_overtopping_discharge_q OvertoppingTAW2002.calculate_overtopping_discharge_q
      OvertoppingTAW2002.Rc_diml_max_equation OvertoppingTAW2002.calculate_dimensionless_crest_freeboard
      OvertoppingTAW2002.calculate_crest_freeboard_Rc RunupTAW2002.calculate_influence_oblique_waves_gamma_beta RunupTAW2002.c_gamma_beta_default
      RunupTAW2002.max_angle_default RunupTAW2002.calculate_adjusted_influence_roughness_gamma_f RunupTAW2002.best_fit_coefficients
      RunupTAW2002.c1_default RunupTAW2002.c2_default RunupTAW2002.c3_default RunupTAW2002.c4_default RunupTAW2002.tolerance_default
      RunupTAW2002.max_iter_default RunupTAW2002.depth_limit]; nanrun.
Qed.

(** Overtopping: Van Gent et al. (2025). *)
Theorem C83_vangent2025 :
  (forall Dn50 Hm0 smm10, missing [Dn50; Hm0; smm10] -> no_number (VanGent2025.calculate_influence_friction_gamma_f Dn50 Hm0 smm10)) /\
  (forall Hm0 smm10 Ac B_berm BL, missing [Hm0; smm10; Ac; B_berm; BL] -> no_number (VanGent2025.calculate_influence_berm_gamma_b Hm0 smm10 Ac B_berm BL)) /\
  (forall cot_alpha Rc Ac, missing [cot_alpha; Rc; Ac] -> no_number (VanGent2025.calculate_influence_crest_wall_gamma_v cot_alpha Rc Ac)) /\
  (forall Rc Ac Hm0 q_diml, missing [Rc; Ac; Hm0; q_diml] -> no_number (VanGent2025.calculate_influence_wind_gamma_w Rc Ac Hm0 q_diml)) /\
  (forall Hm0 Hm0_swell Tmm10 Rc Ac cot_alpha beta B_berm db Dn50 gamma_f gamma_b gamma_v gamma_beta design_calculation include_influence_wind, missing [Hm0; Hm0_swell; Tmm10; Rc; cot_alpha; gamma_v] -> no_number (VanGent2025.calculate_dimensionless_overtopping_discharge_q Hm0 Hm0_swell Tmm10 Rc Ac cot_alpha beta B_berm db Dn50 gamma_f gamma_b gamma_v gamma_beta design_calculation include_influence_wind)) /\
  (forall Hm0 Hm0_swell Tmm10 Rc Ac cot_alpha beta B_berm db Dn50 gamma_f gamma_b gamma_v gamma_beta g design_calculation include_influence_wind, missing [Hm0; Hm0_swell; Tmm10; Rc; cot_alpha; gamma_v; g] -> no_number (VanGent2025.calculate_overtopping_discharge_q Hm0 Hm0_swell Tmm10 Rc Ac cot_alpha beta B_berm db Dn50 gamma_f gamma_b gamma_v gamma_beta g design_calculation include_influence_wind)) /\
  (forall Hm0 Hm0_swell Tmm10 q Ac cot_alpha beta B_berm db Dn50 gamma_f gamma_b gamma_v gamma_beta g design_calculation include_influence_wind max_iter tolerance, missing [Hm0; Hm0_swell; Tmm10; q; cot_alpha; gamma_v] -> no_number (VanGent2025.calculate_dimensionless_crest_freeboard Hm0 Hm0_swell Tmm10 q Ac cot_alpha beta B_berm db Dn50 gamma_f gamma_b gamma_v gamma_beta g design_calculation include_influence_wind max_iter tolerance)) /\
  (forall Hm0 Hm0_swell Tmm10 q Ac cot_alpha beta B_berm db Dn50 gamma_f gamma_b gamma_v gamma_beta design_calculation include_influence_wind, missing [Hm0; Hm0_swell; Tmm10; q; cot_alpha; gamma_v] -> no_number (VanGent2025.calculate_crest_freeboard_Rc Hm0 Hm0_swell Tmm10 q Ac cot_alpha beta B_berm db Dn50 gamma_f gamma_b gamma_v gamma_beta design_calculation include_influence_wind)).
Proof.
  repeat apply conj; missing;
    cbv beta delta [CorePhysics.calculate_wave_steepness_s CorePhysics.calculate_Iribarren_number_ksi
      CorePhysics.calculate_critical_Iribarren_number_ksi_mc CorePhysics.calculate_buoyant_density_Delta CorePhysics.calculate_stability_number_Ns
      CorePhysics.calculate_M50_from_Dn50 CorePhysics.calculate_Dn50_from_M50 CorePhysics.check_usage_Dn50_or_M50 CorePhysics.calculate_S_from_Nod
      CorePhysics.calculate_Nod_from_S CorePhysics.g_default CorePhysics.local_wavelength CorePhysics.two_pi CorePhysics.check_usage_stabilitynumber
      Numpy.deg2rad VanGent2025.calculate_influence_friction_gamma_f VanGent2025.calculate_influence_berm_gamma_b
      VanGent2025.calculate_influence_oblique_waves_gamma_beta VanGent2025.calculate_influence_crest_wall_gamma_v
      VanGent2025.calculate_influence_wind_gamma_w VanGent2025.q_diml_max_equation VanGent2025.factor_beta VanGent2025.factor_b VanGent2025.factor_f
      VanGent2025.calculate_dimensionless_overtopping_discharge_q VanGent2025.calculate_overtopping_discharge_q VanGent2025.Rc_diml_max_equation
      VanGent2025.Rc_diml_equation VanGent2025.calculate_dimensionless_crest_freeboard VanGent2025.max_iter_default VanGent2025.tolerance_default
      VanGent2025.calculate_crest_freeboard_Rc VanGent2025.B_berm_default VanGent2025.db_default VanGent2025.gamma_v_default]; nanrun.
Qed.
