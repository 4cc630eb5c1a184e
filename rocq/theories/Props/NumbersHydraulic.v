(** C84, hydraulic functions.  Every argument listed after [positives] is a positive
    number, every other number may have any sign; then the answer is a number,
    and a positive one where [positive] is stated. *)
From Coq Require Import Reals Lra List Bool String ZArith.
From Verif.Lib Require Import Num Monad RTac NTac.
From Verif.Spec Require Import Numbers.
From Verif.Proofs Require Import Numbers.
From Verif.Model Require CoreUtility CorePhysics Numpy VanGent2002Velocity VanGent2024Setup DAngremond1996 Briganti2003 DeRidder2024 DeRidder2026 VanGent2025 RunupTAW2002 RunupEurotop2018 OvertoppingTAW2002 CrestWall2019 VanGent2001.
Open Scope R_scope.

Theorem C84_vangent2002velocity :
  (forall (Hs uXp Rc Bc gamma_f gamma_f_Crest cu1 cu2 g : R),
     positives (Hs :: uXp :: Rc :: Bc :: gamma_f :: gamma_f_Crest :: cu1 :: cu2 :: g :: nil) ->
     number_with positive (VanGent2002Velocity.invert_for_zXp (Fin Hs) (Fin uXp) (Fin Rc) (Fin Bc) (Fin gamma_f) (Fin gamma_f_Crest) (Fin cu1) (Fin cu2) (Fin g))).
Proof.
  Ltac unfold_VanGent2002Velocity := cbv beta delta [CorePhysics.calculate_wave_steepness_s CorePhysics.calculate_Iribarren_number_ksi CorePhysics.calculate_critical_Iribarren_number_ksi_mc CorePhysics.calculate_buoyant_density_Delta CorePhysics.calculate_stability_number_Ns CorePhysics.calculate_M50_from_Dn50 CorePhysics.calculate_Dn50_from_M50 CorePhysics.check_usage_Dn50_or_M50 CorePhysics.calculate_S_from_Nod CorePhysics.calculate_Nod_from_S CorePhysics.g_default CorePhysics.local_wavelength CorePhysics.two_pi CorePhysics.check_usage_stabilitynumber Numpy.deg2rad VanGent2002Velocity.calculate_maximum_wave_overtopping_velocity_uXp VanGent2002Velocity.invert_for_zXp VanGent2002Velocity.cu1_default VanGent2002Velocity.cu2_default].
  intros; all_positive; unfold_VanGent2002Velocity; numrun.
Qed.

Theorem C84_vangent2024setup :
  (forall (Hm0 Tmm10 Rc : R),
     positives (Hm0 :: Tmm10 :: Rc :: nil) ->
     number_with positive (VanGent2024Setup.calculate_dimensionless_structure_induced_setup_impermeable (Fin Hm0) (Fin Tmm10) (Fin Rc)))
  /\ (forall (Hm0 Tmm10 Rc : R),
     positives (Hm0 :: Tmm10 :: Rc :: nil) ->
     number_with positive (VanGent2024Setup.calculate_structure_induced_setup_delta_impermeable (Fin Hm0) (Fin Tmm10) (Fin Rc)))
  /\ (forall (Hm0 Tmm10 Rc hc : R),
     positives (Hm0 :: Tmm10 :: Rc :: hc :: nil) ->
     number_with positive (VanGent2024Setup.calculate_dimensionless_structure_induced_setup_permeable (Fin Hm0) (Fin Tmm10) (Fin Rc) (Fin hc)))
  /\ (forall (Hm0 Tmm10 Rc hc : R),
     positives (Hm0 :: Tmm10 :: Rc :: hc :: nil) ->
     number_with positive (VanGent2024Setup.calculate_structure_induced_setup_delta_permeable (Fin Hm0) (Fin Tmm10) (Fin Rc) (Fin hc))).
Proof.
  Ltac unfold_VanGent2024Setup := cbv beta delta [CorePhysics.calculate_wave_steepness_s CorePhysics.calculate_Iribarren_number_ksi CorePhysics.calculate_critical_Iribarren_number_ksi_mc CorePhysics.calculate_buoyant_density_Delta CorePhysics.calculate_stability_number_Ns CorePhysics.calculate_M50_from_Dn50 CorePhysics.calculate_Dn50_from_M50 CorePhysics.check_usage_Dn50_or_M50 CorePhysics.calculate_S_from_Nod CorePhysics.calculate_Nod_from_S CorePhysics.g_default CorePhysics.local_wavelength CorePhysics.two_pi CorePhysics.check_usage_stabilitynumber Numpy.deg2rad VanGent2024Setup.calculate_dimensionless_structure_induced_setup_impermeable VanGent2024Setup.calculate_structure_induced_setup_delta_impermeable VanGent2024Setup.calculate_dimensionless_structure_induced_setup_permeable VanGent2024Setup.calculate_structure_induced_setup_delta_permeable].
  split; [intros; all_positive; unfold_VanGent2024Setup; numrun|].
  split; [intros; all_positive; unfold_VanGent2024Setup; numrun|].
  split; [intros; all_positive; unfold_VanGent2024Setup; numrun|].
  intros; all_positive; unfold_VanGent2024Setup; numrun.
Qed.

Theorem C84_dangremond1996 :
  (forall (do_validity_check : bool) (Hsi Tpi h B cot_alpha C1 Rc : R),
     positives (Hsi :: Tpi :: h :: B :: cot_alpha :: C1 :: nil) ->
     number_with positive (DAngremond1996.calculate_wave_transmission_Kt_permeable (Fin Hsi) (Fin Tpi) (Fin h) (Fin Rc) (Fin B) (Fin cot_alpha) (Fin C1) do_validity_check))
  /\ (forall (Hsi Tpi h B cot_alpha C1 Rc : R),
     positives (Hsi :: Tpi :: h :: B :: cot_alpha :: C1 :: nil) ->
     number_with positive (DAngremond1996.calculate_wave_transmission_Kt_impermeable (Fin Hsi) (Fin Tpi) (Fin h) (Fin Rc) (Fin B) (Fin cot_alpha) (Fin C1))).
Proof.
  Ltac unfold_DAngremond1996 := cbv beta delta [CorePhysics.calculate_wave_steepness_s CorePhysics.calculate_Iribarren_number_ksi CorePhysics.calculate_critical_Iribarren_number_ksi_mc CorePhysics.calculate_buoyant_density_Delta CorePhysics.calculate_stability_number_Ns CorePhysics.calculate_M50_from_Dn50 CorePhysics.calculate_Dn50_from_M50 CorePhysics.check_usage_Dn50_or_M50 CorePhysics.calculate_S_from_Nod CorePhysics.calculate_Nod_from_S CorePhysics.g_default CorePhysics.local_wavelength CorePhysics.two_pi CorePhysics.check_usage_stabilitynumber Numpy.deg2rad DAngremond1996.calculate_wave_transmission_Kt_permeable DAngremond1996.C1_permeable DAngremond1996.calculate_wave_transmission_Kt_impermeable DAngremond1996.C1_impermeable].
  split; [intros; all_positive; unfold_DAngremond1996; numrun|].
  intros; all_positive; unfold_DAngremond1996; numrun.
Qed.

Theorem C84_briganti2003 :
  (forall (Hsi Tpi B cot_alpha Rc : R),
     positives (Hsi :: Tpi :: B :: cot_alpha :: nil) ->
     number_with positive (Briganti2003.calculate_wave_transmission_Kt (Fin Hsi) (Fin Tpi) (Fin Rc) (Fin B) (Fin cot_alpha))).
Proof.
  Ltac unfold_Briganti2003 := cbv beta delta [CorePhysics.calculate_wave_steepness_s CorePhysics.calculate_Iribarren_number_ksi CorePhysics.calculate_critical_Iribarren_number_ksi_mc CorePhysics.calculate_buoyant_density_Delta CorePhysics.calculate_stability_number_Ns CorePhysics.calculate_M50_from_Dn50 CorePhysics.calculate_Dn50_from_M50 CorePhysics.check_usage_Dn50_or_M50 CorePhysics.calculate_S_from_Nod CorePhysics.calculate_Nod_from_S CorePhysics.g_default CorePhysics.local_wavelength CorePhysics.two_pi CorePhysics.check_usage_stabilitynumber Numpy.deg2rad Briganti2003.calculate_wave_transmission_Kt Briganti2003.calculate_wave_transmission_Kt_array DAngremond1996.calculate_wave_transmission_Kt_permeable DAngremond1996.C1_permeable DAngremond1996.calculate_wave_transmission_Kt_impermeable DAngremond1996.C1_impermeable].
  intros; all_positive; unfold_Briganti2003; numrun.
Qed.

Theorem C84_deridder2024 :
  (forall (Hm0 smm10_HF gamma_f q g : R),
     positives (Hm0 :: smm10_HF :: gamma_f :: q :: g :: nil) ->
     number_with any (DeRidder2024.calculate_dimensionless_crest_freeboard_discharge_q_eq24 (Fin Hm0) (Fin smm10_HF) (Fin gamma_f) (Fin q) (Fin g)))
  /\ (forall (Hm0 smm10_HF gamma_f q g : R),
     positives (Hm0 :: smm10_HF :: gamma_f :: q :: g :: nil) ->
     number_with any (DeRidder2024.calculate_crest_freeboard_discharge_q_eq24 (Fin Hm0) (Fin smm10_HF) (Fin gamma_f) (Fin q) (Fin g)))
  /\ (forall (Hm0 smm10_HF Hm0_LF gamma_f q g : R),
     positives (Hm0 :: smm10_HF :: Hm0_LF :: gamma_f :: q :: g :: nil) ->
     number_with any (DeRidder2024.calculate_crest_freeboard_discharge_q_eq26 (Fin Hm0) (Fin smm10_HF) (Fin Hm0_LF) (Fin gamma_f) (Fin q) (Fin g)))
  /\ (forall (Hm0 smm10_HF gamma_f Rc : R),
     positives (Hm0 :: smm10_HF :: gamma_f :: nil) ->
     number_with positive (DeRidder2024.calculate_dimensionless_overtopping_discharge_eq24 (Fin Hm0) (Fin smm10_HF) (Fin gamma_f) (Fin Rc)))
  /\ (forall (Hm0 smm10_HF gamma_f g Rc : R),
     positives (Hm0 :: smm10_HF :: gamma_f :: g :: nil) ->
     number_with positive (DeRidder2024.calculate_overtopping_discharge_q_eq24 (Fin Hm0) (Fin smm10_HF) (Fin gamma_f) (Fin Rc) (Fin g)))
  /\ (forall (Hm0 smm10_HF Hm0_LF gamma_f Rc : R),
     positives (Hm0 :: smm10_HF :: Hm0_LF :: gamma_f :: nil) ->
     number_with positive (DeRidder2024.calculate_dimensionless_overtopping_discharge_eq26 (Fin Hm0) (Fin smm10_HF) (Fin Hm0_LF) (Fin gamma_f) (Fin Rc)))
  /\ (forall (Hm0 smm10_HF Hm0_LF gamma_f g Rc : R),
     positives (Hm0 :: smm10_HF :: Hm0_LF :: gamma_f :: g :: nil) ->
     number_with positive (DeRidder2024.calculate_overtopping_discharge_q_eq26 (Fin Hm0) (Fin smm10_HF) (Fin Hm0_LF) (Fin gamma_f) (Fin Rc) (Fin g))).
Proof.
  Ltac unfold_DeRidder2024 := cbv beta delta [CorePhysics.calculate_wave_steepness_s CorePhysics.calculate_Iribarren_number_ksi CorePhysics.calculate_critical_Iribarren_number_ksi_mc CorePhysics.calculate_buoyant_density_Delta CorePhysics.calculate_stability_number_Ns CorePhysics.calculate_M50_from_Dn50 CorePhysics.calculate_Dn50_from_M50 CorePhysics.check_usage_Dn50_or_M50 CorePhysics.calculate_S_from_Nod CorePhysics.calculate_Nod_from_S CorePhysics.g_default CorePhysics.local_wavelength CorePhysics.two_pi CorePhysics.check_usage_stabilitynumber Numpy.deg2rad DeRidder2024.period_HF DeRidder2024.calculate_dimensionless_crest_freeboard_discharge_q_eq24 DeRidder2024.calculate_crest_freeboard_discharge_q_eq24 DeRidder2024.calculate_crest_freeboard_discharge_q_eq26 DeRidder2024.calculate_dimensionless_overtopping_discharge_eq24 DeRidder2024.calculate_overtopping_discharge_q_eq24 DeRidder2024.calculate_dimensionless_overtopping_discharge_eq26 DeRidder2024.calculate_overtopping_discharge_q_eq26].
  split; [intros; all_positive; unfold_DeRidder2024; numrun|].
  split; [intros; all_positive; unfold_DeRidder2024; numrun|].
  split; [intros; all_positive; unfold_DeRidder2024; numrun|].
  split; [intros; all_positive; unfold_DeRidder2024; numrun|].
  split; [intros; all_positive; unfold_DeRidder2024; numrun|].
  split; [intros; all_positive; unfold_DeRidder2024; numrun|].
  intros; all_positive; unfold_DeRidder2024; numrun.
Qed.

Theorem C84_deridder2026 :
  (forall (theta : R),
     positives (theta :: nil) ->
     number_with positive (DeRidder2026.calculate_gamma_beta (Fin theta)))
  /\ (forall (Hm0 smm10_HF gamma_f q g gamma_beta : R),
     positives (Hm0 :: smm10_HF :: gamma_f :: q :: g :: gamma_beta :: nil) ->
     number_with any (DeRidder2026.calculate_dimensionless_crest_freeboard_discharge_q_eq28 (Fin Hm0) (Fin smm10_HF) (Fin gamma_f) (Fin q) (Fin g) (Fin gamma_beta)))
  /\ (forall (Hm0 smm10_HF gamma_f q g theta : R),
     positives (Hm0 :: smm10_HF :: gamma_f :: q :: g :: theta :: nil) ->
     number_with any (DeRidder2026.calculate_crest_freeboard_discharge_q_eq28 (Fin Hm0) (Fin smm10_HF) (Fin gamma_f) (Fin q) (Fin g) (Fin theta)))
  /\ (forall (Hm0_HF smm10_HF Hm0_LF gamma_f q g theta : R),
     positives (Hm0_HF :: smm10_HF :: Hm0_LF :: gamma_f :: q :: g :: theta :: nil) ->
     number_with any (DeRidder2026.calculate_crest_freeboard_discharge_q_eq32 (Fin Hm0_HF) (Fin smm10_HF) (Fin Hm0_LF) (Fin gamma_f) (Fin q) (Fin g) (Fin theta)))
  /\ (forall (Hm0 smm10_HF gamma_f theta Rc : R),
     positives (Hm0 :: smm10_HF :: gamma_f :: theta :: nil) ->
     number_with positive (DeRidder2026.calculate_dimensionless_overtopping_discharge_eq28 (Fin Hm0) (Fin smm10_HF) (Fin gamma_f) (Fin Rc) (Fin theta)))
  /\ (forall (Hm0 smm10_HF gamma_f g theta Rc : R),
     positives (Hm0 :: smm10_HF :: gamma_f :: g :: theta :: nil) ->
     number_with positive (DeRidder2026.calculate_overtopping_discharge_q_eq28 (Fin Hm0) (Fin smm10_HF) (Fin gamma_f) (Fin Rc) (Fin g) (Fin theta)))
  /\ (forall (Hm0_HF smm10_HF Hm0_LF gamma_f theta Rc : R),
     positives (Hm0_HF :: smm10_HF :: Hm0_LF :: gamma_f :: theta :: nil) ->
     number_with positive (DeRidder2026.calculate_dimensionless_overtopping_discharge_eq32 (Fin Hm0_HF) (Fin smm10_HF) (Fin Hm0_LF) (Fin gamma_f) (Fin Rc) (Fin theta)))
  /\ (forall (Hm0_HF smm10_HF Hm0_LF gamma_f g theta Rc : R),
     positives (Hm0_HF :: smm10_HF :: Hm0_LF :: gamma_f :: g :: theta :: nil) ->
     number_with positive (DeRidder2026.calculate_overtopping_discharge_q_eq32 (Fin Hm0_HF) (Fin smm10_HF) (Fin Hm0_LF) (Fin gamma_f) (Fin Rc) (Fin g) (Fin theta))).
Proof.
  Ltac unfold_DeRidder2026 := cbv beta delta [CorePhysics.calculate_wave_steepness_s CorePhysics.calculate_Iribarren_number_ksi CorePhysics.calculate_critical_Iribarren_number_ksi_mc CorePhysics.calculate_buoyant_density_Delta CorePhysics.calculate_stability_number_Ns CorePhysics.calculate_M50_from_Dn50 CorePhysics.calculate_Dn50_from_M50 CorePhysics.check_usage_Dn50_or_M50 CorePhysics.calculate_S_from_Nod CorePhysics.calculate_Nod_from_S CorePhysics.g_default CorePhysics.local_wavelength CorePhysics.two_pi CorePhysics.check_usage_stabilitynumber Numpy.deg2rad DeRidder2026.period_HF DeRidder2026.calculate_gamma_beta DeRidder2026.calculate_dimensionless_crest_freeboard_discharge_q_eq28 DeRidder2026.calculate_crest_freeboard_discharge_q_eq28 DeRidder2026.calculate_crest_freeboard_discharge_q_eq32 DeRidder2026.calculate_dimensionless_overtopping_discharge_eq28 DeRidder2026.calculate_overtopping_discharge_q_eq28 DeRidder2026.calculate_dimensionless_overtopping_discharge_eq32 DeRidder2026.calculate_overtopping_discharge_q_eq32 DeRidder2026.theta_default].
  split; [intros; all_positive; unfold_DeRidder2026; numrun|].
  split; [intros; all_positive; unfold_DeRidder2026; numrun|].
  split; [intros; all_positive; unfold_DeRidder2026; numrun|].
  split; [intros; all_positive; unfold_DeRidder2026; numrun|].
  split; [intros; all_positive; unfold_DeRidder2026; numrun|].
  split; [intros; all_positive; unfold_DeRidder2026; numrun|].
  split; [intros; all_positive; unfold_DeRidder2026; numrun|].
  intros; all_positive; unfold_DeRidder2026; numrun.
Qed.

Theorem C84_vangent2025 :
  (forall (Dn50 Hm0 smm10 : R),
     positives (Dn50 :: Hm0 :: smm10 :: nil) ->
     number_with any (VanGent2025.calculate_influence_friction_gamma_f (Fin Dn50) (Fin Hm0) (Fin smm10)))
  /\ (forall (Hm0 smm10 Ac B_berm BL : R),
     positives (Hm0 :: smm10 :: Ac :: B_berm :: BL :: nil) ->
     number_with any (VanGent2025.calculate_influence_berm_gamma_b (Fin Hm0) (Fin smm10) (Fin Ac) (Fin B_berm) (Fin BL)))
  /\ (forall (beta : R),
     number_with positive (VanGent2025.calculate_influence_oblique_waves_gamma_beta (Fin beta)))
  /\ (forall (cot_alpha Rc Ac : R),
     positives (cot_alpha :: Rc :: Ac :: nil) ->
     number_with any (VanGent2025.calculate_influence_crest_wall_gamma_v (Fin cot_alpha) (Fin Rc) (Fin Ac)))
  /\ (forall (Hm0 q_diml Rc Ac : R),
     positives (Hm0 :: q_diml :: nil) ->
     number_with any (VanGent2025.calculate_influence_wind_gamma_w (Fin Rc) (Fin Ac) (Fin Hm0) (Fin q_diml)))
  /\ (forall (Hm0 Hm0_swell ksi_mm10 cot_alpha gamma_f gamma_b gamma_v gamma_beta Rc : R),
     positives (Hm0 :: Hm0_swell :: ksi_mm10 :: cot_alpha :: gamma_f :: gamma_b :: gamma_v :: gamma_beta :: nil) ->
     number_with positive (VanGent2025.q_diml_max_equation (Fin Hm0) (Fin Hm0_swell) (Fin ksi_mm10) (Fin cot_alpha) (Fin Rc) (Fin gamma_f) (Fin gamma_b) (Fin gamma_v) (Fin gamma_beta)))
  /\ (forall (Hm0 Hm0_swell q cot_alpha ksi_mm10 gamma_f gamma_b gamma_v gamma_beta g : R),
     positives (Hm0 :: Hm0_swell :: q :: cot_alpha :: ksi_mm10 :: gamma_f :: gamma_b :: gamma_v :: gamma_beta :: g :: nil) ->
     number_with any (VanGent2025.Rc_diml_max_equation (Fin Hm0) (Fin Hm0_swell) (Fin q) (Fin cot_alpha) (Fin ksi_mm10) (Fin gamma_f) (Fin gamma_b) (Fin gamma_v) (Fin gamma_beta) (Fin g)))
  /\ (forall (Hm0 Hm0_swell q_diml cot_alpha ksi_mm10 gamma_f gamma_b gamma_v gamma_beta : R),
     positives (Hm0 :: Hm0_swell :: q_diml :: cot_alpha :: ksi_mm10 :: gamma_f :: gamma_b :: gamma_v :: gamma_beta :: nil) ->
     number_with any (VanGent2025.Rc_diml_equation (Fin Hm0) (Fin Hm0_swell) (Fin q_diml) (Fin cot_alpha) (Fin ksi_mm10) (Fin gamma_f) (Fin gamma_b) (Fin gamma_v) (Fin gamma_beta))).
Proof.
  Ltac unfold_VanGent2025 := cbv beta delta [CorePhysics.calculate_wave_steepness_s CorePhysics.calculate_Iribarren_number_ksi CorePhysics.calculate_critical_Iribarren_number_ksi_mc CorePhysics.calculate_buoyant_density_Delta CorePhysics.calculate_stability_number_Ns CorePhysics.calculate_M50_from_Dn50 CorePhysics.calculate_Dn50_from_M50 CorePhysics.check_usage_Dn50_or_M50 CorePhysics.calculate_S_from_Nod CorePhysics.calculate_Nod_from_S CorePhysics.g_default CorePhysics.local_wavelength CorePhysics.two_pi CorePhysics.check_usage_stabilitynumber Numpy.deg2rad VanGent2025.calculate_influence_friction_gamma_f VanGent2025.calculate_influence_berm_gamma_b VanGent2025.calculate_influence_oblique_waves_gamma_beta VanGent2025.calculate_influence_crest_wall_gamma_v VanGent2025.calculate_influence_wind_gamma_w VanGent2025.q_diml_max_equation VanGent2025.factor_beta VanGent2025.factor_b VanGent2025.factor_f VanGent2025.calculate_dimensionless_overtopping_discharge_q VanGent2025.calculate_overtopping_discharge_q VanGent2025.Rc_diml_max_equation VanGent2025.Rc_diml_equation VanGent2025.calculate_dimensionless_crest_freeboard VanGent2025.max_iter_default VanGent2025.tolerance_default VanGent2025.calculate_crest_freeboard_Rc VanGent2025.B_berm_default VanGent2025.db_default VanGent2025.gamma_v_default].
  split; [intros; all_positive; unfold_VanGent2025; numrun|].
  split; [intros; all_positive; unfold_VanGent2025; numrun|].
  split; [intros; all_positive; unfold_VanGent2025; numrun|].
  split; [intros; all_positive; unfold_VanGent2025; numrun|].
  split; [intros; all_positive; unfold_VanGent2025; numrun|].
  split; [intros; all_positive; unfold_VanGent2025; numrun|].
  split; [intros; all_positive; unfold_VanGent2025; numrun|].
  intros; all_positive; unfold_VanGent2025; numrun.
Qed.

Theorem C84_runuptaw2002 :
  (forall (Hm0 B_berm cot_alpha cot_alpha_down cot_alpha_up : R),
     positives (Hm0 :: B_berm :: cot_alpha :: cot_alpha_down :: cot_alpha_up :: nil) ->
     number_with positive (RunupTAW2002.calculate_berm_length (Fin Hm0) (Fin B_berm) (Fin cot_alpha) (Fin cot_alpha_down) (Fin cot_alpha_up)))
  /\ (forall (Hm0 z2p B_berm L_berm db : R),
     positives (Hm0 :: z2p :: B_berm :: L_berm :: nil) ->
     number_with positive (RunupTAW2002.calculate_influence_berm_gamma_b (Fin Hm0) (Fin z2p) (Fin db) (Fin B_berm) (Fin L_berm)))
  /\ (forall (c_gamma_beta max_angle beta : R),
     positives (c_gamma_beta :: max_angle :: nil) ->
     number_with any (RunupTAW2002.calculate_influence_oblique_waves_gamma_beta (Fin beta) (Fin c_gamma_beta) (Fin max_angle)))
  /\ (forall (gamma_f gamma_b ksi_mm10 : R),
     positives (gamma_f :: gamma_b :: ksi_mm10 :: nil) ->
     number_with any (RunupTAW2002.calculate_adjusted_influence_roughness_gamma_f (Fin gamma_f) (Fin gamma_b) (Fin ksi_mm10))).
Proof.
  Ltac unfold_RunupTAW2002 := cbv beta delta [CorePhysics.calculate_wave_steepness_s CorePhysics.calculate_Iribarren_number_ksi CorePhysics.calculate_critical_Iribarren_number_ksi_mc CorePhysics.calculate_buoyant_density_Delta CorePhysics.calculate_stability_number_Ns CorePhysics.calculate_M50_from_Dn50 CorePhysics.calculate_Dn50_from_M50 CorePhysics.check_usage_Dn50_or_M50 CorePhysics.calculate_S_from_Nod CorePhysics.calculate_Nod_from_S CorePhysics.g_default CorePhysics.local_wavelength CorePhysics.two_pi CorePhysics.check_usage_stabilitynumber Numpy.deg2rad RunupTAW2002.determine_average_slope RunupTAW2002.check_composite_slope RunupTAW2002.calculate_berm_length RunupTAW2002.check_calculate_gamma_beta RunupTAW2002.calculate_influence_berm_gamma_b RunupTAW2002.calculate_influence_oblique_waves_gamma_beta RunupTAW2002.c_gamma_beta_default RunupTAW2002.max_angle_default RunupTAW2002.calculate_adjusted_influence_roughness_gamma_f RunupTAW2002.best_fit_coefficients RunupTAW2002.c1_default RunupTAW2002.c2_default RunupTAW2002.c3_default RunupTAW2002.c4_default RunupTAW2002.iteration_procedure_z2p_body RunupTAW2002.iteration_procedure_gamma_b_body RunupTAW2002.tolerance_default RunupTAW2002.max_iter_default RunupTAW2002.dimensionless_body RunupTAW2002.runup_upto RunupTAW2002.depth_limit RunupTAW2002.calculate_wave_runup_height_z2p RunupTAW2002.calculate_dimensionless_wave_runup_height_z2p RunupTAW2002.iteration_procedure_z2p RunupTAW2002.iteration_procedure_gamma_b].
  split; [intros; all_positive; unfold_RunupTAW2002; numrun|].
  split; [intros; all_positive; unfold_RunupTAW2002; numrun|].
  split; [intros; all_positive; unfold_RunupTAW2002; numrun|].
  intros; all_positive; unfold_RunupTAW2002; numrun.
Qed.

Theorem C84_runupeurotop2018 :
  (forall (gamma_f gamma_f_crit c_gamma_beta_smooth c_gamma_beta_rough max_angle beta : R),
     positives (gamma_f :: gamma_f_crit :: c_gamma_beta_smooth :: c_gamma_beta_rough :: max_angle :: nil) ->
     number_with any (RunupEurotop2018.calculate_influence_oblique_waves_gamma_beta (Fin beta) (Fin gamma_f) (Fin gamma_f_crit) (Fin c_gamma_beta_smooth) (Fin c_gamma_beta_rough) (Fin max_angle))).
Proof.
  Ltac unfold_RunupEurotop2018 := cbv beta delta [CorePhysics.calculate_wave_steepness_s CorePhysics.calculate_Iribarren_number_ksi CorePhysics.calculate_critical_Iribarren_number_ksi_mc CorePhysics.calculate_buoyant_density_Delta CorePhysics.calculate_stability_number_Ns CorePhysics.calculate_M50_from_Dn50 CorePhysics.calculate_Dn50_from_M50 CorePhysics.check_usage_Dn50_or_M50 CorePhysics.calculate_S_from_Nod CorePhysics.calculate_Nod_from_S CorePhysics.g_default CorePhysics.local_wavelength CorePhysics.two_pi CorePhysics.check_usage_stabilitynumber Numpy.deg2rad RunupEurotop2018.check_best_fit RunupEurotop2018.calculate_influence_oblique_waves_gamma_beta RunupEurotop2018.gamma_f_crit_default RunupEurotop2018.c_gamma_beta_smooth_default RunupEurotop2018.c_gamma_beta_rough_default RunupEurotop2018.max_angle_default RunupEurotop2018.calculate_dimensionless_wave_runup_height_z2p RunupEurotop2018.calculate_wave_runup_height_z2p RunupEurotop2018.c1_default RunupEurotop2018.c2_default RunupEurotop2018.c3_default RunupEurotop2018.c4_default RunupEurotop2018.iteration_procedure_z2p RunupEurotop2018.tolerance_default RunupEurotop2018.max_iter_default RunupEurotop2018.iteration_procedure_gamma_b RunupTAW2002.determine_average_slope RunupTAW2002.check_composite_slope RunupTAW2002.calculate_berm_length RunupTAW2002.check_calculate_gamma_beta RunupTAW2002.calculate_influence_berm_gamma_b RunupTAW2002.calculate_influence_oblique_waves_gamma_beta RunupTAW2002.c_gamma_beta_default RunupTAW2002.max_angle_default RunupTAW2002.calculate_adjusted_influence_roughness_gamma_f RunupTAW2002.best_fit_coefficients RunupTAW2002.c1_default RunupTAW2002.c2_default RunupTAW2002.c3_default RunupTAW2002.c4_default RunupTAW2002.iteration_procedure_z2p_body RunupTAW2002.iteration_procedure_gamma_b_body RunupTAW2002.tolerance_default RunupTAW2002.max_iter_default RunupTAW2002.dimensionless_body RunupTAW2002.runup_upto RunupTAW2002.depth_limit RunupTAW2002.calculate_wave_runup_height_z2p RunupTAW2002.calculate_dimensionless_wave_runup_height_z2p RunupTAW2002.iteration_procedure_z2p RunupTAW2002.iteration_procedure_gamma_b].
  intros; all_positive; unfold_RunupEurotop2018; numrun.
Qed.

Theorem C84_overtoppingtaw2002 :
  (forall (Hm0 gamma_beta gamma_f c3 cor3 c2 Rc : R),
     positives (Hm0 :: gamma_beta :: gamma_f :: c3 :: cor3 :: c2 :: nil) ->
     number_with positive (OvertoppingTAW2002.q_diml_max_equation (Fin Hm0) (Fin Rc) (Fin gamma_beta) (Fin gamma_f) (Fin c3) (Fin cor3) (Fin c2)))
  /\ (forall (c_gamma_beta max_angle beta : R),
     positives (c_gamma_beta :: max_angle :: nil) ->
     number_with any (OvertoppingTAW2002.calculate_influence_oblique_waves_gamma_beta (Fin beta) (Fin c_gamma_beta) (Fin max_angle)))
  /\ (forall (alpha_wall_deg : R),
     positives (alpha_wall_deg :: nil) ->
     number_with any (OvertoppingTAW2002.calculate_influence_crest_wall_gamma_v (Fin alpha_wall_deg)))
  /\ (forall (Hm0 q gamma_beta gamma_f c3 cor3 c2 g : R),
     positives (Hm0 :: q :: gamma_beta :: gamma_f :: c3 :: cor3 :: c2 :: g :: nil) ->
     number_with any (OvertoppingTAW2002.Rc_diml_max_equation (Fin Hm0) (Fin q) (Fin gamma_beta) (Fin gamma_f) (Fin c3) (Fin cor3) (Fin c2) (Fin g))).
Proof.
  Ltac unfold_OvertoppingTAW2002 := cbv beta delta [CorePhysics.calculate_wave_steepness_s CorePhysics.calculate_Iribarren_number_ksi CorePhysics.calculate_critical_Iribarren_number_ksi_mc CorePhysics.calculate_buoyant_density_Delta CorePhysics.calculate_stability_number_Ns CorePhysics.calculate_M50_from_Dn50 CorePhysics.calculate_Dn50_from_M50 CorePhysics.check_usage_Dn50_or_M50 CorePhysics.calculate_S_from_Nod CorePhysics.calculate_Nod_from_S CorePhysics.g_default CorePhysics.local_wavelength CorePhysics.two_pi CorePhysics.check_usage_stabilitynumber Numpy.deg2rad OvertoppingTAW2002.q_diml_max_equation OvertoppingTAW2002.cor3_default OvertoppingTAW2002.c2_default OvertoppingTAW2002.calculate_influence_oblique_waves_gamma_beta OvertoppingTAW2002.c_gamma_beta_default OvertoppingTAW2002.max_angle_default OvertoppingTAW2002.calculate_influence_crest_wall_gamma_v OvertoppingTAW2002.coefficients OvertoppingTAW2002.sigma_warning OvertoppingTAW2002.corrections OvertoppingTAW2002.influence_factors OvertoppingTAW2002.calculate_dimensionless_overtopping_discharge_q OvertoppingTAW2002.calculate_overtopping_discharge_q OvertoppingTAW2002.Rc_diml_max_equation OvertoppingTAW2002.calculate_dimensionless_crest_freeboard OvertoppingTAW2002.calculate_crest_freeboard_Rc RunupTAW2002.determine_average_slope RunupTAW2002.check_composite_slope RunupTAW2002.calculate_berm_length RunupTAW2002.check_calculate_gamma_beta RunupTAW2002.calculate_influence_berm_gamma_b RunupTAW2002.calculate_influence_oblique_waves_gamma_beta RunupTAW2002.c_gamma_beta_default RunupTAW2002.max_angle_default RunupTAW2002.calculate_adjusted_influence_roughness_gamma_f RunupTAW2002.best_fit_coefficients RunupTAW2002.c1_default RunupTAW2002.c2_default RunupTAW2002.c3_default RunupTAW2002.c4_default RunupTAW2002.iteration_procedure_z2p_body RunupTAW2002.iteration_procedure_gamma_b_body RunupTAW2002.tolerance_default RunupTAW2002.max_iter_default RunupTAW2002.dimensionless_body RunupTAW2002.runup_upto RunupTAW2002.depth_limit RunupTAW2002.calculate_wave_runup_height_z2p RunupTAW2002.calculate_dimensionless_wave_runup_height_z2p RunupTAW2002.iteration_procedure_z2p RunupTAW2002.iteration_procedure_gamma_b].
  split; [intros; all_positive; unfold_OvertoppingTAW2002; numrun|].
  split; [intros; all_positive; unfold_OvertoppingTAW2002; numrun|].
  split; [intros; all_positive; unfold_OvertoppingTAW2002; numrun|].
  intros; all_positive; unfold_OvertoppingTAW2002; numrun.
Qed.

Theorem C84_crestwall2019 :
  (forall (c_beta beta : R),
     positives (c_beta :: nil) ->
     number_with any (CrestWall2019.calculate_influence_oblique_waves_gamma_beta (Fin beta) (Fin c_beta)))
  /\ (forall (Hm0 z2p Hwall rho_water g cFH Ac Rc : R),
     positives (Hm0 :: z2p :: Hwall :: rho_water :: g :: cFH :: nil) ->
     number_with any (CrestWall2019.calculate_FH2p_perpendicular_from_z2p (Fin Hm0) (Fin z2p) (Fin Ac) (Fin Rc) (Fin Hwall) (Fin rho_water) (Fin g) (Fin cFH)))
  /\ (forall (Hm0 Tmm10 cot_alpha Hwall gamma_beta gamma_f c0 c1 rho_water g cFH Ac Rc : R),
     positives (Hm0 :: Tmm10 :: cot_alpha :: Hwall :: gamma_beta :: gamma_f :: c0 :: c1 :: rho_water :: g :: cFH :: nil) ->
     number_with any (CrestWall2019.calculate_FH2p_perpendicular (Fin Hm0) (Fin Tmm10) (Fin cot_alpha) (Fin Ac) (Fin Rc) (Fin Hwall) (Fin gamma_beta) (Fin gamma_f) (Fin c0) (Fin c1) (Fin rho_water) (Fin g) (Fin cFH)))
  /\ (forall (z2p Ac Bwall Fb cFV cFb rho_water g : R),
     positives (z2p :: Ac :: Bwall :: Fb :: cFV :: cFb :: rho_water :: g :: nil) ->
     number_with any (CrestWall2019.calculate_FV2p_perpendicular_from_z2p (Fin z2p) (Fin Ac) (Fin Bwall) (Fin Fb) (Fin cFV) (Fin cFb) (Fin rho_water) (Fin g)))
  /\ (forall (Hm0 Tmm10 cot_alpha Ac Bwall Fb gamma_beta gamma_f c0 c1 cFV cFb rho_water g : R),
     positives (Hm0 :: Tmm10 :: cot_alpha :: Ac :: Bwall :: Fb :: gamma_beta :: gamma_f :: c0 :: c1 :: cFV :: cFb :: rho_water :: g :: nil) ->
     number_with any (CrestWall2019.calculate_FV2p_perpendicular (Fin Hm0) (Fin Tmm10) (Fin cot_alpha) (Fin Ac) (Fin Bwall) (Fin Fb) (Fin gamma_beta) (Fin gamma_f) (Fin c0) (Fin c1) (Fin cFV) (Fin cFb) (Fin rho_water) (Fin g)))
  /\ (forall (FH2p : R),
     positives (FH2p :: nil) ->
     number_with positive (CrestWall2019.calculate_FH01p_perpendicular (Fin FH2p)))
  /\ (forall (FV2p s0p : R),
     positives (FV2p :: s0p :: nil) ->
     number_with any (CrestWall2019.calculate_FV01p_perpendicular (Fin FV2p) (Fin s0p))).
Proof.
  Ltac unfold_CrestWall2019 := cbv beta delta [CorePhysics.calculate_wave_steepness_s CorePhysics.calculate_Iribarren_number_ksi CorePhysics.calculate_critical_Iribarren_number_ksi_mc CorePhysics.calculate_buoyant_density_Delta CorePhysics.calculate_stability_number_Ns CorePhysics.calculate_M50_from_Dn50 CorePhysics.calculate_Dn50_from_M50 CorePhysics.check_usage_Dn50_or_M50 CorePhysics.calculate_S_from_Nod CorePhysics.calculate_Nod_from_S CorePhysics.g_default CorePhysics.local_wavelength CorePhysics.two_pi CorePhysics.check_usage_stabilitynumber Numpy.deg2rad CrestWall2019.calculate_influence_oblique_waves_force_gamma_F_beta CrestWall2019.calculate_influence_oblique_waves_horizontal_force_gamma_FH_beta CrestWall2019.gamma_A_FH CrestWall2019.calculate_influence_oblique_waves_vertical_force_gamma_FV_beta CrestWall2019.gamma_A_FV CrestWall2019.calculate_influence_oblique_waves_gamma_beta CrestWall2019.gamma_beta_c CrestWall2019.calculate_FH2p_perpendicular_from_z2p CrestWall2019.calculate_FH2p_perpendicular CrestWall2019.calculate_FH2p_oblique CrestWall2019.calculate_FV2p_perpendicular_from_z2p CrestWall2019.calculate_FV2p_perpendicular CrestWall2019.calculate_FV2p_oblique CrestWall2019.calculate_FH01p_perpendicular CrestWall2019.calculate_FV01p_perpendicular CrestWall2019.default_gamma_beta CrestWall2019.default_gamma_f CrestWall2019.default_c0 CrestWall2019.default_c1 CrestWall2019.default_cFH CrestWall2019.default_cFV CrestWall2019.default_cFb CrestWall2019.default_rho_water VanGent2001.calculate_wave_runup_height_zXp VanGent2001.calculate_wave_runup_height_z1p VanGent2001.z1p_c0 VanGent2001.z1p_c1 VanGent2001.calculate_wave_runup_height_z2p VanGent2001.z2p_c0 VanGent2001.z2p_c1 VanGent2001.calculate_wave_runup_height_z10p VanGent2001.z10p_c0 VanGent2001.z10p_c1 VanGent2001.invert_for_Hs VanGent2001.invert_c0 VanGent2001.invert_c1].
  split; [intros; all_positive; unfold_CrestWall2019; numrun|].
  split; [intros; all_positive; unfold_CrestWall2019; numrun|].
  split; [intros; all_positive; unfold_CrestWall2019; numrun|].
  split; [intros; all_positive; unfold_CrestWall2019; numrun|].
  split; [intros; all_positive; unfold_CrestWall2019; numrun|].
  split; [intros; all_positive; unfold_CrestWall2019; numrun|].
  intros; all_positive; unfold_CrestWall2019; numrun.
Qed.
