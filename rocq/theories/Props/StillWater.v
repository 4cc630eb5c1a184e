(** C85, the answers in still water: every wave height is 0, every argument
    listed after [positives] is a positive number, every other number may have
    any sign. *)
From Coq Require Import Reals Lra List Bool String ZArith.
From Verif.Lib Require Import Num Monad RTac NTac.
From Verif.Spec Require Import Numbers StillWater.
From Verif.Proofs Require Import Numbers StillWater.
From Verif.Model Require CoreUtility CorePhysics Numpy Hudson1959 HudsonUnits Xbloc Cubes VanderMeer1998 Gerding1993 VanGent2001 DeRidder2024 DeRidder2026 OvertoppingEurotop2007 OvertoppingTAW2002 RunupTAW2002 VanGent2025 VanGent2024Setup Scaravaglione2025 EtemadShahidi2020 VanderMeer1988 VanderMeer1988Modified Jumelet2024 RearVanGentPozueta2004 VanGent2002Velocity VanGentVanderWerf2014.
Open Scope R_scope.

Theorem C85_corephysics :
  (forall (T g : R),
     positives (T :: g :: nil) ->
     answer_is #0%num (CorePhysics.calculate_wave_steepness_s #0%num (Fin T) (Fin g)))
  /\ (forall (T cot_alpha : R),
     positives (T :: cot_alpha :: nil) ->
     answer_is PInf (CorePhysics.calculate_Iribarren_number_ksi #0%num (Fin T) (Fin cot_alpha)))
  /\ (forall (D rho_rock rho_water : R),
     positives (D :: rho_rock :: rho_water :: nil) -> rho_water < rho_rock ->
     answer_is #0%num (CorePhysics.calculate_stability_number_Ns #0%num (Fin D) (Fin rho_rock) (Fin rho_water))).
Proof.
  Ltac unfold_CorePhysics := cbv beta delta [CorePhysics.calculate_wave_steepness_s CorePhysics.calculate_Iribarren_number_ksi CorePhysics.calculate_critical_Iribarren_number_ksi_mc CorePhysics.calculate_buoyant_density_Delta CorePhysics.calculate_stability_number_Ns CorePhysics.calculate_M50_from_Dn50 CorePhysics.calculate_Dn50_from_M50 CorePhysics.check_usage_Dn50_or_M50 CorePhysics.calculate_S_from_Nod CorePhysics.calculate_Nod_from_S CorePhysics.g_default CorePhysics.local_wavelength CorePhysics.two_pi CorePhysics.check_usage_stabilitynumber Numpy.deg2rad CorePhysics.g_default CorePhysics.calculate_wave_steepness_s CorePhysics.calculate_Iribarren_number_ksi CorePhysics.calculate_critical_Iribarren_number_ksi_mc CorePhysics.calculate_buoyant_density_Delta CorePhysics.calculate_stability_number_Ns CorePhysics.calculate_M50_from_Dn50 CorePhysics.calculate_Dn50_from_M50 CorePhysics.check_usage_Dn50_or_M50 CorePhysics.calculate_S_from_Nod CorePhysics.calculate_Nod_from_S CorePhysics.is_none CorePhysics.b2n CorePhysics.check_usage_stabilitynumber CorePhysics.two_pi CorePhysics.omegas CorePhysics.calculate_local_wavelength CorePhysics.local_wavelength].
  split; [intros; all_positive; unfold_CorePhysics; zerorun|].
  split; [intros; all_positive; unfold_CorePhysics; zerorun|].
  intros; all_positive; unfold_CorePhysics; zerorun.
Qed.

Theorem C85_hudson1959 :
  (forall (rho_water rho_armour KD cot_alpha alpha_Hs : R),
     positives (rho_water :: rho_armour :: KD :: cot_alpha :: alpha_Hs :: nil) -> rho_water < rho_armour ->
     answer_is #0%num (Hudson1959.calculate_median_rock_mass_M50_no_damage #0%num (Fin rho_water) (Fin rho_armour) (Fin KD) (Fin cot_alpha) (Fin alpha_Hs))).
Proof.
  Ltac unfold_Hudson1959 := cbv beta delta [CorePhysics.calculate_wave_steepness_s CorePhysics.calculate_Iribarren_number_ksi CorePhysics.calculate_critical_Iribarren_number_ksi_mc CorePhysics.calculate_buoyant_density_Delta CorePhysics.calculate_stability_number_Ns CorePhysics.calculate_M50_from_Dn50 CorePhysics.calculate_Dn50_from_M50 CorePhysics.check_usage_Dn50_or_M50 CorePhysics.calculate_S_from_Nod CorePhysics.calculate_Nod_from_S CorePhysics.g_default CorePhysics.local_wavelength CorePhysics.two_pi CorePhysics.check_usage_stabilitynumber Numpy.deg2rad Hudson1959.calculate_median_rock_mass_M50_no_damage Hudson1959.calculate_significant_wave_height_Hs_no_damage Hudson1959.percentages Hudson1959.mult_factors_rough Hudson1959.mult_factors_smooth Hudson1959.lookup_table_damage_factors Hudson1959.calculate_median_rock_mass_M50 Hudson1959.calculate_significant_wave_height_Hs Hudson1959.alpha_Hs_default Numpy.Rtrunc Numpy.astype_int Numpy.number_of Numpy.vectorize Numpy.deg2rad].
  intros; all_positive; unfold_Hudson1959; zerorun.
Qed.

Theorem C85_hudsonunits :
  (forall (rho_water rho_armour KD cot_alpha alpha_Hs : R),
     positives (rho_water :: rho_armour :: KD :: cot_alpha :: alpha_Hs :: nil) -> rho_water < rho_armour ->
     answer_is #0%num (HudsonUnits.accropode2_unit_mass_M #0%num (Fin rho_water) (Fin rho_armour) (Fin KD) (Fin cot_alpha) (Fin alpha_Hs)))
  /\ (forall (rho_water rho_armour KD cot_alpha alpha_Hs : R),
     positives (rho_water :: rho_armour :: KD :: cot_alpha :: alpha_Hs :: nil) -> rho_water < rho_armour ->
     answer_is #0%num (HudsonUnits.accropode_unit_mass_M #0%num (Fin rho_water) (Fin rho_armour) (Fin KD) (Fin cot_alpha) (Fin alpha_Hs)))
  /\ (forall (rho_water rho_armour KD cot_alpha alpha_Hs : R),
     positives (rho_water :: rho_armour :: KD :: cot_alpha :: alpha_Hs :: nil) -> rho_water < rho_armour ->
     answer_is #0%num (HudsonUnits.core_loc_unit_mass_M #0%num (Fin rho_water) (Fin rho_armour) (Fin KD) (Fin cot_alpha) (Fin alpha_Hs)))
  /\ (forall (rho_water rho_armour KD cot_alpha alpha_Hs : R),
     positives (rho_water :: rho_armour :: KD :: cot_alpha :: alpha_Hs :: nil) -> rho_water < rho_armour ->
     answer_is #0%num (HudsonUnits.cubes_unit_mass_M #0%num (Fin rho_water) (Fin rho_armour) (Fin KD) (Fin cot_alpha) (Fin alpha_Hs)))
  /\ (forall (rho_water rho_armour KD cot_alpha alpha_Hs : R),
     positives (rho_water :: rho_armour :: KD :: cot_alpha :: alpha_Hs :: nil) -> rho_water < rho_armour ->
     answer_is #0%num (HudsonUnits.cubipod_unit_mass_M #0%num (Fin rho_water) (Fin rho_armour) (Fin KD) (Fin cot_alpha) (Fin alpha_Hs)))
  /\ (forall (rho_water rho_armour KD cot_alpha alpha_Hs : R),
     positives (rho_water :: rho_armour :: KD :: cot_alpha :: alpha_Hs :: nil) -> rho_water < rho_armour ->
     answer_is #0%num (HudsonUnits.tetrapod_unit_mass_M #0%num (Fin rho_water) (Fin rho_armour) (Fin KD) (Fin cot_alpha) (Fin alpha_Hs))).
Proof.
  Ltac unfold_HudsonUnits := cbv beta delta [CorePhysics.calculate_wave_steepness_s CorePhysics.calculate_Iribarren_number_ksi CorePhysics.calculate_critical_Iribarren_number_ksi_mc CorePhysics.calculate_buoyant_density_Delta CorePhysics.calculate_stability_number_Ns CorePhysics.calculate_M50_from_Dn50 CorePhysics.calculate_Dn50_from_M50 CorePhysics.check_usage_Dn50_or_M50 CorePhysics.calculate_S_from_Nod CorePhysics.calculate_Nod_from_S CorePhysics.g_default CorePhysics.local_wavelength CorePhysics.two_pi CorePhysics.check_usage_stabilitynumber Numpy.deg2rad HudsonUnits.accropode2_unit_mass_M HudsonUnits.accropode2_wave_height_Hs HudsonUnits.accropode2_KD_breaking HudsonUnits.accropode2_KD_nonbreaking HudsonUnits.accropode_unit_mass_M HudsonUnits.accropode_wave_height_Hs HudsonUnits.accropode_KD_breaking HudsonUnits.accropode_KD_nonbreaking HudsonUnits.core_loc_unit_mass_M HudsonUnits.core_loc_wave_height_Hs HudsonUnits.core_loc_KD_breaking HudsonUnits.core_loc_KD_nonbreaking HudsonUnits.cubes_unit_mass_M HudsonUnits.cubes_wave_height_Hs HudsonUnits.cubipod_unit_mass_M HudsonUnits.cubipod_wave_height_Hs HudsonUnits.tetrapod_unit_mass_M HudsonUnits.tetrapod_wave_height_Hs Hudson1959.calculate_median_rock_mass_M50_no_damage Hudson1959.calculate_significant_wave_height_Hs_no_damage Hudson1959.percentages Hudson1959.mult_factors_rough Hudson1959.mult_factors_smooth Hudson1959.lookup_table_damage_factors Hudson1959.calculate_median_rock_mass_M50 Hudson1959.calculate_significant_wave_height_Hs Hudson1959.alpha_Hs_default Numpy.Rtrunc Numpy.astype_int Numpy.number_of Numpy.vectorize Numpy.deg2rad].
  split; [intros; all_positive; unfold_HudsonUnits; zerorun|].
  split; [intros; all_positive; unfold_HudsonUnits; zerorun|].
  split; [intros; all_positive; unfold_HudsonUnits; zerorun|].
  split; [intros; all_positive; unfold_HudsonUnits; zerorun|].
  split; [intros; all_positive; unfold_HudsonUnits; zerorun|].
  intros; all_positive; unfold_HudsonUnits; zerorun.
Qed.

Theorem C85_xbloc :
  (forall (rho_water rho_armour total_correction_factor : R),
     positives (rho_water :: rho_armour :: total_correction_factor :: nil) -> rho_water < rho_armour ->
     answer_is #0%num (Xbloc.xbloc_unit_volume_V #0%num (Fin rho_water) (Fin rho_armour) (Fin total_correction_factor)))
  /\ (forall (rho_water rho_armour total_correction_factor : R),
     positives (rho_water :: rho_armour :: total_correction_factor :: nil) -> rho_water < rho_armour ->
     answer_is #0%num (Xbloc.xbloc_unit_mass_M #0%num (Fin rho_water) (Fin rho_armour) (Fin total_correction_factor)))
  /\ (forall (rho_water rho_armour total_correction_factor : R),
     positives (rho_water :: rho_armour :: total_correction_factor :: nil) -> rho_water < rho_armour ->
     answer_is #0%num (Xbloc.xblocplus_unit_volume_V #0%num (Fin rho_water) (Fin rho_armour) (Fin total_correction_factor)))
  /\ (forall (rho_water rho_armour total_correction_factor : R),
     positives (rho_water :: rho_armour :: total_correction_factor :: nil) -> rho_water < rho_armour ->
     answer_is #0%num (Xbloc.xblocplus_unit_mass_M #0%num (Fin rho_water) (Fin rho_armour) (Fin total_correction_factor))).
Proof.
  Ltac unfold_Xbloc := cbv beta delta [CorePhysics.calculate_wave_steepness_s CorePhysics.calculate_Iribarren_number_ksi CorePhysics.calculate_critical_Iribarren_number_ksi_mc CorePhysics.calculate_buoyant_density_Delta CorePhysics.calculate_stability_number_Ns CorePhysics.calculate_M50_from_Dn50 CorePhysics.calculate_Dn50_from_M50 CorePhysics.check_usage_Dn50_or_M50 CorePhysics.calculate_S_from_Nod CorePhysics.calculate_Nod_from_S CorePhysics.g_default CorePhysics.local_wavelength CorePhysics.two_pi CorePhysics.check_usage_stabilitynumber Numpy.deg2rad Xbloc.xbloc_wave_height_Hs_from_V Xbloc.xbloc_wave_height_Hs_from_M Xbloc.xbloc_unit_volume_V Xbloc.xbloc_unit_mass_M Xbloc.xbloc_factor_cotalpha_seabed Xbloc.xbloc_factor_percslope_seabed Xbloc.xbloc_factor_relative_freeboard Xbloc.xbloc_factor_rel_depth Xbloc.xbloc_factor_design_event_frequency Xbloc.xbloc_factor_core_permeability Xbloc.xbloc_factor_structure_slope Xbloc.xblocplus_wave_height_Hs_from_V Xbloc.xblocplus_wave_height_Hs_from_M Xbloc.xblocplus_unit_volume_V Xbloc.xblocplus_unit_mass_M Xbloc.xblocplus_factor_cotalpha_seabed Xbloc.xblocplus_factor_percslope_seabed Xbloc.xblocplus_factor_relative_freeboard Xbloc.xblocplus_factor_core_permeability].
  split; [intros; all_positive; unfold_Xbloc; zerorun|].
  split; [intros; all_positive; unfold_Xbloc; zerorun|].
  split; [intros; all_positive; unfold_Xbloc; zerorun|].
  intros; all_positive; unfold_Xbloc; zerorun.
Qed.

Theorem C85_cubes :
  (forall (Tm rho_water rho_armour N_waves cot_alpha Nod : R),
     positives (Tm :: rho_water :: rho_armour :: N_waves :: cot_alpha :: Nod :: nil) -> rho_water < rho_armour ->
     answer_is #0%num (Cubes.calculate_nominal_diameter_Dn_vanDerMeer1988 #0%num (Fin Tm) (Fin rho_water) (Fin rho_armour) (Fin N_waves) (Fin cot_alpha) (Fin Nod)))
  /\ (forall (rho_water rho_armour Ns : R),
     positives (rho_water :: rho_armour :: Ns :: nil) -> rho_water < rho_armour ->
     answer_is #0%num (Cubes.calculate_unit_mass_M_start_of_damage #0%num (Fin rho_water) (Fin rho_armour) (Fin Ns)))
  /\ (forall (rho_water rho_armour Ns : R),
     positives (rho_water :: rho_armour :: Ns :: nil) -> rho_water < rho_armour ->
     answer_is #0%num (Cubes.calculate_unit_mass_M_failure #0%num (Fin rho_water) (Fin rho_armour) (Fin Ns))).
Proof.
  Ltac unfold_Cubes := cbv beta delta [CorePhysics.calculate_wave_steepness_s CorePhysics.calculate_Iribarren_number_ksi CorePhysics.calculate_critical_Iribarren_number_ksi_mc CorePhysics.calculate_buoyant_density_Delta CorePhysics.calculate_stability_number_Ns CorePhysics.calculate_M50_from_Dn50 CorePhysics.calculate_Dn50_from_M50 CorePhysics.check_usage_Dn50_or_M50 CorePhysics.calculate_S_from_Nod CorePhysics.calculate_Nod_from_S CorePhysics.g_default CorePhysics.local_wavelength CorePhysics.two_pi CorePhysics.check_usage_stabilitynumber Numpy.deg2rad Cubes.formula Cubes.Ns_formula Cubes.calculate_nominal_diameter_Dn_vanDerMeer1988 Cubes.Tm_from_steepness Cubes.calculate_wave_height_Hs_vanDerMeer1988 Cubes.calculate_damage_Nod_vanDerMeer1988 Cubes.calculate_unit_mass_M_start_of_damage Cubes.calculate_unit_mass_M_failure Cubes.calculate_significant_wave_height_Hs_start_of_damage Cubes.calculate_significant_wave_height_Hs_failure Cubes.Ns_start_default Cubes.Ns_failure_default Hudson1959.calculate_median_rock_mass_M50_no_damage Hudson1959.calculate_significant_wave_height_Hs_no_damage Hudson1959.percentages Hudson1959.mult_factors_rough Hudson1959.mult_factors_smooth Hudson1959.lookup_table_damage_factors Hudson1959.calculate_median_rock_mass_M50 Hudson1959.calculate_significant_wave_height_Hs Hudson1959.alpha_Hs_default].
  split; [intros; all_positive; unfold_Cubes; zerorun|].
  split; [intros; all_positive; unfold_Cubes; zerorun|].
  intros; all_positive; unfold_Cubes; zerorun.
Qed.

Theorem C85_vandermeer1998 :
  (forall (ht h Dn50 rho_rock rho_water : R),
     positives (ht :: h :: Dn50 :: rho_rock :: rho_water :: nil) -> rho_water < rho_rock ->
     answer_is #0%num (VanderMeer1998.calculate_damage_Nod #0%num (Fin ht) (Fin h) (Fin Dn50) (Fin rho_rock) (Fin rho_water)))
  /\ (forall (ht h Nod rho_rock rho_water : R),
     positives (ht :: h :: Nod :: rho_rock :: rho_water :: nil) -> rho_water < rho_rock ->
     answer_is #0%num (VanderMeer1998.calculate_nominal_diameter_Dn50 #0%num (Fin ht) (Fin h) (Fin Nod) (Fin rho_rock) (Fin rho_water))).
Proof.
  Ltac unfold_VanderMeer1998 := cbv beta delta [CorePhysics.calculate_wave_steepness_s CorePhysics.calculate_Iribarren_number_ksi CorePhysics.calculate_critical_Iribarren_number_ksi_mc CorePhysics.calculate_buoyant_density_Delta CorePhysics.calculate_stability_number_Ns CorePhysics.calculate_M50_from_Dn50 CorePhysics.calculate_Dn50_from_M50 CorePhysics.check_usage_Dn50_or_M50 CorePhysics.calculate_S_from_Nod CorePhysics.calculate_Nod_from_S CorePhysics.g_default CorePhysics.local_wavelength CorePhysics.two_pi CorePhysics.check_usage_stabilitynumber Numpy.deg2rad VanderMeer1998.calculate_damage_Nod VanderMeer1998.calculate_nominal_diameter_Dn50 VanderMeer1998.calculate_wave_height_Hs VanderMeer1998.calculate_depth_above_toe_ht].
  split; [intros; all_positive; unfold_VanderMeer1998; zerorun|].
  intros; all_positive; unfold_VanderMeer1998; zerorun.
Qed.

Theorem C85_gerding1993 :
  (forall (ht h Dn50 rho_rock rho_water : R),
     positives (ht :: h :: Dn50 :: rho_rock :: rho_water :: nil) -> rho_water < rho_rock ->
     answer_is #0%num (Gerding1993.calculate_damage_Nod #0%num (Fin ht) (Fin h) (Fin Dn50) (Fin rho_rock) (Fin rho_water))).
Proof.
  Ltac unfold_Gerding1993 := cbv beta delta [CorePhysics.calculate_wave_steepness_s CorePhysics.calculate_Iribarren_number_ksi CorePhysics.calculate_critical_Iribarren_number_ksi_mc CorePhysics.calculate_buoyant_density_Delta CorePhysics.calculate_stability_number_Ns CorePhysics.calculate_M50_from_Dn50 CorePhysics.calculate_Dn50_from_M50 CorePhysics.check_usage_Dn50_or_M50 CorePhysics.calculate_S_from_Nod CorePhysics.calculate_Nod_from_S CorePhysics.g_default CorePhysics.local_wavelength CorePhysics.two_pi CorePhysics.check_usage_stabilitynumber Numpy.deg2rad Gerding1993.calculate_damage_Nod Gerding1993.calculate_nominal_diameter_Dn50 Gerding1993.calculate_wave_height_Hs Gerding1993.calculate_depth_above_toe_ht].
  intros; all_positive; unfold_Gerding1993; zerorun.
Qed.

Theorem C85_vangent2001 :
  (forall (Tmm10 gamma cot_alpha c0 c1 : R),
     positives (Tmm10 :: gamma :: cot_alpha :: c0 :: c1 :: nil) ->
     answer_is #0%num (VanGent2001.calculate_wave_runup_height_zXp #0%num (Fin Tmm10) (Fin gamma) (Fin cot_alpha) (Fin c0) (Fin c1)))
  /\ (forall (Tmm10 gamma cot_alpha c0 c1 : R),
     positives (Tmm10 :: gamma :: cot_alpha :: c0 :: c1 :: nil) ->
     answer_is #0%num (VanGent2001.calculate_wave_runup_height_z1p #0%num (Fin Tmm10) (Fin gamma) (Fin cot_alpha) (Fin c0) (Fin c1)))
  /\ (forall (Tmm10 gamma cot_alpha c0 c1 : R),
     positives (Tmm10 :: gamma :: cot_alpha :: c0 :: c1 :: nil) ->
     answer_is #0%num (VanGent2001.calculate_wave_runup_height_z10p #0%num (Fin Tmm10) (Fin gamma) (Fin cot_alpha) (Fin c0) (Fin c1))).
Proof.
  Ltac unfold_VanGent2001 := cbv beta delta [CorePhysics.calculate_wave_steepness_s CorePhysics.calculate_Iribarren_number_ksi CorePhysics.calculate_critical_Iribarren_number_ksi_mc CorePhysics.calculate_buoyant_density_Delta CorePhysics.calculate_stability_number_Ns CorePhysics.calculate_M50_from_Dn50 CorePhysics.calculate_Dn50_from_M50 CorePhysics.check_usage_Dn50_or_M50 CorePhysics.calculate_S_from_Nod CorePhysics.calculate_Nod_from_S CorePhysics.g_default CorePhysics.local_wavelength CorePhysics.two_pi CorePhysics.check_usage_stabilitynumber Numpy.deg2rad VanGent2001.calculate_wave_runup_height_zXp VanGent2001.calculate_wave_runup_height_z1p VanGent2001.z1p_c0 VanGent2001.z1p_c1 VanGent2001.calculate_wave_runup_height_z2p VanGent2001.z2p_c0 VanGent2001.z2p_c1 VanGent2001.calculate_wave_runup_height_z10p VanGent2001.z10p_c0 VanGent2001.z10p_c1 VanGent2001.invert_for_Hs VanGent2001.invert_c0 VanGent2001.invert_c1].
  split; [intros; all_positive; unfold_VanGent2001; zerorun|].
  split; [intros; all_positive; unfold_VanGent2001; zerorun|].
  intros; all_positive; unfold_VanGent2001; zerorun.
Qed.

Theorem C85_deridder2024 :
  (forall (smm10_HF gamma_f Rc : R),
     positives (smm10_HF :: gamma_f :: Rc :: nil) ->
     answer_is #0%num (DeRidder2024.calculate_dimensionless_overtopping_discharge_eq24 #0%num (Fin smm10_HF) (Fin gamma_f) (Fin Rc)))
  /\ (forall (smm10_HF gamma_f Rc g : R),
     positives (smm10_HF :: gamma_f :: Rc :: g :: nil) ->
     answer_is #0%num (DeRidder2024.calculate_overtopping_discharge_q_eq24 #0%num (Fin smm10_HF) (Fin gamma_f) (Fin Rc) (Fin g)))
  /\ (forall (smm10_HF gamma_f Rc : R),
     positives (smm10_HF :: gamma_f :: Rc :: nil) ->
     answer_is #0%num (DeRidder2024.calculate_dimensionless_overtopping_discharge_eq26 #0%num (Fin smm10_HF) #0%num (Fin gamma_f) (Fin Rc)))
  /\ (forall (smm10_HF gamma_f Rc g : R),
     positives (smm10_HF :: gamma_f :: Rc :: g :: nil) ->
     answer_is #0%num (DeRidder2024.calculate_overtopping_discharge_q_eq26 #0%num (Fin smm10_HF) #0%num (Fin gamma_f) (Fin Rc) (Fin g))).
Proof.
  Ltac unfold_DeRidder2024 := cbv beta delta [CorePhysics.calculate_wave_steepness_s CorePhysics.calculate_Iribarren_number_ksi CorePhysics.calculate_critical_Iribarren_number_ksi_mc CorePhysics.calculate_buoyant_density_Delta CorePhysics.calculate_stability_number_Ns CorePhysics.calculate_M50_from_Dn50 CorePhysics.calculate_Dn50_from_M50 CorePhysics.check_usage_Dn50_or_M50 CorePhysics.calculate_S_from_Nod CorePhysics.calculate_Nod_from_S CorePhysics.g_default CorePhysics.local_wavelength CorePhysics.two_pi CorePhysics.check_usage_stabilitynumber Numpy.deg2rad DeRidder2024.period_HF DeRidder2024.calculate_dimensionless_crest_freeboard_discharge_q_eq24 DeRidder2024.calculate_crest_freeboard_discharge_q_eq24 DeRidder2024.calculate_crest_freeboard_discharge_q_eq26 DeRidder2024.calculate_dimensionless_overtopping_discharge_eq24 DeRidder2024.calculate_overtopping_discharge_q_eq24 DeRidder2024.calculate_dimensionless_overtopping_discharge_eq26 DeRidder2024.calculate_overtopping_discharge_q_eq26].
  split; [intros; all_positive; unfold_DeRidder2024; zerorun|].
  split; [intros; all_positive; unfold_DeRidder2024; zerorun|].
  split; [intros; all_positive; unfold_DeRidder2024; zerorun|].
  intros; all_positive; unfold_DeRidder2024; zerorun.
Qed.

Theorem C85_deridder2026 :
  (forall (smm10_HF gamma_f Rc theta : R),
     positives (smm10_HF :: gamma_f :: Rc :: theta :: nil) ->
     answer_is #0%num (DeRidder2026.calculate_dimensionless_overtopping_discharge_eq28 #0%num (Fin smm10_HF) (Fin gamma_f) (Fin Rc) (Fin theta)))
  /\ (forall (smm10_HF gamma_f Rc g theta : R),
     positives (smm10_HF :: gamma_f :: Rc :: g :: theta :: nil) ->
     answer_is #0%num (DeRidder2026.calculate_overtopping_discharge_q_eq28 #0%num (Fin smm10_HF) (Fin gamma_f) (Fin Rc) (Fin g) (Fin theta)))
  /\ (forall (smm10_HF gamma_f Rc theta : R),
     positives (smm10_HF :: gamma_f :: Rc :: theta :: nil) ->
     answer_is #0%num (DeRidder2026.calculate_dimensionless_overtopping_discharge_eq32 #0%num (Fin smm10_HF) #0%num (Fin gamma_f) (Fin Rc) (Fin theta)))
  /\ (forall (smm10_HF gamma_f Rc g theta : R),
     positives (smm10_HF :: gamma_f :: Rc :: g :: theta :: nil) ->
     answer_is #0%num (DeRidder2026.calculate_overtopping_discharge_q_eq32 #0%num (Fin smm10_HF) #0%num (Fin gamma_f) (Fin Rc) (Fin g) (Fin theta))).
Proof.
  Ltac unfold_DeRidder2026 := cbv beta delta [CorePhysics.calculate_wave_steepness_s CorePhysics.calculate_Iribarren_number_ksi CorePhysics.calculate_critical_Iribarren_number_ksi_mc CorePhysics.calculate_buoyant_density_Delta CorePhysics.calculate_stability_number_Ns CorePhysics.calculate_M50_from_Dn50 CorePhysics.calculate_Dn50_from_M50 CorePhysics.check_usage_Dn50_or_M50 CorePhysics.calculate_S_from_Nod CorePhysics.calculate_Nod_from_S CorePhysics.g_default CorePhysics.local_wavelength CorePhysics.two_pi CorePhysics.check_usage_stabilitynumber Numpy.deg2rad DeRidder2026.period_HF DeRidder2026.calculate_gamma_beta DeRidder2026.calculate_dimensionless_crest_freeboard_discharge_q_eq28 DeRidder2026.calculate_crest_freeboard_discharge_q_eq28 DeRidder2026.calculate_crest_freeboard_discharge_q_eq32 DeRidder2026.calculate_dimensionless_overtopping_discharge_eq28 DeRidder2026.calculate_overtopping_discharge_q_eq28 DeRidder2026.calculate_dimensionless_overtopping_discharge_eq32 DeRidder2026.calculate_overtopping_discharge_q_eq32 DeRidder2026.theta_default].
  split; [intros; all_positive; unfold_DeRidder2026; zerorun|].
  split; [intros; all_positive; unfold_DeRidder2026; zerorun|].
  split; [intros; all_positive; unfold_DeRidder2026; zerorun|].
  intros; all_positive; unfold_DeRidder2026; zerorun.
Qed.

Theorem C85_overtoppingeurotop2007 :
  (forall (use_best_fit : bool) (Tmm10 Rc beta gamma_beta gamma_f cot_alpha c2 c3 : R),
     positives (Tmm10 :: Rc :: beta :: gamma_beta :: gamma_f :: cot_alpha :: c2 :: c3 :: nil) ->
     answer_is #0%num (OvertoppingEurotop2007.calculate_dimensionless_overtopping_discharge_q_rubble_mound #0%num (Fin Tmm10) (Fin Rc) (Fin beta) (Fin gamma_beta) (Fin gamma_f) (Fin cot_alpha) (Fin c2) (Fin c3) use_best_fit)).
Proof.
  Ltac unfold_OvertoppingEurotop2007 := cbv beta delta [CorePhysics.calculate_wave_steepness_s CorePhysics.calculate_Iribarren_number_ksi CorePhysics.calculate_critical_Iribarren_number_ksi_mc CorePhysics.calculate_buoyant_density_Delta CorePhysics.calculate_stability_number_Ns CorePhysics.calculate_M50_from_Dn50 CorePhysics.calculate_Dn50_from_M50 CorePhysics.check_usage_Dn50_or_M50 CorePhysics.calculate_S_from_Nod CorePhysics.calculate_Nod_from_S CorePhysics.g_default CorePhysics.local_wavelength CorePhysics.two_pi CorePhysics.check_usage_stabilitynumber Numpy.deg2rad OvertoppingEurotop2007.check_best_fit OvertoppingEurotop2007.c2_default OvertoppingEurotop2007.c3_default OvertoppingEurotop2007.influence_factors OvertoppingEurotop2007.calculate_dimensionless_overtopping_discharge_q_rubble_mound OvertoppingEurotop2007.calculate_overtopping_discharge_q_rubble_mound OvertoppingEurotop2007.calculate_dimensionless_crest_freeboard_rubble_mound OvertoppingEurotop2007.calculate_crest_freeboard_Rc_rubble_mound OvertoppingTAW2002.q_diml_max_equation OvertoppingTAW2002.cor3_default OvertoppingTAW2002.c2_default OvertoppingTAW2002.calculate_influence_oblique_waves_gamma_beta OvertoppingTAW2002.c_gamma_beta_default OvertoppingTAW2002.max_angle_default OvertoppingTAW2002.calculate_influence_crest_wall_gamma_v OvertoppingTAW2002.coefficients OvertoppingTAW2002.sigma_warning OvertoppingTAW2002.corrections OvertoppingTAW2002.influence_factors OvertoppingTAW2002.calculate_dimensionless_overtopping_discharge_q OvertoppingTAW2002.calculate_overtopping_discharge_q OvertoppingTAW2002.Rc_diml_max_equation OvertoppingTAW2002.calculate_dimensionless_crest_freeboard OvertoppingTAW2002.calculate_crest_freeboard_Rc RunupTAW2002.determine_average_slope RunupTAW2002.check_composite_slope RunupTAW2002.calculate_berm_length RunupTAW2002.check_calculate_gamma_beta RunupTAW2002.calculate_influence_berm_gamma_b RunupTAW2002.calculate_influence_oblique_waves_gamma_beta RunupTAW2002.c_gamma_beta_default RunupTAW2002.max_angle_default RunupTAW2002.calculate_adjusted_influence_roughness_gamma_f RunupTAW2002.best_fit_coefficients RunupTAW2002.c1_default RunupTAW2002.c2_default RunupTAW2002.c3_default RunupTAW2002.c4_default RunupTAW2002.iteration_procedure_z2p_body RunupTAW2002.iteration_procedure_gamma_b_body RunupTAW2002.tolerance_default RunupTAW2002.max_iter_default RunupTAW2002.dimensionless_body RunupTAW2002.runup_upto RunupTAW2002.depth_limit RunupTAW2002.calculate_wave_runup_height_z2p RunupTAW2002.calculate_dimensionless_wave_runup_height_z2p RunupTAW2002.iteration_procedure_z2p RunupTAW2002.iteration_procedure_gamma_b].
  intros; all_positive; unfold_OvertoppingEurotop2007; zerorun.
Qed.

Theorem C85_vangent2025 :
  (forall (ksi_mm10 cot_alpha Rc gamma_f gamma_b gamma_v gamma_beta : R),
     positives (ksi_mm10 :: cot_alpha :: Rc :: gamma_f :: gamma_b :: gamma_v :: gamma_beta :: nil) ->
     answer_is #0%num (VanGent2025.q_diml_max_equation #0%num #0%num (Fin ksi_mm10) (Fin cot_alpha) (Fin Rc) (Fin gamma_f) (Fin gamma_b) (Fin gamma_v) (Fin gamma_beta)))
  /\ (forall (design_calculation : bool) (include_influence_wind : bool) (Tmm10 Ac cot_alpha B_berm db Dn50 gamma_f gamma_b gamma_v gamma_beta Rc beta : R),
     positives (Tmm10 :: Ac :: cot_alpha :: B_berm :: db :: Dn50 :: gamma_f :: gamma_b :: gamma_v :: gamma_beta :: nil) ->
     answer_is NaN (VanGent2025.calculate_dimensionless_overtopping_discharge_q #0%num #0%num (Fin Tmm10) (Fin Rc) (Fin Ac) (Fin cot_alpha) (Fin beta) (Fin B_berm) (Fin db) (Fin Dn50) (Fin gamma_f) (Fin gamma_b) (Fin gamma_v) (Fin gamma_beta) design_calculation include_influence_wind))
  /\ (forall (design_calculation : bool) (include_influence_wind : bool) (Tmm10 Ac cot_alpha B_berm db Dn50 gamma_f gamma_b gamma_v gamma_beta g Rc beta : R),
     positives (Tmm10 :: Ac :: cot_alpha :: B_berm :: db :: Dn50 :: gamma_f :: gamma_b :: gamma_v :: gamma_beta :: g :: nil) ->
     answer_is NaN (VanGent2025.calculate_overtopping_discharge_q #0%num #0%num (Fin Tmm10) (Fin Rc) (Fin Ac) (Fin cot_alpha) (Fin beta) (Fin B_berm) (Fin db) (Fin Dn50) (Fin gamma_f) (Fin gamma_b) (Fin gamma_v) (Fin gamma_beta) (Fin g) design_calculation include_influence_wind))
  /\ (forall (q cot_alpha ksi_mm10 gamma_f gamma_b gamma_v gamma_beta g : R),
     positives (q :: cot_alpha :: ksi_mm10 :: gamma_f :: gamma_b :: gamma_v :: gamma_beta :: g :: nil) ->
     answer_is NaN (VanGent2025.Rc_diml_max_equation #0%num #0%num (Fin q) (Fin cot_alpha) (Fin ksi_mm10) (Fin gamma_f) (Fin gamma_b) (Fin gamma_v) (Fin gamma_beta) (Fin g)))
  /\ (forall (q_diml cot_alpha ksi_mm10 gamma_f gamma_b gamma_v gamma_beta : R),
     positives (q_diml :: cot_alpha :: ksi_mm10 :: gamma_f :: gamma_b :: gamma_v :: gamma_beta :: nil) ->
     answer_is NaN (VanGent2025.Rc_diml_equation #0%num #0%num (Fin q_diml) (Fin cot_alpha) (Fin ksi_mm10) (Fin gamma_f) (Fin gamma_b) (Fin gamma_v) (Fin gamma_beta)))
  /\ (forall (design_calculation : bool) (include_influence_wind : bool) (max_iter : nat) (Tmm10 q Ac cot_alpha B_berm db Dn50 gamma_f gamma_b gamma_v gamma_beta g tolerance beta : R),
     positives (Tmm10 :: q :: Ac :: cot_alpha :: B_berm :: db :: Dn50 :: gamma_f :: gamma_b :: gamma_v :: gamma_beta :: g :: tolerance :: nil) ->
     answer_is NaN (VanGent2025.calculate_dimensionless_crest_freeboard #0%num #0%num (Fin Tmm10) (Fin q) (Fin Ac) (Fin cot_alpha) (Fin beta) (Fin B_berm) (Fin db) (Fin Dn50) (Fin gamma_f) (Fin gamma_b) (Fin gamma_v) (Fin gamma_beta) (Fin g) design_calculation include_influence_wind max_iter (Fin tolerance)))
  /\ (forall (design_calculation : bool) (include_influence_wind : bool) (Tmm10 q Ac cot_alpha B_berm db Dn50 gamma_f gamma_b gamma_v gamma_beta beta : R),
     positives (Tmm10 :: q :: Ac :: cot_alpha :: B_berm :: db :: Dn50 :: gamma_f :: gamma_b :: gamma_v :: gamma_beta :: nil) ->
     answer_is NaN (VanGent2025.calculate_crest_freeboard_Rc #0%num #0%num (Fin Tmm10) (Fin q) (Fin Ac) (Fin cot_alpha) (Fin beta) (Fin B_berm) (Fin db) (Fin Dn50) (Fin gamma_f) (Fin gamma_b) (Fin gamma_v) (Fin gamma_beta) design_calculation include_influence_wind)).
Proof.
  Ltac unfold_VanGent2025 := cbv beta delta [CorePhysics.calculate_wave_steepness_s CorePhysics.calculate_Iribarren_number_ksi CorePhysics.calculate_critical_Iribarren_number_ksi_mc CorePhysics.calculate_buoyant_density_Delta CorePhysics.calculate_stability_number_Ns CorePhysics.calculate_M50_from_Dn50 CorePhysics.calculate_Dn50_from_M50 CorePhysics.check_usage_Dn50_or_M50 CorePhysics.calculate_S_from_Nod CorePhysics.calculate_Nod_from_S CorePhysics.g_default CorePhysics.local_wavelength CorePhysics.two_pi CorePhysics.check_usage_stabilitynumber Numpy.deg2rad VanGent2025.calculate_influence_friction_gamma_f VanGent2025.calculate_influence_berm_gamma_b VanGent2025.calculate_influence_oblique_waves_gamma_beta VanGent2025.calculate_influence_crest_wall_gamma_v VanGent2025.calculate_influence_wind_gamma_w VanGent2025.q_diml_max_equation VanGent2025.factor_beta VanGent2025.factor_b VanGent2025.factor_f VanGent2025.calculate_dimensionless_overtopping_discharge_q VanGent2025.calculate_overtopping_discharge_q VanGent2025.Rc_diml_max_equation VanGent2025.Rc_diml_equation VanGent2025.calculate_dimensionless_crest_freeboard VanGent2025.max_iter_default VanGent2025.tolerance_default VanGent2025.calculate_crest_freeboard_Rc VanGent2025.B_berm_default VanGent2025.db_default VanGent2025.gamma_v_default].
  split; [intros; all_positive; unfold_VanGent2025; zerorun|].
  split; [intros; all_positive; unfold_VanGent2025; zerorun|].
  split; [intros; all_positive; unfold_VanGent2025; zerorun|].
  split; [intros; all_positive; unfold_VanGent2025; zerorun|].
  split; [intros; all_positive; unfold_VanGent2025; zerorun|].
  split; [intros; all_positive; unfold_VanGent2025; zerorun|].
  intros; all_positive; unfold_VanGent2025; zerorun.
Qed.

Theorem C85_vangent2024setup :
  (forall (Tmm10 Rc : R),
     positives (Tmm10 :: Rc :: nil) ->
     answer_is NaN (VanGent2024Setup.calculate_dimensionless_structure_induced_setup_impermeable #0%num (Fin Tmm10) (Fin Rc)))
  /\ (forall (Tmm10 Rc : R),
     positives (Tmm10 :: Rc :: nil) ->
     answer_is NaN (VanGent2024Setup.calculate_structure_induced_setup_delta_impermeable #0%num (Fin Tmm10) (Fin Rc)))
  /\ (forall (Tmm10 Rc hc : R),
     positives (Tmm10 :: Rc :: hc :: nil) ->
     answer_is NaN (VanGent2024Setup.calculate_dimensionless_structure_induced_setup_permeable #0%num (Fin Tmm10) (Fin Rc) (Fin hc)))
  /\ (forall (Tmm10 Rc hc : R),
     positives (Tmm10 :: Rc :: hc :: nil) ->
     answer_is NaN (VanGent2024Setup.calculate_structure_induced_setup_delta_permeable #0%num (Fin Tmm10) (Fin Rc) (Fin hc))).
Proof.
  Ltac unfold_VanGent2024Setup := cbv beta delta [CorePhysics.calculate_wave_steepness_s CorePhysics.calculate_Iribarren_number_ksi CorePhysics.calculate_critical_Iribarren_number_ksi_mc CorePhysics.calculate_buoyant_density_Delta CorePhysics.calculate_stability_number_Ns CorePhysics.calculate_M50_from_Dn50 CorePhysics.calculate_Dn50_from_M50 CorePhysics.check_usage_Dn50_or_M50 CorePhysics.calculate_S_from_Nod CorePhysics.calculate_Nod_from_S CorePhysics.g_default CorePhysics.local_wavelength CorePhysics.two_pi CorePhysics.check_usage_stabilitynumber Numpy.deg2rad VanGent2024Setup.calculate_dimensionless_structure_induced_setup_impermeable VanGent2024Setup.calculate_structure_induced_setup_delta_impermeable VanGent2024Setup.calculate_dimensionless_structure_induced_setup_permeable VanGent2024Setup.calculate_structure_induced_setup_delta_permeable].
  split; [intros; all_positive; unfold_VanGent2024Setup; zerorun|].
  split; [intros; all_positive; unfold_VanGent2024Setup; zerorun|].
  split; [intros; all_positive; unfold_VanGent2024Setup; zerorun|].
  intros; all_positive; unfold_VanGent2024Setup; zerorun.
Qed.

Theorem C85_scaravaglione2025 :
  (forall (Tmm10 N_waves cot_alpha rho_armour rho_core Dn50 Dn50_core c_VGnew rho_water : R),
     positives (Tmm10 :: N_waves :: cot_alpha :: rho_armour :: rho_core :: Dn50 :: Dn50_core :: c_VGnew :: rho_water :: nil) -> rho_water < rho_armour ->
     answer_is NaN (Scaravaglione2025.calculate_damage_number_S #0%num (Fin Tmm10) (Fin N_waves) (Fin cot_alpha) (Fin rho_armour) (Fin rho_core) (Fin Dn50) (Fin Dn50_core) NaN NaN (Fin c_VGnew) (Fin rho_water)))
  /\ (forall (Tmm10 N_waves cot_alpha rho_armour rho_core S Dn50_core c_VGnew rho_water : R),
     positives (Tmm10 :: N_waves :: cot_alpha :: rho_armour :: rho_core :: S :: Dn50_core :: c_VGnew :: rho_water :: nil) -> rho_water < rho_armour ->
     answer_is NaN (Scaravaglione2025.calculate_nominal_rock_diameter_Dn50 #0%num (Fin Tmm10) (Fin N_waves) (Fin cot_alpha) (Fin rho_armour) (Fin rho_core) (Fin S) (Fin Dn50_core) NaN (Fin c_VGnew) (Fin rho_water))).
Proof.
  Ltac unfold_Scaravaglione2025 := cbv beta delta [CorePhysics.calculate_wave_steepness_s CorePhysics.calculate_Iribarren_number_ksi CorePhysics.calculate_critical_Iribarren_number_ksi_mc CorePhysics.calculate_buoyant_density_Delta CorePhysics.calculate_stability_number_Ns CorePhysics.calculate_M50_from_Dn50 CorePhysics.calculate_Dn50_from_M50 CorePhysics.check_usage_Dn50_or_M50 CorePhysics.calculate_S_from_Nod CorePhysics.calculate_Nod_from_S CorePhysics.g_default CorePhysics.local_wavelength CorePhysics.two_pi CorePhysics.check_usage_stabilitynumber Numpy.deg2rad Scaravaglione2025.sc25 Scaravaglione2025.calculate_damage_number_S Scaravaglione2025.calculate_nominal_rock_diameter_Dn50 Scaravaglione2025.calculate_significant_wave_height_Hm0 Scaravaglione2025.c_VGnew_default].
  split; [intros; all_positive; unfold_Scaravaglione2025; zerorun|].
  intros; all_positive; unfold_Scaravaglione2025; zerorun.
Qed.

Theorem C85_etemadshahidi2020 :
  (forall (use_depth_limited_version : bool) (Tmm10 N_waves cot_alpha rho_armour Dn50 Dn50_core rho_core rho_water m : R),
     positives (Tmm10 :: N_waves :: cot_alpha :: rho_armour :: Dn50 :: Dn50_core :: rho_core :: rho_water :: m :: nil) -> rho_water < rho_armour ->
     answer_is NaN (EtemadShahidi2020.calculate_damage_number_S #0%num (Fin Tmm10) (Fin N_waves) (Fin cot_alpha) (Fin rho_armour) (Fin Dn50) NaN (Fin Dn50_core) NaN (Fin rho_core) (Fin rho_water) (Fin m) use_depth_limited_version)).
Proof.
  Ltac unfold_EtemadShahidi2020 := cbv beta delta [CorePhysics.calculate_wave_steepness_s CorePhysics.calculate_Iribarren_number_ksi CorePhysics.calculate_critical_Iribarren_number_ksi_mc CorePhysics.calculate_buoyant_density_Delta CorePhysics.calculate_stability_number_Ns CorePhysics.calculate_M50_from_Dn50 CorePhysics.calculate_Dn50_from_M50 CorePhysics.check_usage_Dn50_or_M50 CorePhysics.calculate_S_from_Nod CorePhysics.calculate_Nod_from_S CorePhysics.g_default CorePhysics.local_wavelength CorePhysics.two_pi CorePhysics.check_usage_stabilitynumber Numpy.deg2rad EtemadShahidi2020.es20 EtemadShahidi2020.calculate_permeability_coefficient_Cp EtemadShahidi2020.influence_depth EtemadShahidi2020.calculate_damage_number_S EtemadShahidi2020.bound EtemadShahidi2020.calculate_nominal_rock_diameter_Dn50 EtemadShahidi2020.calculate_significant_wave_height_Hs].
  intros; all_positive; unfold_EtemadShahidi2020; zerorun.
Qed.

Theorem C85_vandermeer1988 :
  (forall (Tm N_waves cot_alpha P rho_armour Dn50 c_pl c_s rho_water : R),
     positives (Tm :: N_waves :: cot_alpha :: P :: rho_armour :: Dn50 :: c_pl :: c_s :: rho_water :: nil) -> rho_water < rho_armour ->
     answer_is NaN (VanderMeer1988.calculate_damage_number_S #0%num #0%num (Fin Tm) (Fin N_waves) (Fin cot_alpha) (Fin P) (Fin rho_armour) (Fin Dn50) NaN (Fin c_pl) (Fin c_s) (Fin rho_water)))
  /\ (forall (Tm N_waves cot_alpha P rho_armour S c_pl c_s rho_water : R),
     positives (Tm :: N_waves :: cot_alpha :: P :: rho_armour :: S :: c_pl :: c_s :: rho_water :: nil) -> rho_water < rho_armour ->
     answer_is NaN (VanderMeer1988.calculate_nominal_rock_diameter_Dn50 #0%num #0%num (Fin Tm) (Fin N_waves) (Fin cot_alpha) (Fin P) (Fin rho_armour) (Fin S) (Fin c_pl) (Fin c_s) (Fin rho_water))).
Proof.
  Ltac unfold_VanderMeer1988 := cbv beta delta [CorePhysics.calculate_wave_steepness_s CorePhysics.calculate_Iribarren_number_ksi CorePhysics.calculate_critical_Iribarren_number_ksi_mc CorePhysics.calculate_buoyant_density_Delta CorePhysics.calculate_stability_number_Ns CorePhysics.calculate_M50_from_Dn50 CorePhysics.calculate_Dn50_from_M50 CorePhysics.check_usage_Dn50_or_M50 CorePhysics.calculate_S_from_Nod CorePhysics.calculate_Nod_from_S CorePhysics.g_default CorePhysics.local_wavelength CorePhysics.two_pi CorePhysics.check_usage_stabilitynumber Numpy.deg2rad VanderMeer1988.vdm88 VanderMeer1988.calculate_correction_term_gamma_N VanderMeer1988.calculate_damage_number_S VanderMeer1988.calculate_nominal_rock_diameter_Dn50 VanderMeer1988.calculate_significant_wave_height_Hs VanderMeer1988.c_pl_default VanderMeer1988.c_s_default].
  split; [intros; all_positive; unfold_VanderMeer1988; zerorun|].
  intros; all_positive; unfold_VanderMeer1988; zerorun.
Qed.

Theorem C85_vandermeer1988modified :
  (forall (Tmm10 N_waves cot_alpha P rho_armour Dn50 c_pl c_s rho_water : R),
     positives (Tmm10 :: N_waves :: cot_alpha :: P :: rho_armour :: Dn50 :: c_pl :: c_s :: rho_water :: nil) -> rho_water < rho_armour ->
     answer_is NaN (VanderMeer1988Modified.calculate_damage_number_S #0%num #0%num (Fin Tmm10) (Fin N_waves) (Fin cot_alpha) (Fin P) (Fin rho_armour) (Fin Dn50) NaN (Fin c_pl) (Fin c_s) (Fin rho_water)))
  /\ (forall (Tmm10 N_waves cot_alpha P rho_armour S c_pl c_s rho_water : R),
     positives (Tmm10 :: N_waves :: cot_alpha :: P :: rho_armour :: S :: c_pl :: c_s :: rho_water :: nil) -> rho_water < rho_armour ->
     answer_is NaN (VanderMeer1988Modified.calculate_nominal_rock_diameter_Dn50 #0%num #0%num (Fin Tmm10) (Fin N_waves) (Fin cot_alpha) (Fin P) (Fin rho_armour) (Fin S) (Fin c_pl) (Fin c_s) (Fin rho_water)))
  /\ (forall (Tmm10 N_waves cot_alpha P rho_armour Dn50 c_pl c_s c_pl_mult c_s_mult : R),
     positives (Tmm10 :: N_waves :: cot_alpha :: P :: rho_armour :: Dn50 :: c_pl :: c_s :: c_pl_mult :: c_s_mult :: nil) -> 1025 < rho_armour ->
     answer_is NaN (VanderMeer1988Modified.damage_number_S_2021 #0%num (Fin Tmm10) (Fin N_waves) (Fin cot_alpha) (Fin P) (Fin rho_armour) (Fin Dn50) NaN (Fin c_pl) (Fin c_s) (Fin c_pl_mult) (Fin c_s_mult)))
  /\ (forall (Tmm10 N_waves cot_alpha P rho_armour S c_pl c_s c_pl_mult c_s_mult : R),
     positives (Tmm10 :: N_waves :: cot_alpha :: P :: rho_armour :: S :: c_pl :: c_s :: c_pl_mult :: c_s_mult :: nil) -> 1025 < rho_armour ->
     answer_is NaN (VanderMeer1988Modified.nominal_rock_diameter_Dn50_2021 #0%num (Fin Tmm10) (Fin N_waves) (Fin cot_alpha) (Fin P) (Fin rho_armour) (Fin S) (Fin c_pl) (Fin c_s) (Fin c_pl_mult) (Fin c_s_mult))).
Proof.
  Ltac unfold_VanderMeer1988Modified := cbv beta delta [CorePhysics.calculate_wave_steepness_s CorePhysics.calculate_Iribarren_number_ksi CorePhysics.calculate_critical_Iribarren_number_ksi_mc CorePhysics.calculate_buoyant_density_Delta CorePhysics.calculate_stability_number_Ns CorePhysics.calculate_M50_from_Dn50 CorePhysics.calculate_Dn50_from_M50 CorePhysics.check_usage_Dn50_or_M50 CorePhysics.calculate_S_from_Nod CorePhysics.calculate_Nod_from_S CorePhysics.g_default CorePhysics.local_wavelength CorePhysics.two_pi CorePhysics.check_usage_stabilitynumber Numpy.deg2rad VanderMeer1988Modified.vdmm VanderMeer1988Modified.calculate_damage_number_S VanderMeer1988Modified.calculate_nominal_rock_diameter_Dn50 VanderMeer1988Modified.calculate_significant_wave_height_Hs VanderMeer1988Modified.c_pl_default VanderMeer1988Modified.c_s_default VanderMeer1988Modified.damage_number_S_2021 VanderMeer1988Modified.nominal_rock_diameter_Dn50_2021 VanderMeer1988Modified.significant_wave_height_Hs_2021 VanderMeer1988Modified.c_pl_default_2021 VanderMeer1988Modified.c_s_default_2021].
  split; [intros; all_positive; unfold_VanderMeer1988Modified; zerorun|].
  split; [intros; all_positive; unfold_VanderMeer1988Modified; zerorun|].
  split; [intros; all_positive; unfold_VanderMeer1988Modified; zerorun|].
  intros; all_positive; unfold_VanderMeer1988Modified; zerorun.
Qed.

Theorem C85_jumelet2024 :
  (forall (Tmm10 N_waves cot_alpha rho_armour Dn50 c_pl rho_water : R),
     positives (Tmm10 :: N_waves :: cot_alpha :: rho_armour :: Dn50 :: c_pl :: rho_water :: nil) -> rho_water < rho_armour ->
     answer_is NaN (Jumelet2024.calculate_damage_number_S #0%num (Fin Tmm10) (Fin N_waves) (Fin cot_alpha) (Fin rho_armour) (Fin Dn50) NaN (Fin c_pl) (Fin rho_water)))
  /\ (forall (Tmm10 N_waves cot_alpha rho_armour S c_pl : R),
     positives (Tmm10 :: N_waves :: cot_alpha :: rho_armour :: S :: c_pl :: nil) -> 1025 < rho_armour ->
     answer_is NaN (Jumelet2024.calculate_nominal_rock_diameter_Dn50 #0%num (Fin Tmm10) (Fin N_waves) (Fin cot_alpha) (Fin rho_armour) (Fin S) (Fin c_pl))).
Proof.
  Ltac unfold_Jumelet2024 := cbv beta delta [CorePhysics.calculate_wave_steepness_s CorePhysics.calculate_Iribarren_number_ksi CorePhysics.calculate_critical_Iribarren_number_ksi_mc CorePhysics.calculate_buoyant_density_Delta CorePhysics.calculate_stability_number_Ns CorePhysics.calculate_M50_from_Dn50 CorePhysics.calculate_Dn50_from_M50 CorePhysics.check_usage_Dn50_or_M50 CorePhysics.calculate_S_from_Nod CorePhysics.calculate_Nod_from_S CorePhysics.g_default CorePhysics.local_wavelength CorePhysics.two_pi CorePhysics.check_usage_stabilitynumber Numpy.deg2rad Jumelet2024.ju24 Jumelet2024.calculate_fraction_plunging_waves_Fp Jumelet2024.calculate_damage_number_S Jumelet2024.calculate_nominal_rock_diameter_Dn50 Jumelet2024.calculate_significant_wave_height_Hs Jumelet2024.c_pl_default Jumelet2024.smm10_init_default].
  split; [intros; all_positive; unfold_Jumelet2024; zerorun|].
  intros; all_positive; unfold_Jumelet2024; zerorun.
Qed.

Theorem C85_rearvangentpozueta2004 :
  (forall (cot_alpha cot_phi gamma_f gamma_f_Crest Tmm10 Rc Rc_rear Bc N_waves Dn50 rho_rock rho_water cs : R),
     positives (cot_alpha :: cot_phi :: gamma_f :: gamma_f_Crest :: Tmm10 :: Rc :: Rc_rear :: Bc :: N_waves :: Dn50 :: rho_rock :: rho_water :: cs :: nil) -> rho_water < rho_rock ->
     answer_is NaN (RearVanGentPozueta2004.calculate_damage_number_S (Fin cot_alpha) (Fin cot_phi) (Fin gamma_f) (Fin gamma_f_Crest) #0%num (Fin Tmm10) (Fin Rc) (Fin Rc_rear) (Fin Bc) (Fin N_waves) (Fin Dn50) NaN (Fin rho_rock) (Fin rho_water) (Fin cs)))
  /\ (forall (cot_alpha cot_phi gamma_f gamma_f_Crest S Tmm10 Rc Rc_rear Bc rho_rock N_waves rho_water cs : R),
     positives (cot_alpha :: cot_phi :: gamma_f :: gamma_f_Crest :: S :: Tmm10 :: Rc :: Rc_rear :: Bc :: rho_rock :: N_waves :: rho_water :: cs :: nil) -> rho_water < rho_rock ->
     answer_is NaN (RearVanGentPozueta2004.calculate_nominal_rock_diameter_Dn50 (Fin cot_alpha) (Fin cot_phi) (Fin gamma_f) (Fin gamma_f_Crest) (Fin S) #0%num (Fin Tmm10) (Fin Rc) (Fin Rc_rear) (Fin Bc) (Fin rho_rock) (Fin N_waves) (Fin rho_water) (Fin cs))).
Proof.
  Ltac unfold_RearVanGentPozueta2004 := cbv beta delta [CorePhysics.calculate_wave_steepness_s CorePhysics.calculate_Iribarren_number_ksi CorePhysics.calculate_critical_Iribarren_number_ksi_mc CorePhysics.calculate_buoyant_density_Delta CorePhysics.calculate_stability_number_Ns CorePhysics.calculate_M50_from_Dn50 CorePhysics.calculate_Dn50_from_M50 CorePhysics.check_usage_Dn50_or_M50 CorePhysics.calculate_S_from_Nod CorePhysics.calculate_Nod_from_S CorePhysics.g_default CorePhysics.local_wavelength CorePhysics.two_pi CorePhysics.check_usage_stabilitynumber Numpy.deg2rad RearVanGentPozueta2004.calculate_damage_number_S RearVanGentPozueta2004.calculate_nominal_rock_diameter_Dn50 RearVanGentPozueta2004.invert_for_u1p RearVanGentPozueta2004.calculate_maximum_significant_wave_height_Hs RearVanGentPozueta2004.cs_default VanGent2001.calculate_wave_runup_height_zXp VanGent2001.calculate_wave_runup_height_z1p VanGent2001.z1p_c0 VanGent2001.z1p_c1 VanGent2001.calculate_wave_runup_height_z2p VanGent2001.z2p_c0 VanGent2001.z2p_c1 VanGent2001.calculate_wave_runup_height_z10p VanGent2001.z10p_c0 VanGent2001.z10p_c1 VanGent2001.invert_for_Hs VanGent2001.invert_c0 VanGent2001.invert_c1 VanGent2002Velocity.calculate_maximum_wave_overtopping_velocity_uXp VanGent2002Velocity.invert_for_zXp VanGent2002Velocity.cu1_default VanGent2002Velocity.cu2_default].
  split; [intros; all_positive; unfold_RearVanGentPozueta2004; zerorun|].
  intros; all_positive; unfold_RearVanGentPozueta2004; zerorun.
Qed.

Theorem C85_vangentvanderwerf2014 :
  (forall (Tmm10 ht Bt tt Dn50 rho_rock rho_water cot_alpha_armour_slope g c1 c2 c3 c4 c5 : R),
     positives (Tmm10 :: ht :: Bt :: tt :: Dn50 :: rho_rock :: rho_water :: cot_alpha_armour_slope :: g :: c1 :: c2 :: c3 :: c4 :: c5 :: nil) -> rho_water < rho_rock ->
     answer_is NaN (VanGentVanderWerf2014.calculate_damage_Nod #0%num (Fin Tmm10) (Fin ht) (Fin Bt) (Fin tt) (Fin Dn50) (Fin rho_rock) (Fin rho_water) (Fin cot_alpha_armour_slope) (Fin g) (Fin c1) (Fin c2) (Fin c3) (Fin c4) (Fin c5)))
  /\ (forall (Tmm10 ht Bt tt Nod rho_rock rho_water cot_alpha_armour_slope g : R),
     positives (Tmm10 :: ht :: Bt :: tt :: Nod :: rho_rock :: rho_water :: cot_alpha_armour_slope :: g :: nil) -> rho_water < rho_rock ->
     answer_is NaN (VanGentVanderWerf2014.calculate_nominal_diameter_Dn50 #0%num (Fin Tmm10) (Fin ht) (Fin Bt) (Fin tt) (Fin Nod) (Fin rho_rock) (Fin rho_water) (Fin cot_alpha_armour_slope) (Fin g))).
Proof.
  Ltac unfold_VanGentVanderWerf2014 := cbv beta delta [CorePhysics.calculate_wave_steepness_s CorePhysics.calculate_Iribarren_number_ksi CorePhysics.calculate_critical_Iribarren_number_ksi_mc CorePhysics.calculate_buoyant_density_Delta CorePhysics.calculate_stability_number_Ns CorePhysics.calculate_M50_from_Dn50 CorePhysics.calculate_Dn50_from_M50 CorePhysics.check_usage_Dn50_or_M50 CorePhysics.calculate_S_from_Nod CorePhysics.calculate_Nod_from_S CorePhysics.g_default CorePhysics.local_wavelength CorePhysics.two_pi CorePhysics.check_usage_stabilitynumber Numpy.deg2rad VanGentVanderWerf2014.calculate_velocity_u_delta VanGentVanderWerf2014.calculate_damage_Nod VanGentVanderWerf2014.calculate_nominal_diameter_Dn50 VanGentVanderWerf2014.default_damage_Nod].
  split; [intros; all_positive; unfold_VanGentVanderWerf2014; zerorun|].
  intros; all_positive; unfold_VanGentVanderWerf2014; zerorun.
Qed.

Theorem C85_vangent2002velocity :
  (forall (uXp Bc gamma_f gamma_f_Crest cu1 cu2 g Rc : R),
     positives (uXp :: Bc :: gamma_f :: gamma_f_Crest :: cu1 :: cu2 :: g :: nil) ->
     answer_is NaN (VanGent2002Velocity.invert_for_zXp #0%num (Fin uXp) (Fin Rc) (Fin Bc) (Fin gamma_f) (Fin gamma_f_Crest) (Fin cu1) (Fin cu2) (Fin g))).
Proof.
  Ltac unfold_VanGent2002Velocity := cbv beta delta [CorePhysics.calculate_wave_steepness_s CorePhysics.calculate_Iribarren_number_ksi CorePhysics.calculate_critical_Iribarren_number_ksi_mc CorePhysics.calculate_buoyant_density_Delta CorePhysics.calculate_stability_number_Ns CorePhysics.calculate_M50_from_Dn50 CorePhysics.calculate_Dn50_from_M50 CorePhysics.check_usage_Dn50_or_M50 CorePhysics.calculate_S_from_Nod CorePhysics.calculate_Nod_from_S CorePhysics.g_default CorePhysics.local_wavelength CorePhysics.two_pi CorePhysics.check_usage_stabilitynumber Numpy.deg2rad VanGent2002Velocity.calculate_maximum_wave_overtopping_velocity_uXp VanGent2002Velocity.invert_for_zXp VanGent2002Velocity.cu1_default VanGent2002Velocity.cu2_default].
  intros; all_positive; unfold_VanGent2002Velocity; zerorun.
Qed.
