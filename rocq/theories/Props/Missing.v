(** A missing number does not turn into a number. *)
From Coq Require Import Reals Lra List Bool String ZArith.
From Verif.Lib Require Import Num Monad RTac NTac.
From Verif.Spec Require Import Missing.
From Verif.Proofs Require Import Missing.
From Verif.Model Require CoreUtility Briganti2003 CorePhysics CrestWall2019 Cubes DAngremond1996 EtemadShahidi2021 Gerding1993 Hudson1959 HudsonUnits Numpy VanGent2001 VanGent2002Velocity VanGent2024Setup VanGentVanderWerf2014 VanderMeer1998 Xbloc.
Import ListNotations.
Open Scope R_scope.

(** * C83 *)
(** Steepness, Iribarren number, buoyant density, stability number, stone sizes and damage numbers. *)
Theorem C83_core :
  (forall H T g, missing [H; T; g] -> no_number (CorePhysics.calculate_wave_steepness_s H T g)) /\
  (forall H T cot_alpha, missing [H; T; cot_alpha] -> no_number (CorePhysics.calculate_Iribarren_number_ksi H T cot_alpha)) /\
  (forall c_pl c_s P cot_alpha, missing [P] -> no_number (CorePhysics.calculate_critical_Iribarren_number_ksi_mc c_pl c_s P cot_alpha)) /\
  (forall rho_rock rho_water, missing [rho_rock; rho_water] -> no_number (CorePhysics.calculate_buoyant_density_Delta rho_rock rho_water)) /\
  (forall H D rho_rock rho_water, missing [H; D; rho_rock; rho_water] -> no_number (CorePhysics.calculate_stability_number_Ns H D rho_rock rho_water)) /\
  (forall Dn50 rho_rock, missing [Dn50; rho_rock] -> no_number (CorePhysics.calculate_M50_from_Dn50 Dn50 rho_rock)) /\
  (forall M50 rho_rock, missing [M50; rho_rock] -> no_number (CorePhysics.calculate_Dn50_from_M50 M50 rho_rock)) /\
  (forall Nod G nv, missing [Nod; G; nv] -> no_number (CorePhysics.calculate_S_from_Nod Nod G nv)) /\
  (forall S G nv, missing [S; G; nv] -> no_number (CorePhysics.calculate_Nod_from_S S G nv)).
Proof.
  repeat apply conj; missing;
    cbv beta delta [CorePhysics.calculate_wave_steepness_s CorePhysics.calculate_Iribarren_number_ksi
      CorePhysics.calculate_critical_Iribarren_number_ksi_mc CorePhysics.calculate_buoyant_density_Delta CorePhysics.calculate_stability_number_Ns
      CorePhysics.calculate_M50_from_Dn50 CorePhysics.calculate_Dn50_from_M50 CorePhysics.check_usage_Dn50_or_M50 CorePhysics.calculate_S_from_Nod
      CorePhysics.calculate_Nod_from_S CorePhysics.g_default CorePhysics.local_wavelength CorePhysics.two_pi CorePhysics.check_usage_stabilitynumber
      Numpy.deg2rad CorePhysics.g_default CorePhysics.calculate_wave_steepness_s CorePhysics.calculate_Iribarren_number_ksi
      CorePhysics.calculate_critical_Iribarren_number_ksi_mc CorePhysics.calculate_buoyant_density_Delta CorePhysics.calculate_stability_number_Ns
      CorePhysics.calculate_M50_from_Dn50 CorePhysics.calculate_Dn50_from_M50 CorePhysics.check_usage_Dn50_or_M50 CorePhysics.calculate_S_from_Nod
      CorePhysics.calculate_Nod_from_S CorePhysics.is_none CorePhysics.b2n CorePhysics.check_usage_stabilitynumber CorePhysics.two_pi
      CorePhysics.omegas CorePhysics.calculate_local_wavelength CorePhysics.local_wavelength]; nanrun.
Qed.

(** Run-up levels of Van Gent (2001). *)
Theorem C83_runup_vangent2001 :
  (forall H Tmm10 gamma cot_alpha c0 c1, missing [H; Tmm10; gamma; cot_alpha; c0; c1] -> no_number (VanGent2001.calculate_wave_runup_height_zXp H Tmm10 gamma cot_alpha c0 c1)) /\
  (forall Hs Tmm10 gamma cot_alpha c0 c1, missing [Hs; Tmm10; gamma; cot_alpha; c0; c1] -> no_number (VanGent2001.calculate_wave_runup_height_z1p Hs Tmm10 gamma cot_alpha c0 c1)) /\
  (forall Tmm10 gamma cot_alpha Hm0 Hs c0 c1, missing [Tmm10; gamma; cot_alpha] -> no_number (VanGent2001.calculate_wave_runup_height_z2p Tmm10 gamma cot_alpha Hm0 Hs c0 c1)) /\
  (forall Hs Tmm10 gamma cot_alpha c0 c1, missing [Hs; Tmm10; gamma; cot_alpha; c0; c1] -> no_number (VanGent2001.calculate_wave_runup_height_z10p Hs Tmm10 gamma cot_alpha c0 c1)).
Proof.
  repeat apply conj; missing;
    cbv beta delta [CorePhysics.calculate_wave_steepness_s CorePhysics.calculate_Iribarren_number_ksi
      CorePhysics.calculate_critical_Iribarren_number_ksi_mc CorePhysics.calculate_buoyant_density_Delta CorePhysics.calculate_stability_number_Ns
      CorePhysics.calculate_M50_from_Dn50 CorePhysics.calculate_Dn50_from_M50 CorePhysics.check_usage_Dn50_or_M50 CorePhysics.calculate_S_from_Nod
      CorePhysics.calculate_Nod_from_S CorePhysics.g_default CorePhysics.local_wavelength CorePhysics.two_pi CorePhysics.check_usage_stabilitynumber
      Numpy.deg2rad VanGent2001.calculate_wave_runup_height_zXp VanGent2001.calculate_wave_runup_height_z1p VanGent2001.z1p_c0 VanGent2001.z1p_c1
      VanGent2001.calculate_wave_runup_height_z2p VanGent2001.z2p_c0 VanGent2001.z2p_c1 VanGent2001.calculate_wave_runup_height_z10p
      VanGent2001.z10p_c0 VanGent2001.z10p_c1 VanGent2001.invert_for_Hs VanGent2001.invert_c0 VanGent2001.invert_c1]; nanrun.
Qed.

(** Velocity of overtopping water. *)
Theorem C83_velocity :
  (forall Hs zXp Rc Bc gamma_f gamma_f_Crest cu1 cu2 g, missing [Hs; zXp; Rc; Bc; gamma_f; gamma_f_Crest; cu1; cu2; g] -> no_number (VanGent2002Velocity.calculate_maximum_wave_overtopping_velocity_uXp Hs zXp Rc Bc gamma_f gamma_f_Crest cu1 cu2 g)).
Proof.
  repeat apply conj; missing;
    cbv beta delta [CorePhysics.calculate_wave_steepness_s CorePhysics.calculate_Iribarren_number_ksi
      CorePhysics.calculate_critical_Iribarren_number_ksi_mc CorePhysics.calculate_buoyant_density_Delta CorePhysics.calculate_stability_number_Ns
      CorePhysics.calculate_M50_from_Dn50 CorePhysics.calculate_Dn50_from_M50 CorePhysics.check_usage_Dn50_or_M50 CorePhysics.calculate_S_from_Nod
      CorePhysics.calculate_Nod_from_S CorePhysics.g_default CorePhysics.local_wavelength CorePhysics.two_pi CorePhysics.check_usage_stabilitynumber
      Numpy.deg2rad VanGent2002Velocity.calculate_maximum_wave_overtopping_velocity_uXp VanGent2002Velocity.invert_for_zXp
      VanGent2002Velocity.cu1_default VanGent2002Velocity.cu2_default]; nanrun.
Qed.

(** Set-up. *)
Theorem C83_setup :
  (forall Hm0 Tmm10 Rc, missing [Hm0; Tmm10; Rc] -> no_number (VanGent2024Setup.calculate_dimensionless_structure_induced_setup_impermeable Hm0 Tmm10 Rc)) /\
  (forall Hm0 Tmm10 Rc, missing [Hm0; Tmm10; Rc] -> no_number (VanGent2024Setup.calculate_structure_induced_setup_delta_impermeable Hm0 Tmm10 Rc)) /\
  (forall Hm0 Tmm10 Rc hc, missing [Hm0; Tmm10; Rc; hc] -> no_number (VanGent2024Setup.calculate_dimensionless_structure_induced_setup_permeable Hm0 Tmm10 Rc hc)) /\
  (forall Hm0 Tmm10 Rc hc, missing [Hm0; Tmm10; Rc; hc] -> no_number (VanGent2024Setup.calculate_structure_induced_setup_delta_permeable Hm0 Tmm10 Rc hc)).
Proof.
  repeat apply conj; missing;
    cbv beta delta [CorePhysics.calculate_wave_steepness_s CorePhysics.calculate_Iribarren_number_ksi
      CorePhysics.calculate_critical_Iribarren_number_ksi_mc CorePhysics.calculate_buoyant_density_Delta CorePhysics.calculate_stability_number_Ns
      CorePhysics.calculate_M50_from_Dn50 CorePhysics.calculate_Dn50_from_M50 CorePhysics.check_usage_Dn50_or_M50 CorePhysics.calculate_S_from_Nod
      CorePhysics.calculate_Nod_from_S CorePhysics.g_default CorePhysics.local_wavelength CorePhysics.two_pi CorePhysics.check_usage_stabilitynumber
      Numpy.deg2rad VanGent2024Setup.calculate_dimensionless_structure_induced_setup_impermeable
      VanGent2024Setup.calculate_structure_induced_setup_delta_impermeable VanGent2024Setup.calculate_dimensionless_structure_induced_setup_permeable
      VanGent2024Setup.calculate_structure_induced_setup_delta_permeable]; nanrun.
Qed.

(** Transmission: d'Angremond et al. *)
Theorem C83_dangremond :
  (forall Hsi Tpi h Rc B cot_alpha C1 do_validity_check, missing [Hsi; Tpi; Rc; B; cot_alpha; C1] -> no_number (DAngremond1996.calculate_wave_transmission_Kt_permeable Hsi Tpi h Rc B cot_alpha C1 do_validity_check)) /\
  (forall Hsi Tpi h Rc B cot_alpha C1, missing [Hsi; Tpi; Rc; B; cot_alpha; C1] -> no_number (DAngremond1996.calculate_wave_transmission_Kt_impermeable Hsi Tpi h Rc B cot_alpha C1)).
Proof.
  repeat apply conj; missing;
    cbv beta delta [CorePhysics.calculate_wave_steepness_s CorePhysics.calculate_Iribarren_number_ksi
      CorePhysics.calculate_critical_Iribarren_number_ksi_mc CorePhysics.calculate_buoyant_density_Delta CorePhysics.calculate_stability_number_Ns
      CorePhysics.calculate_M50_from_Dn50 CorePhysics.calculate_Dn50_from_M50 CorePhysics.check_usage_Dn50_or_M50 CorePhysics.calculate_S_from_Nod
      CorePhysics.calculate_Nod_from_S CorePhysics.g_default CorePhysics.local_wavelength CorePhysics.two_pi CorePhysics.check_usage_stabilitynumber
      Numpy.deg2rad DAngremond1996.calculate_wave_transmission_Kt_permeable DAngremond1996.C1_permeable
      DAngremond1996.calculate_wave_transmission_Kt_impermeable DAngremond1996.C1_impermeable]; nanrun.
Qed.

(** Transmission: Briganti et al. *)
Theorem C83_briganti :
  (forall Hsi Tpi Rc B cot_alpha, missing [Hsi; Tpi; Rc; B; cot_alpha] -> no_number (Briganti2003.calculate_wave_transmission_Kt Hsi Tpi Rc B cot_alpha)).
Proof.
  repeat apply conj; missing;
    cbv beta delta [CorePhysics.calculate_wave_steepness_s CorePhysics.calculate_Iribarren_number_ksi
      CorePhysics.calculate_critical_Iribarren_number_ksi_mc CorePhysics.calculate_buoyant_density_Delta CorePhysics.calculate_stability_number_Ns
      CorePhysics.calculate_M50_from_Dn50 CorePhysics.calculate_Dn50_from_M50 CorePhysics.check_usage_Dn50_or_M50 CorePhysics.calculate_S_from_Nod
      CorePhysics.calculate_Nod_from_S CorePhysics.g_default CorePhysics.local_wavelength CorePhysics.two_pi CorePhysics.check_usage_stabilitynumber
      Numpy.deg2rad Briganti2003.calculate_wave_transmission_Kt Briganti2003.calculate_wave_transmission_Kt_array
      DAngremond1996.calculate_wave_transmission_Kt_permeable DAngremond1996.C1_permeable DAngremond1996.calculate_wave_transmission_Kt_impermeable
      DAngremond1996.C1_impermeable]; nanrun.
Qed.

(** Forces on crest walls. *)
Theorem C83_crestwall :
  (forall z2p Ac beta gamma_A, missing [z2p; Ac; beta; gamma_A] -> no_number (CrestWall2019.calculate_influence_oblique_waves_force_gamma_F_beta z2p Ac beta gamma_A)) /\
  (forall z2p Ac beta gamma_A, missing [z2p; Ac; beta; gamma_A] -> no_number (CrestWall2019.calculate_influence_oblique_waves_horizontal_force_gamma_FH_beta z2p Ac beta gamma_A)) /\
  (forall z2p Ac beta gamma_A, missing [z2p; Ac; beta; gamma_A] -> no_number (CrestWall2019.calculate_influence_oblique_waves_vertical_force_gamma_FV_beta z2p Ac beta gamma_A)) /\
  (forall beta c_beta, missing [beta; c_beta] -> no_number (CrestWall2019.calculate_influence_oblique_waves_gamma_beta beta c_beta)) /\
  (forall Hm0 z2p Ac Rc Hwall rho_water g cFH, missing [z2p; Ac; Hwall; rho_water; g; cFH] -> no_number (CrestWall2019.calculate_FH2p_perpendicular_from_z2p Hm0 z2p Ac Rc Hwall rho_water g cFH)) /\
  (forall Hm0 Tmm10 cot_alpha Ac Rc Hwall gamma_beta gamma_f c0 c1 rho_water g cFH, missing [Hm0; Tmm10; cot_alpha; Ac; Hwall; gamma_beta; gamma_f; c0; c1; rho_water; g; cFH] -> no_number (CrestWall2019.calculate_FH2p_perpendicular Hm0 Tmm10 cot_alpha Ac Rc Hwall gamma_beta gamma_f c0 c1 rho_water g cFH)) /\
  (forall Hm0 Tmm10 beta cot_alpha Ac Rc Hwall gamma_beta gamma_f c0 c1 cFH rho_water g, missing [Hm0; Tmm10; beta; cot_alpha; Ac; Hwall; gamma_beta; gamma_f; c0; c1; cFH; rho_water; g] -> no_number (CrestWall2019.calculate_FH2p_oblique Hm0 Tmm10 beta cot_alpha Ac Rc Hwall gamma_beta gamma_f c0 c1 cFH rho_water g)) /\
  (forall z2p Ac Bwall Fb cFV cFb rho_water g, missing [z2p; Ac; Bwall; cFV; rho_water; g] -> no_number (CrestWall2019.calculate_FV2p_perpendicular_from_z2p z2p Ac Bwall Fb cFV cFb rho_water g)) /\
  (forall Hm0 Tmm10 cot_alpha Ac Bwall Fb gamma_beta gamma_f c0 c1 cFV cFb rho_water g, missing [Hm0; Tmm10; cot_alpha; Ac; Bwall; gamma_beta; gamma_f; c0; c1; cFV; rho_water; g] -> no_number (CrestWall2019.calculate_FV2p_perpendicular Hm0 Tmm10 cot_alpha Ac Bwall Fb gamma_beta gamma_f c0 c1 cFV cFb rho_water g)) /\
  (forall Hm0 Tmm10 beta cot_alpha Ac Bwall Fb gamma_beta gamma_f c0 c1 cFV cFb rho_water g, missing [Hm0; Tmm10; beta; cot_alpha; Ac; Bwall; gamma_beta; gamma_f; c0; c1; cFV; rho_water; g] -> no_number (CrestWall2019.calculate_FV2p_oblique Hm0 Tmm10 beta cot_alpha Ac Bwall Fb gamma_beta gamma_f c0 c1 cFV cFb rho_water g)) /\
  (forall FH2p, missing [FH2p] -> no_number (CrestWall2019.calculate_FH01p_perpendicular FH2p)) /\
  (forall FV2p s0p, missing [FV2p; s0p] -> no_number (CrestWall2019.calculate_FV01p_perpendicular FV2p s0p)).
Proof.
  repeat apply conj; missing;
    cbv beta delta [CorePhysics.calculate_wave_steepness_s CorePhysics.calculate_Iribarren_number_ksi
      CorePhysics.calculate_critical_Iribarren_number_ksi_mc CorePhysics.calculate_buoyant_density_Delta CorePhysics.calculate_stability_number_Ns
      CorePhysics.calculate_M50_from_Dn50 CorePhysics.calculate_Dn50_from_M50 CorePhysics.check_usage_Dn50_or_M50 CorePhysics.calculate_S_from_Nod
      CorePhysics.calculate_Nod_from_S CorePhysics.g_default CorePhysics.local_wavelength CorePhysics.two_pi CorePhysics.check_usage_stabilitynumber
      Numpy.deg2rad CrestWall2019.calculate_influence_oblique_waves_force_gamma_F_beta
      CrestWall2019.calculate_influence_oblique_waves_horizontal_force_gamma_FH_beta CrestWall2019.gamma_A_FH
      CrestWall2019.calculate_influence_oblique_waves_vertical_force_gamma_FV_beta CrestWall2019.gamma_A_FV
      CrestWall2019.calculate_influence_oblique_waves_gamma_beta CrestWall2019.gamma_beta_c CrestWall2019.calculate_FH2p_perpendicular_from_z2p
      CrestWall2019.calculate_FH2p_perpendicular CrestWall2019.calculate_FH2p_oblique CrestWall2019.calculate_FV2p_perpendicular_from_z2p
      CrestWall2019.calculate_FV2p_perpendicular CrestWall2019.calculate_FV2p_oblique CrestWall2019.calculate_FH01p_perpendicular
      CrestWall2019.calculate_FV01p_perpendicular CrestWall2019.default_gamma_beta CrestWall2019.default_gamma_f CrestWall2019.default_c0
      CrestWall2019.default_c1 CrestWall2019.default_cFH CrestWall2019.default_cFV CrestWall2019.default_cFb CrestWall2019.default_rho_water
      VanGent2001.calculate_wave_runup_height_zXp VanGent2001.calculate_wave_runup_height_z1p VanGent2001.z1p_c0 VanGent2001.z1p_c1
      VanGent2001.calculate_wave_runup_height_z2p VanGent2001.z2p_c0 VanGent2001.z2p_c1 VanGent2001.calculate_wave_runup_height_z10p
      VanGent2001.z10p_c0 VanGent2001.z10p_c1 VanGent2001.invert_for_Hs VanGent2001.invert_c0 VanGent2001.invert_c1]; nanrun.
Qed.

(** Hudson. *)
Theorem C83_hudson :
  (forall Hs rho_water rho_armour KD cot_alpha alpha_Hs, missing [Hs; rho_water; rho_armour; KD; cot_alpha; alpha_Hs] -> no_number (Hudson1959.calculate_median_rock_mass_M50_no_damage Hs rho_water rho_armour KD cot_alpha alpha_Hs)) /\
  (forall M50 rho_water rho_armour KD cot_alpha alpha_Hs, missing [M50; rho_water; rho_armour; KD; cot_alpha; alpha_Hs] -> no_number (Hudson1959.calculate_significant_wave_height_Hs_no_damage M50 rho_water rho_armour KD cot_alpha alpha_Hs)) /\
  (forall Hs rho_water rho_armour KD cot_alpha damage_percentage rock_type alpha_Hs, missing [Hs; rho_water; rho_armour; KD; cot_alpha; alpha_Hs] -> no_number (Hudson1959.calculate_median_rock_mass_M50 Hs rho_water rho_armour KD cot_alpha damage_percentage rock_type alpha_Hs)) /\
  (forall M50 rho_water rho_armour KD cot_alpha damage_percentage rock_type alpha_Hs, missing [M50; rho_water; rho_armour; KD; cot_alpha; alpha_Hs] -> no_number (Hudson1959.calculate_significant_wave_height_Hs M50 rho_water rho_armour KD cot_alpha damage_percentage rock_type alpha_Hs)).
Proof.
  repeat apply conj; missing;
    cbv beta delta [CorePhysics.calculate_wave_steepness_s CorePhysics.calculate_Iribarren_number_ksi
      CorePhysics.calculate_critical_Iribarren_number_ksi_mc CorePhysics.calculate_buoyant_density_Delta CorePhysics.calculate_stability_number_Ns
      CorePhysics.calculate_M50_from_Dn50 CorePhysics.calculate_Dn50_from_M50 CorePhysics.check_usage_Dn50_or_M50 CorePhysics.calculate_S_from_Nod
      CorePhysics.calculate_Nod_from_S CorePhysics.g_default CorePhysics.local_wavelength CorePhysics.two_pi CorePhysics.check_usage_stabilitynumber
      Numpy.deg2rad Hudson1959.calculate_median_rock_mass_M50_no_damage Hudson1959.calculate_significant_wave_height_Hs_no_damage
      Hudson1959.percentages Hudson1959.mult_factors_rough Hudson1959.mult_factors_smooth Hudson1959.lookup_table_damage_factors
      Hudson1959.calculate_median_rock_mass_M50 Hudson1959.calculate_significant_wave_height_Hs Hudson1959.alpha_Hs_default Numpy.Rtrunc
      Numpy.astype_int Numpy.number_of Numpy.vectorize Numpy.deg2rad]; nanrun.
Qed.

(** Concrete units. *)
Theorem C83_units :
  (forall Hs rho_water rho_armour KD cot_alpha alpha_Hs, missing [Hs; rho_water; rho_armour; KD; cot_alpha; alpha_Hs] -> no_number (HudsonUnits.accropode2_unit_mass_M Hs rho_water rho_armour KD cot_alpha alpha_Hs)) /\
  (forall m rho_water rho_armour KD cot_alpha alpha_Hs, missing [m; rho_water; rho_armour; KD; cot_alpha; alpha_Hs] -> no_number (HudsonUnits.accropode2_wave_height_Hs m rho_water rho_armour KD cot_alpha alpha_Hs)) /\
  (forall seabed_slope_perc, missing [seabed_slope_perc] -> no_number (HudsonUnits.accropode2_KD_breaking seabed_slope_perc)) /\
  (forall Hs rho_water rho_armour KD cot_alpha alpha_Hs, missing [Hs; rho_water; rho_armour; KD; cot_alpha; alpha_Hs] -> no_number (HudsonUnits.accropode_unit_mass_M Hs rho_water rho_armour KD cot_alpha alpha_Hs)) /\
  (forall m rho_water rho_armour KD cot_alpha alpha_Hs, missing [m; rho_water; rho_armour; KD; cot_alpha; alpha_Hs] -> no_number (HudsonUnits.accropode_wave_height_Hs m rho_water rho_armour KD cot_alpha alpha_Hs)) /\
  (forall seabed_slope_perc, missing [seabed_slope_perc] -> no_number (HudsonUnits.accropode_KD_breaking seabed_slope_perc)) /\
  (forall Hs rho_water rho_armour KD cot_alpha alpha_Hs, missing [Hs; rho_water; rho_armour; KD; cot_alpha; alpha_Hs] -> no_number (HudsonUnits.core_loc_unit_mass_M Hs rho_water rho_armour KD cot_alpha alpha_Hs)) /\
  (forall m rho_water rho_armour KD cot_alpha alpha_Hs, missing [m; rho_water; rho_armour; KD; cot_alpha; alpha_Hs] -> no_number (HudsonUnits.core_loc_wave_height_Hs m rho_water rho_armour KD cot_alpha alpha_Hs)) /\
  (forall seabed_slope_perc, missing [seabed_slope_perc] -> no_number (HudsonUnits.core_loc_KD_breaking seabed_slope_perc)) /\
  (forall Hs rho_water rho_armour KD cot_alpha alpha_Hs, missing [Hs; rho_water; rho_armour; KD; cot_alpha; alpha_Hs] -> no_number (HudsonUnits.cubes_unit_mass_M Hs rho_water rho_armour KD cot_alpha alpha_Hs)) /\
  (forall m rho_water rho_armour KD cot_alpha alpha_Hs, missing [m; rho_water; rho_armour; KD; cot_alpha; alpha_Hs] -> no_number (HudsonUnits.cubes_wave_height_Hs m rho_water rho_armour KD cot_alpha alpha_Hs)) /\
  (forall Hs rho_water rho_armour KD cot_alpha alpha_Hs, missing [Hs; rho_water; rho_armour; KD; cot_alpha; alpha_Hs] -> no_number (HudsonUnits.cubipod_unit_mass_M Hs rho_water rho_armour KD cot_alpha alpha_Hs)) /\
  (forall m rho_water rho_armour KD cot_alpha alpha_Hs, missing [m; rho_water; rho_armour; KD; cot_alpha; alpha_Hs] -> no_number (HudsonUnits.cubipod_wave_height_Hs m rho_water rho_armour KD cot_alpha alpha_Hs)) /\
  (forall Hs rho_water rho_armour KD cot_alpha alpha_Hs, missing [Hs; rho_water; rho_armour; KD; cot_alpha; alpha_Hs] -> no_number (HudsonUnits.tetrapod_unit_mass_M Hs rho_water rho_armour KD cot_alpha alpha_Hs)) /\
  (forall m rho_water rho_armour KD cot_alpha alpha_Hs, missing [m; rho_water; rho_armour; KD; cot_alpha; alpha_Hs] -> no_number (HudsonUnits.tetrapod_wave_height_Hs m rho_water rho_armour KD cot_alpha alpha_Hs)).
Proof.
  repeat apply conj; missing;
    cbv beta delta [CorePhysics.calculate_wave_steepness_s CorePhysics.calculate_Iribarren_number_ksi
      CorePhysics.calculate_critical_Iribarren_number_ksi_mc CorePhysics.calculate_buoyant_density_Delta CorePhysics.calculate_stability_number_Ns
      CorePhysics.calculate_M50_from_Dn50 CorePhysics.calculate_Dn50_from_M50 CorePhysics.check_usage_Dn50_or_M50 CorePhysics.calculate_S_from_Nod
      CorePhysics.calculate_Nod_from_S CorePhysics.g_default CorePhysics.local_wavelength CorePhysics.two_pi CorePhysics.check_usage_stabilitynumber
      Numpy.deg2rad HudsonUnits.accropode2_unit_mass_M HudsonUnits.accropode2_wave_height_Hs HudsonUnits.accropode2_KD_breaking
      HudsonUnits.accropode2_KD_nonbreaking HudsonUnits.accropode_unit_mass_M HudsonUnits.accropode_wave_height_Hs HudsonUnits.accropode_KD_breaking
      HudsonUnits.accropode_KD_nonbreaking HudsonUnits.core_loc_unit_mass_M HudsonUnits.core_loc_wave_height_Hs HudsonUnits.core_loc_KD_breaking
      HudsonUnits.core_loc_KD_nonbreaking HudsonUnits.cubes_unit_mass_M HudsonUnits.cubes_wave_height_Hs HudsonUnits.cubipod_unit_mass_M
      HudsonUnits.cubipod_wave_height_Hs HudsonUnits.tetrapod_unit_mass_M HudsonUnits.tetrapod_wave_height_Hs
      Hudson1959.calculate_median_rock_mass_M50_no_damage Hudson1959.calculate_significant_wave_height_Hs_no_damage Hudson1959.percentages
      Hudson1959.mult_factors_rough Hudson1959.mult_factors_smooth Hudson1959.lookup_table_damage_factors Hudson1959.calculate_median_rock_mass_M50
      Hudson1959.calculate_significant_wave_height_Hs Hudson1959.alpha_Hs_default Numpy.Rtrunc Numpy.astype_int Numpy.number_of Numpy.vectorize
      Numpy.deg2rad]; nanrun.
Qed.

(** Cubes. *)
Theorem C83_cubes :
  (forall Hs Tm rho_water rho_armour N_waves cot_alpha Nod, missing [Hs; Tm; rho_water; rho_armour; N_waves; Nod] -> no_number (Cubes.calculate_nominal_diameter_Dn_vanDerMeer1988 Hs Tm rho_water rho_armour N_waves cot_alpha Nod)) /\
  (forall Dn s0m rho_water rho_armour N_waves cot_alpha Nod, missing [Dn; s0m; rho_water; rho_armour; N_waves; Nod] -> no_number (Cubes.calculate_wave_height_Hs_vanDerMeer1988 Dn s0m rho_water rho_armour N_waves cot_alpha Nod)) /\
  (forall Hs Dn s0m rho_water rho_armour N_waves cot_alpha, missing [Hs; Dn; s0m; rho_water; rho_armour; N_waves] -> no_number (Cubes.calculate_damage_Nod_vanDerMeer1988 Hs Dn s0m rho_water rho_armour N_waves cot_alpha)) /\
  (forall Hs rho_water rho_armour Ns, missing [Hs; rho_water; rho_armour; Ns] -> no_number (Cubes.calculate_unit_mass_M_start_of_damage Hs rho_water rho_armour Ns)) /\
  (forall Hs rho_water rho_armour Ns, missing [Hs; rho_water; rho_armour; Ns] -> no_number (Cubes.calculate_unit_mass_M_failure Hs rho_water rho_armour Ns)) /\
  (forall m rho_water rho_armour Ns, missing [m; rho_water; rho_armour; Ns] -> no_number (Cubes.calculate_significant_wave_height_Hs_start_of_damage m rho_water rho_armour Ns)) /\
  (forall m rho_water rho_armour Ns, missing [m; rho_water; rho_armour; Ns] -> no_number (Cubes.calculate_significant_wave_height_Hs_failure m rho_water rho_armour Ns)).
Proof.
  repeat apply conj; missing;
    cbv beta delta [CorePhysics.calculate_wave_steepness_s CorePhysics.calculate_Iribarren_number_ksi
      CorePhysics.calculate_critical_Iribarren_number_ksi_mc CorePhysics.calculate_buoyant_density_Delta CorePhysics.calculate_stability_number_Ns
      CorePhysics.calculate_M50_from_Dn50 CorePhysics.calculate_Dn50_from_M50 CorePhysics.check_usage_Dn50_or_M50 CorePhysics.calculate_S_from_Nod
      CorePhysics.calculate_Nod_from_S CorePhysics.g_default CorePhysics.local_wavelength CorePhysics.two_pi CorePhysics.check_usage_stabilitynumber
      Numpy.deg2rad Cubes.formula Cubes.Ns_formula Cubes.calculate_nominal_diameter_Dn_vanDerMeer1988 Cubes.Tm_from_steepness
      Cubes.calculate_wave_height_Hs_vanDerMeer1988 Cubes.calculate_damage_Nod_vanDerMeer1988 Cubes.calculate_unit_mass_M_start_of_damage
      Cubes.calculate_unit_mass_M_failure Cubes.calculate_significant_wave_height_Hs_start_of_damage
      Cubes.calculate_significant_wave_height_Hs_failure Cubes.Ns_start_default Cubes.Ns_failure_default
      Hudson1959.calculate_median_rock_mass_M50_no_damage Hudson1959.calculate_significant_wave_height_Hs_no_damage Hudson1959.percentages
      Hudson1959.mult_factors_rough Hudson1959.mult_factors_smooth Hudson1959.lookup_table_damage_factors Hudson1959.calculate_median_rock_mass_M50
      Hudson1959.calculate_significant_wave_height_Hs Hudson1959.alpha_Hs_default]; nanrun.
Qed.

(** Xbloc and XblocPlus sizes. *)
Theorem C83_xbloc :
  (forall V rho_water rho_armour total_correction_factor, missing [V; rho_water; rho_armour; total_correction_factor] -> no_number (Xbloc.xbloc_wave_height_Hs_from_V V rho_water rho_armour total_correction_factor)) /\
  (forall m rho_water rho_armour total_correction_factor, missing [m; rho_water; rho_armour; total_correction_factor] -> no_number (Xbloc.xbloc_wave_height_Hs_from_M m rho_water rho_armour total_correction_factor)) /\
  (forall Hs rho_water rho_armour total_correction_factor, missing [Hs; rho_water; rho_armour; total_correction_factor] -> no_number (Xbloc.xbloc_unit_volume_V Hs rho_water rho_armour total_correction_factor)) /\
  (forall Hs rho_water rho_armour total_correction_factor, missing [Hs; rho_water; rho_armour; total_correction_factor] -> no_number (Xbloc.xbloc_unit_mass_M Hs rho_water rho_armour total_correction_factor)) /\
  (forall V rho_water rho_armour total_correction_factor, missing [V; rho_water; rho_armour; total_correction_factor] -> no_number (Xbloc.xblocplus_wave_height_Hs_from_V V rho_water rho_armour total_correction_factor)) /\
  (forall m rho_water rho_armour total_correction_factor, missing [m; rho_water; rho_armour; total_correction_factor] -> no_number (Xbloc.xblocplus_wave_height_Hs_from_M m rho_water rho_armour total_correction_factor)) /\
  (forall Hs rho_water rho_armour total_correction_factor, missing [Hs; rho_water; rho_armour; total_correction_factor] -> no_number (Xbloc.xblocplus_unit_volume_V Hs rho_water rho_armour total_correction_factor)) /\
  (forall Hs rho_water rho_armour total_correction_factor, missing [Hs; rho_water; rho_armour; total_correction_factor] -> no_number (Xbloc.xblocplus_unit_mass_M Hs rho_water rho_armour total_correction_factor)).
Proof.
  repeat apply conj; missing;
    cbv beta delta [CorePhysics.calculate_wave_steepness_s CorePhysics.calculate_Iribarren_number_ksi
      CorePhysics.calculate_critical_Iribarren_number_ksi_mc CorePhysics.calculate_buoyant_density_Delta CorePhysics.calculate_stability_number_Ns
      CorePhysics.calculate_M50_from_Dn50 CorePhysics.calculate_Dn50_from_M50 CorePhysics.check_usage_Dn50_or_M50 CorePhysics.calculate_S_from_Nod
      CorePhysics.calculate_Nod_from_S CorePhysics.g_default CorePhysics.local_wavelength CorePhysics.two_pi CorePhysics.check_usage_stabilitynumber
      Numpy.deg2rad Xbloc.xbloc_wave_height_Hs_from_V Xbloc.xbloc_wave_height_Hs_from_M Xbloc.xbloc_unit_volume_V Xbloc.xbloc_unit_mass_M
      Xbloc.xbloc_factor_cotalpha_seabed Xbloc.xbloc_factor_percslope_seabed Xbloc.xbloc_factor_relative_freeboard Xbloc.xbloc_factor_rel_depth
      Xbloc.xbloc_factor_design_event_frequency Xbloc.xbloc_factor_core_permeability Xbloc.xbloc_factor_structure_slope
      Xbloc.xblocplus_wave_height_Hs_from_V Xbloc.xblocplus_wave_height_Hs_from_M Xbloc.xblocplus_unit_volume_V Xbloc.xblocplus_unit_mass_M
      Xbloc.xblocplus_factor_cotalpha_seabed Xbloc.xblocplus_factor_percslope_seabed Xbloc.xblocplus_factor_relative_freeboard
      Xbloc.xblocplus_factor_core_permeability]; nanrun.
Qed.

(** Toe berms: Gerding. *)
Theorem C83_gerding :
  (forall Hs ht h Dn50 rho_rock rho_water, missing [Hs; ht; Dn50; rho_rock; rho_water] -> no_number (Gerding1993.calculate_damage_Nod Hs ht h Dn50 rho_rock rho_water)) /\
  (forall Hs ht h Nod rho_rock rho_water, missing [Hs; ht; Nod; rho_rock; rho_water] -> no_number (Gerding1993.calculate_nominal_diameter_Dn50 Hs ht h Nod rho_rock rho_water)) /\
  (forall Dn50 ht h Nod rho_rock rho_water, missing [Dn50; ht; Nod; rho_rock; rho_water] -> no_number (Gerding1993.calculate_wave_height_Hs Dn50 ht h Nod rho_rock rho_water)) /\
  (forall Hs Dn50 h Nod rho_rock rho_water, missing [Hs; Dn50; Nod; rho_rock; rho_water] -> no_number (Gerding1993.calculate_depth_above_toe_ht Hs Dn50 h Nod rho_rock rho_water)).
Proof.
  repeat apply conj; missing;
    cbv beta delta [CorePhysics.calculate_wave_steepness_s CorePhysics.calculate_Iribarren_number_ksi
      CorePhysics.calculate_critical_Iribarren_number_ksi_mc CorePhysics.calculate_buoyant_density_Delta CorePhysics.calculate_stability_number_Ns
      CorePhysics.calculate_M50_from_Dn50 CorePhysics.calculate_Dn50_from_M50 CorePhysics.check_usage_Dn50_or_M50 CorePhysics.calculate_S_from_Nod
      CorePhysics.calculate_Nod_from_S CorePhysics.g_default CorePhysics.local_wavelength CorePhysics.two_pi CorePhysics.check_usage_stabilitynumber
      Numpy.deg2rad Gerding1993.calculate_damage_Nod Gerding1993.calculate_nominal_diameter_Dn50 Gerding1993.calculate_wave_height_Hs
      Gerding1993.calculate_depth_above_toe_ht]; nanrun.
Qed.

(** Toe berms: Van der Meer (1998). *)
Theorem C83_vandermeer1998 :
  (forall Hs ht h Dn50 rho_rock rho_water, missing [Hs; ht; h; Dn50; rho_rock; rho_water] -> no_number (VanderMeer1998.calculate_damage_Nod Hs ht h Dn50 rho_rock rho_water)) /\
  (forall Hs ht h Nod rho_rock rho_water, missing [Hs; ht; h; Nod; rho_rock; rho_water] -> no_number (VanderMeer1998.calculate_nominal_diameter_Dn50 Hs ht h Nod rho_rock rho_water)) /\
  (forall Dn50 ht h Nod rho_rock rho_water, missing [Dn50; ht; h; Nod; rho_rock; rho_water] -> no_number (VanderMeer1998.calculate_wave_height_Hs Dn50 ht h Nod rho_rock rho_water)) /\
  (forall Hs Dn50 h Nod rho_rock rho_water, missing [Hs; Dn50; h; Nod; rho_rock; rho_water] -> no_number (VanderMeer1998.calculate_depth_above_toe_ht Hs Dn50 h Nod rho_rock rho_water)).
Proof.
  repeat apply conj; missing;
    cbv beta delta [CorePhysics.calculate_wave_steepness_s CorePhysics.calculate_Iribarren_number_ksi
      CorePhysics.calculate_critical_Iribarren_number_ksi_mc CorePhysics.calculate_buoyant_density_Delta CorePhysics.calculate_stability_number_Ns
      CorePhysics.calculate_M50_from_Dn50 CorePhysics.calculate_Dn50_from_M50 CorePhysics.check_usage_Dn50_or_M50 CorePhysics.calculate_S_from_Nod
      CorePhysics.calculate_Nod_from_S CorePhysics.g_default CorePhysics.local_wavelength CorePhysics.two_pi CorePhysics.check_usage_stabilitynumber
      Numpy.deg2rad VanderMeer1998.calculate_damage_Nod VanderMeer1998.calculate_nominal_diameter_Dn50 VanderMeer1998.calculate_wave_height_Hs
      VanderMeer1998.calculate_depth_above_toe_ht]; nanrun.
Qed.

(** Toe berms: Van Gent and Van der Werf. *)
Theorem C83_vangent_vanderwerf :
  (forall Hs Tmm10 ht g, missing [Hs; Tmm10; ht; g] -> no_number (VanGentVanderWerf2014.calculate_velocity_u_delta Hs Tmm10 ht g)) /\
  (forall Hm0 Tmm10 ht Bt tt Dn50 rho_rock rho_water cot_alpha_armour_slope g c1 c2 c3 c4 c5, missing [c1] -> no_number (VanGentVanderWerf2014.calculate_damage_Nod Hm0 Tmm10 ht Bt tt Dn50 rho_rock rho_water cot_alpha_armour_slope g c1 c2 c3 c4 c5)) /\
  (forall Hm0 Tmm10 ht Bt tt Nod rho_rock rho_water cot_alpha_armour_slope g, missing [Hm0; Tmm10; ht; Bt; tt; Nod; rho_rock; rho_water; g] -> no_number (VanGentVanderWerf2014.calculate_nominal_diameter_Dn50 Hm0 Tmm10 ht Bt tt Nod rho_rock rho_water cot_alpha_armour_slope g)).
Proof.
  repeat apply conj; missing;
    cbv beta delta [CorePhysics.calculate_wave_steepness_s CorePhysics.calculate_Iribarren_number_ksi
      CorePhysics.calculate_critical_Iribarren_number_ksi_mc CorePhysics.calculate_buoyant_density_Delta CorePhysics.calculate_stability_number_Ns
      CorePhysics.calculate_M50_from_Dn50 CorePhysics.calculate_Dn50_from_M50 CorePhysics.check_usage_Dn50_or_M50 CorePhysics.calculate_S_from_Nod
      CorePhysics.calculate_Nod_from_S CorePhysics.g_default CorePhysics.local_wavelength CorePhysics.two_pi CorePhysics.check_usage_stabilitynumber
      Numpy.deg2rad VanGentVanderWerf2014.calculate_velocity_u_delta VanGentVanderWerf2014.calculate_damage_Nod
      VanGentVanderWerf2014.calculate_nominal_diameter_Dn50 VanGentVanderWerf2014.default_damage_Nod]; nanrun.
Qed.

(** Toe berms: Etemad-Shahidi et al. (2021). *)
Theorem C83_etemad_shahidi_2021 :
  (forall Hs Tmm10 h ht Bt Nod m rho_rock rho_water g c1 c2 c3 c4 c5 c6 c7, missing [Hs; m; rho_rock; rho_water; c1; c2; c7] -> no_number (EtemadShahidi2021.calculate_nominal_diameter_Dn50 Hs Tmm10 h ht Bt Nod m rho_rock rho_water g c1 c2 c3 c4 c5 c6 c7)).
Proof.
  repeat apply conj; missing;
    cbv beta delta [CorePhysics.calculate_wave_steepness_s CorePhysics.calculate_Iribarren_number_ksi
      CorePhysics.calculate_critical_Iribarren_number_ksi_mc CorePhysics.calculate_buoyant_density_Delta CorePhysics.calculate_stability_number_Ns
      CorePhysics.calculate_M50_from_Dn50 CorePhysics.calculate_Dn50_from_M50 CorePhysics.check_usage_Dn50_or_M50 CorePhysics.calculate_S_from_Nod
      CorePhysics.calculate_Nod_from_S CorePhysics.g_default CorePhysics.local_wavelength CorePhysics.two_pi CorePhysics.check_usage_stabilitynumber
      Numpy.deg2rad EtemadShahidi2021.formula EtemadShahidi2021.calculate_damage_Nod EtemadShahidi2021.calculate_nominal_diameter_Dn50
      EtemadShahidi2021.calculate_significant_wave_height_Hs EtemadShahidi2021.c1_d EtemadShahidi2021.c2_d EtemadShahidi2021.c3_d
      EtemadShahidi2021.c4_d EtemadShahidi2021.c5_d EtemadShahidi2021.c6_d EtemadShahidi2021.c7_d]; nanrun.
Qed.
