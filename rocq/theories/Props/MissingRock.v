(** A missing number does not turn into a number: rock armour. *)
From Coq Require Import Reals Lra List Bool String ZArith.
From Verif.Lib Require Import Num Monad RTac NTac.
From Verif.Spec Require Import Missing.
From Verif.Proofs Require Import Missing.
From Verif.Model Require CoreUtility CorePhysics EtemadShahidi2020 Jumelet2024 KramerBurcharth2004 Numpy RearVanGent2007 RearVanGentPozueta2004 Scaravaglione2025 VanGent2001 VanGent2002Velocity VanderMeer1988 VanderMeer1988Modified.
Import ListNotations.
Open Scope R_scope.

(** * C83 *)
(** Scaravaglione et al. *)
Theorem C83_scaravaglione :
  (forall Hm0 Tmm10 N_waves cot_alpha rho_armour rho_core Dn50 Dn50_core M50 M50_core c_VGnew rho_water, missing [Hm0; Tmm10; N_waves; cot_alpha; rho_armour; c_VGnew; rho_water] -> no_number (Scaravaglione2025.calculate_damage_number_S Hm0 Tmm10 N_waves cot_alpha rho_armour rho_core Dn50 Dn50_core M50 M50_core c_VGnew rho_water)) /\
  (forall Hm0 Tmm10 N_waves cot_alpha rho_armour rho_core S Dn50_core M50_core c_VGnew rho_water, missing [Hm0; Tmm10; N_waves; cot_alpha; rho_armour; S; c_VGnew; rho_water] -> no_number (Scaravaglione2025.calculate_nominal_rock_diameter_Dn50 Hm0 Tmm10 N_waves cot_alpha rho_armour rho_core S Dn50_core M50_core c_VGnew rho_water)) /\
  (forall Tmm10 N_waves cot_alpha rho_armour rho_core S Dn50 Dn50_core M50 M50_core c_VGnew g rho_water, missing [Tmm10; N_waves; cot_alpha; rho_armour; S; c_VGnew; g; rho_water] -> no_number (Scaravaglione2025.calculate_significant_wave_height_Hm0 Tmm10 N_waves cot_alpha rho_armour rho_core S Dn50 Dn50_core M50 M50_core c_VGnew g rho_water)).
Proof.
  repeat apply conj; missing;
    cbv beta delta [CorePhysics.calculate_wave_steepness_s CorePhysics.calculate_Iribarren_number_ksi
      CorePhysics.calculate_critical_Iribarren_number_ksi_mc CorePhysics.calculate_buoyant_density_Delta CorePhysics.calculate_stability_number_Ns
      CorePhysics.calculate_M50_from_Dn50 CorePhysics.calculate_Dn50_from_M50 CorePhysics.check_usage_Dn50_or_M50 CorePhysics.calculate_S_from_Nod
      CorePhysics.calculate_Nod_from_S CorePhysics.g_default CorePhysics.local_wavelength CorePhysics.two_pi CorePhysics.check_usage_stabilitynumber
      Numpy.deg2rad Scaravaglione2025.sc25 Scaravaglione2025.calculate_damage_number_S Scaravaglione2025.calculate_nominal_rock_diameter_Dn50
      Scaravaglione2025.calculate_significant_wave_height_Hm0 Scaravaglione2025.c_VGnew_default]; nanrun.
Qed.

(** Etemad-Shahidi et al. (2020). *)
Theorem C83_etemad_shahidi_2020 :
  (forall Dn50 Dn50_core, missing [Dn50; Dn50_core] -> no_number (EtemadShahidi2020.calculate_permeability_coefficient_Cp Dn50 Dn50_core)) /\
  (forall Hs Tmm10 N_waves cot_alpha rho_armour Dn50 M50 Dn50_core M50_core rho_core rho_water m use_depth_limited_version, missing [Hs; Tmm10; N_waves; cot_alpha; rho_armour; rho_water] -> no_number (EtemadShahidi2020.calculate_damage_number_S Hs Tmm10 N_waves cot_alpha rho_armour Dn50 M50 Dn50_core M50_core rho_core rho_water m use_depth_limited_version)) /\
  (forall Tmm10 N_waves cot_alpha rho_armour S Dn50 M50 Dn50_core M50_core rho_core m use_depth_limited_version g, missing [Tmm10; N_waves; cot_alpha; rho_armour; S; g] -> no_number (EtemadShahidi2020.calculate_significant_wave_height_Hs Tmm10 N_waves cot_alpha rho_armour S Dn50 M50 Dn50_core M50_core rho_core m use_depth_limited_version g)).
Proof.
  repeat apply conj; missing;
    cbv beta delta [CorePhysics.calculate_wave_steepness_s CorePhysics.calculate_Iribarren_number_ksi
      CorePhysics.calculate_critical_Iribarren_number_ksi_mc CorePhysics.calculate_buoyant_density_Delta CorePhysics.calculate_stability_number_Ns
      CorePhysics.calculate_M50_from_Dn50 CorePhysics.calculate_Dn50_from_M50 CorePhysics.check_usage_Dn50_or_M50 CorePhysics.calculate_S_from_Nod
      CorePhysics.calculate_Nod_from_S CorePhysics.g_default CorePhysics.local_wavelength CorePhysics.two_pi CorePhysics.check_usage_stabilitynumber
      Numpy.deg2rad EtemadShahidi2020.es20 EtemadShahidi2020.calculate_permeability_coefficient_Cp EtemadShahidi2020.influence_depth
      EtemadShahidi2020.calculate_damage_number_S EtemadShahidi2020.bound EtemadShahidi2020.calculate_nominal_rock_diameter_Dn50
      EtemadShahidi2020.calculate_significant_wave_height_Hs]; nanrun.
Qed.

(** Jumelet et al. *)
Theorem C83_jumelet :
  (forall ksi_mm10, missing [ksi_mm10] -> no_number (Jumelet2024.calculate_fraction_plunging_waves_Fp ksi_mm10)) /\
  (forall Hs Tmm10 N_waves cot_alpha rho_armour Dn50 M50 c_pl rho_water, missing [Hs; Tmm10; N_waves; cot_alpha; rho_armour; c_pl; rho_water] -> no_number (Jumelet2024.calculate_damage_number_S Hs Tmm10 N_waves cot_alpha rho_armour Dn50 M50 c_pl rho_water)) /\
  (forall Hs Tmm10 N_waves cot_alpha rho_armour S c_pl, missing [Hs; Tmm10; N_waves; cot_alpha; rho_armour; S; c_pl] -> no_number (Jumelet2024.calculate_nominal_rock_diameter_Dn50 Hs Tmm10 N_waves cot_alpha rho_armour S c_pl)).
Proof.
  repeat apply conj; missing;
    cbv beta delta [CorePhysics.calculate_wave_steepness_s CorePhysics.calculate_Iribarren_number_ksi
      CorePhysics.calculate_critical_Iribarren_number_ksi_mc CorePhysics.calculate_buoyant_density_Delta CorePhysics.calculate_stability_number_Ns
      CorePhysics.calculate_M50_from_Dn50 CorePhysics.calculate_Dn50_from_M50 CorePhysics.check_usage_Dn50_or_M50 CorePhysics.calculate_S_from_Nod
      CorePhysics.calculate_Nod_from_S CorePhysics.g_default CorePhysics.local_wavelength CorePhysics.two_pi CorePhysics.check_usage_stabilitynumber
      Numpy.deg2rad Jumelet2024.ju24 Jumelet2024.calculate_fraction_plunging_waves_Fp Jumelet2024.calculate_damage_number_S
      Jumelet2024.calculate_nominal_rock_diameter_Dn50 Jumelet2024.calculate_significant_wave_height_Hs Jumelet2024.c_pl_default
      Jumelet2024.smm10_init_default]; nanrun.
Qed.

(** Van der Meer. *)
Theorem C83_vandermeer :
  (forall Hs H2p Tm N_waves cot_alpha P rho_armour Dn50 M50 c_pl c_s rho_water, missing [Hs; H2p; N_waves; cot_alpha; P; rho_armour; rho_water] -> no_number (VanderMeer1988.calculate_damage_number_S Hs H2p Tm N_waves cot_alpha P rho_armour Dn50 M50 c_pl c_s rho_water)) /\
  (forall Hs H2p Tm N_waves cot_alpha P rho_armour S c_pl c_s rho_water, missing [Hs; H2p; N_waves; cot_alpha; P; rho_armour; S; rho_water] -> no_number (VanderMeer1988.calculate_nominal_rock_diameter_Dn50 Hs H2p Tm N_waves cot_alpha P rho_armour S c_pl c_s rho_water)) /\
  (forall ratio_H2p_Hs Tm N_waves cot_alpha P rho_armour S Dn50 M50 c_pl c_s g rho_water, missing [P] -> no_number (VanderMeer1988.calculate_significant_wave_height_Hs ratio_H2p_Hs Tm N_waves cot_alpha P rho_armour S Dn50 M50 c_pl c_s g rho_water)).
Proof.
  repeat apply conj; missing;
    cbv beta delta [CorePhysics.calculate_wave_steepness_s CorePhysics.calculate_Iribarren_number_ksi
      CorePhysics.calculate_critical_Iribarren_number_ksi_mc CorePhysics.calculate_buoyant_density_Delta CorePhysics.calculate_stability_number_Ns
      CorePhysics.calculate_M50_from_Dn50 CorePhysics.calculate_Dn50_from_M50 CorePhysics.check_usage_Dn50_or_M50 CorePhysics.calculate_S_from_Nod
      CorePhysics.calculate_Nod_from_S CorePhysics.g_default CorePhysics.local_wavelength CorePhysics.two_pi CorePhysics.check_usage_stabilitynumber
      Numpy.deg2rad VanderMeer1988.vdm88 VanderMeer1988.calculate_correction_term_gamma_N VanderMeer1988.calculate_damage_number_S
      VanderMeer1988.calculate_nominal_rock_diameter_Dn50 VanderMeer1988.calculate_significant_wave_height_Hs VanderMeer1988.c_pl_default
      VanderMeer1988.c_s_default]; nanrun.
Qed.

(** Modified Van der Meer. *)
Theorem C83_vandermeer_modified :
  (forall Hs H2p Tmm10 N_waves cot_alpha P rho_armour Dn50 M50 c_pl c_s rho_water, missing [Hs; H2p; N_waves; cot_alpha; P; rho_armour; rho_water] -> no_number (VanderMeer1988Modified.calculate_damage_number_S Hs H2p Tmm10 N_waves cot_alpha P rho_armour Dn50 M50 c_pl c_s rho_water)) /\
  (forall Hs H2p Tmm10 N_waves cot_alpha P rho_armour S c_pl c_s rho_water, missing [Hs; H2p; N_waves; cot_alpha; P; rho_armour; S; rho_water] -> no_number (VanderMeer1988Modified.calculate_nominal_rock_diameter_Dn50 Hs H2p Tmm10 N_waves cot_alpha P rho_armour S c_pl c_s rho_water)) /\
  (forall ratio_H2p_Hs Tmm10 N_waves cot_alpha P rho_armour S Dn50 M50 c_pl c_s g rho_water, missing [P] -> no_number (VanderMeer1988Modified.calculate_significant_wave_height_Hs ratio_H2p_Hs Tmm10 N_waves cot_alpha P rho_armour S Dn50 M50 c_pl c_s g rho_water)) /\
  (forall Hs Tmm10 N_waves cot_alpha P rho_armour Dn50 M50 c_pl c_s c_pl_mult c_s_mult, missing [Hs; N_waves; cot_alpha; P; rho_armour] -> no_number (VanderMeer1988Modified.damage_number_S_2021 Hs Tmm10 N_waves cot_alpha P rho_armour Dn50 M50 c_pl c_s c_pl_mult c_s_mult)) /\
  (forall Hs Tmm10 N_waves cot_alpha P rho_armour S c_pl c_s c_pl_mult c_s_mult, missing [Hs; N_waves; cot_alpha; P; rho_armour; S] -> no_number (VanderMeer1988Modified.nominal_rock_diameter_Dn50_2021 Hs Tmm10 N_waves cot_alpha P rho_armour S c_pl c_s c_pl_mult c_s_mult)) /\
  (forall Tmm10 N_waves cot_alpha P rho_armour S Dn50 M50 c_pl c_s c_pl_mult c_s_mult g, missing [P] -> no_number (VanderMeer1988Modified.significant_wave_height_Hs_2021 Tmm10 N_waves cot_alpha P rho_armour S Dn50 M50 c_pl c_s c_pl_mult c_s_mult g)).
Proof.
  repeat apply conj; missing;
    cbv beta delta [CorePhysics.calculate_wave_steepness_s CorePhysics.calculate_Iribarren_number_ksi
      CorePhysics.calculate_critical_Iribarren_number_ksi_mc CorePhysics.calculate_buoyant_density_Delta CorePhysics.calculate_stability_number_Ns
      CorePhysics.calculate_M50_from_Dn50 CorePhysics.calculate_Dn50_from_M50 CorePhysics.check_usage_Dn50_or_M50 CorePhysics.calculate_S_from_Nod
      CorePhysics.calculate_Nod_from_S CorePhysics.g_default CorePhysics.local_wavelength CorePhysics.two_pi CorePhysics.check_usage_stabilitynumber
      Numpy.deg2rad VanderMeer1988Modified.vdmm VanderMeer1988Modified.calculate_damage_number_S
      VanderMeer1988Modified.calculate_nominal_rock_diameter_Dn50 VanderMeer1988Modified.calculate_significant_wave_height_Hs
      VanderMeer1988Modified.c_pl_default VanderMeer1988Modified.c_s_default VanderMeer1988Modified.damage_number_S_2021
      VanderMeer1988Modified.nominal_rock_diameter_Dn50_2021 VanderMeer1988Modified.significant_wave_height_Hs_2021
      VanderMeer1988Modified.c_pl_default_2021 VanderMeer1988Modified.c_s_default_2021]; nanrun.
Qed.

(** Kramer and Burcharth. *)
Theorem C83_kramer :
  (forall Rc rho_armour Dn50 M50, missing [Rc; rho_armour] -> no_number (KramerBurcharth2004.calculate_significant_wave_height_Hs Rc rho_armour Dn50 M50)).
Proof.
  repeat apply conj; missing;
    cbv beta delta [CorePhysics.calculate_wave_steepness_s CorePhysics.calculate_Iribarren_number_ksi
      CorePhysics.calculate_critical_Iribarren_number_ksi_mc CorePhysics.calculate_buoyant_density_Delta CorePhysics.calculate_stability_number_Ns
      CorePhysics.calculate_M50_from_Dn50 CorePhysics.calculate_Dn50_from_M50 CorePhysics.check_usage_Dn50_or_M50 CorePhysics.calculate_S_from_Nod
      CorePhysics.calculate_Nod_from_S CorePhysics.g_default CorePhysics.local_wavelength CorePhysics.two_pi CorePhysics.check_usage_stabilitynumber
      Numpy.deg2rad KramerBurcharth2004.calculate_nominal_rock_diameter_Dn50 KramerBurcharth2004.calculate_significant_wave_height_Hs
      KramerBurcharth2004.calculate_crest_freeboard_Rc KramerBurcharth2004.Ns_init_default KramerBurcharth2004.Rc_Dn50_init_default
      KramerBurcharth2004.max_iter_default KramerBurcharth2004.tolerance_default]; nanrun.
Qed.

(** Rear side: Van Gent (2007). *)
Theorem C83_rear_vangent2007 :
  (forall cot_alpha cot_phi gamma Hs Tmm10 Rc Rc2_front Rc2_rear N_waves Dn50 M50 rho_rock, missing [cot_alpha; cot_phi; gamma; Hs; Tmm10; Rc; Rc2_front; Rc2_rear; N_waves] -> no_number (RearVanGent2007.calculate_damage_number_S cot_alpha cot_phi gamma Hs Tmm10 Rc Rc2_front Rc2_rear N_waves Dn50 M50 rho_rock)) /\
  (forall cot_alpha cot_phi gamma S Hs Tmm10 Rc Rc2_front Rc2_rear N_waves, missing [cot_alpha; cot_phi; gamma; S; Hs; Tmm10; Rc; Rc2_front; Rc2_rear; N_waves] -> no_number (RearVanGent2007.calculate_nominal_rock_diameter_Dn50 cot_alpha cot_phi gamma S Hs Tmm10 Rc Rc2_front Rc2_rear N_waves)).
Proof.
  repeat apply conj; missing;
    cbv beta delta [CorePhysics.calculate_wave_steepness_s CorePhysics.calculate_Iribarren_number_ksi
      CorePhysics.calculate_critical_Iribarren_number_ksi_mc CorePhysics.calculate_buoyant_density_Delta CorePhysics.calculate_stability_number_Ns
      CorePhysics.calculate_M50_from_Dn50 CorePhysics.calculate_Dn50_from_M50 CorePhysics.check_usage_Dn50_or_M50 CorePhysics.calculate_S_from_Nod
      CorePhysics.calculate_Nod_from_S CorePhysics.g_default CorePhysics.local_wavelength CorePhysics.two_pi CorePhysics.check_usage_stabilitynumber
      Numpy.deg2rad RearVanGent2007.calculate_damage_number_S RearVanGent2007.calculate_nominal_rock_diameter_Dn50 RearVanGent2007.invert_for_z1p
      RearVanGent2007.calculate_maximum_significant_wave_height_Hs RearVanGent2007.tolerance_default RearVanGent2007.max_iterations_default
      VanGent2001.calculate_wave_runup_height_zXp VanGent2001.calculate_wave_runup_height_z1p VanGent2001.z1p_c0 VanGent2001.z1p_c1
      VanGent2001.calculate_wave_runup_height_z2p VanGent2001.z2p_c0 VanGent2001.z2p_c1 VanGent2001.calculate_wave_runup_height_z10p
      VanGent2001.z10p_c0 VanGent2001.z10p_c1 VanGent2001.invert_for_Hs VanGent2001.invert_c0 VanGent2001.invert_c1]; nanrun.
Qed.

(** Rear side: Van Gent and Pozueta. *)
Theorem C83_rear_pozueta :
  (forall cot_alpha cot_phi gamma_f gamma_f_Crest Hs Tmm10 Rc Rc_rear Bc N_waves Dn50 M50 rho_rock rho_water cs, missing [cot_alpha; cot_phi; gamma_f; gamma_f_Crest; Hs; Tmm10; Rc; Rc_rear; Bc; N_waves; rho_rock; rho_water; cs] -> no_number (RearVanGentPozueta2004.calculate_damage_number_S cot_alpha cot_phi gamma_f gamma_f_Crest Hs Tmm10 Rc Rc_rear Bc N_waves Dn50 M50 rho_rock rho_water cs)) /\
  (forall cot_alpha cot_phi gamma_f gamma_f_Crest S Hs Tmm10 Rc Rc_rear Bc rho_rock N_waves rho_water cs, missing [cot_alpha; cot_phi; gamma_f; gamma_f_Crest; S; Hs; Tmm10; Rc; Rc_rear; Bc; rho_rock; N_waves; rho_water; cs] -> no_number (RearVanGentPozueta2004.calculate_nominal_rock_diameter_Dn50 cot_alpha cot_phi gamma_f gamma_f_Crest S Hs Tmm10 Rc Rc_rear Bc rho_rock N_waves rho_water cs)).
Proof.
  repeat apply conj; missing;
    cbv beta delta [CorePhysics.calculate_wave_steepness_s CorePhysics.calculate_Iribarren_number_ksi
      CorePhysics.calculate_critical_Iribarren_number_ksi_mc CorePhysics.calculate_buoyant_density_Delta CorePhysics.calculate_stability_number_Ns
      CorePhysics.calculate_M50_from_Dn50 CorePhysics.calculate_Dn50_from_M50 CorePhysics.check_usage_Dn50_or_M50 CorePhysics.calculate_S_from_Nod
      CorePhysics.calculate_Nod_from_S CorePhysics.g_default CorePhysics.local_wavelength CorePhysics.two_pi CorePhysics.check_usage_stabilitynumber
      Numpy.deg2rad RearVanGentPozueta2004.calculate_damage_number_S RearVanGentPozueta2004.calculate_nominal_rock_diameter_Dn50
      RearVanGentPozueta2004.invert_for_u1p RearVanGentPozueta2004.calculate_maximum_significant_wave_height_Hs RearVanGentPozueta2004.cs_default
      VanGent2001.calculate_wave_runup_height_zXp VanGent2001.calculate_wave_runup_height_z1p VanGent2001.z1p_c0 VanGent2001.z1p_c1
      VanGent2001.calculate_wave_runup_height_z2p VanGent2001.z2p_c0 VanGent2001.z2p_c1 VanGent2001.calculate_wave_runup_height_z10p
      VanGent2001.z10p_c0 VanGent2001.z10p_c1 VanGent2001.invert_for_Hs VanGent2001.invert_c0 VanGent2001.invert_c1
      VanGent2002Velocity.calculate_maximum_wave_overtopping_velocity_uXp VanGent2002Velocity.invert_for_zXp VanGent2002Velocity.cu1_default
      VanGent2002Velocity.cu2_default]; nanrun.
Qed.
