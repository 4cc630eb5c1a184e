(** C84, stability functions.  Every argument listed after [positives] is a positive
    number, every other number may have any sign; then the answer is a number,
    and a positive one where [positive] is stated. *)
From Coq Require Import Reals Lra List Bool String ZArith.
From Verif.Lib Require Import Num Monad RTac NTac.
From Verif.Spec Require Import Numbers.
From Verif.Proofs Require Import Numbers.
From Verif.Model Require CoreUtility CorePhysics Numpy Hudson1959 HudsonUnits Cubes Xbloc Scaravaglione2025 EtemadShahidi2020 VanderMeer1988Modified RearVanGentPozueta2004 VanGent2001 VanGent2002Velocity Gerding1993 VanderMeer1998.
Open Scope R_scope.

Theorem C84_corephysics :
  (forall (H T g : R),
     positives (H :: T :: g :: nil) ->
     number_with positive (CorePhysics.calculate_wave_steepness_s (Fin H) (Fin T) (Fin g)))
  /\ (forall (H T cot_alpha : R),
     positives (H :: T :: cot_alpha :: nil) ->
     number_with positive (CorePhysics.calculate_Iribarren_number_ksi (Fin H) (Fin T) (Fin cot_alpha)))
  /\ (forall (c_pl c_s P cot_alpha : R),
     positives (c_pl :: c_s :: P :: cot_alpha :: nil) ->
     number_with positive (CorePhysics.calculate_critical_Iribarren_number_ksi_mc (Fin c_pl) (Fin c_s) (Fin P) (Fin cot_alpha)))
  /\ (forall (rho_rock rho_water : R),
     positives (rho_rock :: rho_water :: nil) -> rho_water < rho_rock ->
     number_with positive (CorePhysics.calculate_buoyant_density_Delta (Fin rho_rock) (Fin rho_water)))
  /\ (forall (H D rho_rock rho_water : R),
     positives (H :: D :: rho_rock :: rho_water :: nil) -> rho_water < rho_rock ->
     number_with positive (CorePhysics.calculate_stability_number_Ns (Fin H) (Fin D) (Fin rho_rock) (Fin rho_water)))
  /\ (forall (Dn50 rho_rock : R),
     positives (Dn50 :: rho_rock :: nil) ->
     number_with positive (CorePhysics.calculate_M50_from_Dn50 (Fin Dn50) (Fin rho_rock)))
  /\ (forall (M50 rho_rock : R),
     positives (M50 :: rho_rock :: nil) ->
     number_with positive (CorePhysics.calculate_Dn50_from_M50 (Fin M50) (Fin rho_rock)))
  /\ (forall (S G nv : R),
     positives (S :: G :: nv :: nil) ->
     number_with any (CorePhysics.calculate_Nod_from_S (Fin S) (Fin G) (Fin nv))).
Proof.
  Ltac unfold_CorePhysics := cbv beta delta [CorePhysics.calculate_wave_steepness_s CorePhysics.calculate_Iribarren_number_ksi CorePhysics.calculate_critical_Iribarren_number_ksi_mc CorePhysics.calculate_buoyant_density_Delta CorePhysics.calculate_stability_number_Ns CorePhysics.calculate_M50_from_Dn50 CorePhysics.calculate_Dn50_from_M50 CorePhysics.check_usage_Dn50_or_M50 CorePhysics.calculate_S_from_Nod CorePhysics.calculate_Nod_from_S CorePhysics.g_default CorePhysics.local_wavelength CorePhysics.two_pi CorePhysics.check_usage_stabilitynumber Numpy.deg2rad CorePhysics.g_default CorePhysics.calculate_wave_steepness_s CorePhysics.calculate_Iribarren_number_ksi CorePhysics.calculate_critical_Iribarren_number_ksi_mc CorePhysics.calculate_buoyant_density_Delta CorePhysics.calculate_stability_number_Ns CorePhysics.calculate_M50_from_Dn50 CorePhysics.calculate_Dn50_from_M50 CorePhysics.check_usage_Dn50_or_M50 CorePhysics.calculate_S_from_Nod CorePhysics.calculate_Nod_from_S CorePhysics.is_none CorePhysics.b2n CorePhysics.check_usage_stabilitynumber CorePhysics.two_pi CorePhysics.omegas CorePhysics.calculate_local_wavelength CorePhysics.local_wavelength].
  split; [intros; all_positive; unfold_CorePhysics; numrun|].
  split; [intros; all_positive; unfold_CorePhysics; numrun|].
  split; [intros; all_positive; unfold_CorePhysics; numrun|].
  split; [intros; all_positive; unfold_CorePhysics; numrun|].
  split; [intros; all_positive; unfold_CorePhysics; numrun|].
  split; [intros; all_positive; unfold_CorePhysics; numrun|].
  split; [intros; all_positive; unfold_CorePhysics; numrun|].
  intros; all_positive; unfold_CorePhysics; numrun.
Qed.

Theorem C84_hudson1959 :
  (forall (Hs rho_water rho_armour KD cot_alpha alpha_Hs : R),
     positives (Hs :: rho_water :: rho_armour :: KD :: cot_alpha :: alpha_Hs :: nil) -> rho_water < rho_armour ->
     number_with positive (Hudson1959.calculate_median_rock_mass_M50_no_damage (Fin Hs) (Fin rho_water) (Fin rho_armour) (Fin KD) (Fin cot_alpha) (Fin alpha_Hs)))
  /\ (forall (M50 rho_water rho_armour KD cot_alpha alpha_Hs : R),
     positives (M50 :: rho_water :: rho_armour :: KD :: cot_alpha :: alpha_Hs :: nil) -> rho_water < rho_armour ->
     number_with positive (Hudson1959.calculate_significant_wave_height_Hs_no_damage (Fin M50) (Fin rho_water) (Fin rho_armour) (Fin KD) (Fin cot_alpha) (Fin alpha_Hs))).
Proof.
  Ltac unfold_Hudson1959 := cbv beta delta [CorePhysics.calculate_wave_steepness_s CorePhysics.calculate_Iribarren_number_ksi CorePhysics.calculate_critical_Iribarren_number_ksi_mc CorePhysics.calculate_buoyant_density_Delta CorePhysics.calculate_stability_number_Ns CorePhysics.calculate_M50_from_Dn50 CorePhysics.calculate_Dn50_from_M50 CorePhysics.check_usage_Dn50_or_M50 CorePhysics.calculate_S_from_Nod CorePhysics.calculate_Nod_from_S CorePhysics.g_default CorePhysics.local_wavelength CorePhysics.two_pi CorePhysics.check_usage_stabilitynumber Numpy.deg2rad Hudson1959.calculate_median_rock_mass_M50_no_damage Hudson1959.calculate_significant_wave_height_Hs_no_damage Hudson1959.percentages Hudson1959.mult_factors_rough Hudson1959.mult_factors_smooth Hudson1959.lookup_table_damage_factors Hudson1959.calculate_median_rock_mass_M50 Hudson1959.calculate_significant_wave_height_Hs Hudson1959.alpha_Hs_default Numpy.Rtrunc Numpy.astype_int Numpy.number_of Numpy.vectorize Numpy.deg2rad].
  split; [intros; all_positive; unfold_Hudson1959; numrun|].
  intros; all_positive; unfold_Hudson1959; numrun.
Qed.

Theorem C84_hudsonunits :
  (forall (Hs rho_water rho_armour KD cot_alpha alpha_Hs : R),
     positives (Hs :: rho_water :: rho_armour :: KD :: cot_alpha :: alpha_Hs :: nil) -> rho_water < rho_armour ->
     number_with positive (HudsonUnits.accropode2_unit_mass_M (Fin Hs) (Fin rho_water) (Fin rho_armour) (Fin KD) (Fin cot_alpha) (Fin alpha_Hs)))
  /\ (forall (m rho_water rho_armour KD cot_alpha alpha_Hs : R),
     positives (m :: rho_water :: rho_armour :: KD :: cot_alpha :: alpha_Hs :: nil) -> rho_water < rho_armour ->
     number_with positive (HudsonUnits.accropode2_wave_height_Hs (Fin m) (Fin rho_water) (Fin rho_armour) (Fin KD) (Fin cot_alpha) (Fin alpha_Hs)))
  /\ (forall (Hs rho_water rho_armour KD cot_alpha alpha_Hs : R),
     positives (Hs :: rho_water :: rho_armour :: KD :: cot_alpha :: alpha_Hs :: nil) -> rho_water < rho_armour ->
     number_with positive (HudsonUnits.accropode_unit_mass_M (Fin Hs) (Fin rho_water) (Fin rho_armour) (Fin KD) (Fin cot_alpha) (Fin alpha_Hs)))
  /\ (forall (m rho_water rho_armour KD cot_alpha alpha_Hs : R),
     positives (m :: rho_water :: rho_armour :: KD :: cot_alpha :: alpha_Hs :: nil) -> rho_water < rho_armour ->
     number_with positive (HudsonUnits.accropode_wave_height_Hs (Fin m) (Fin rho_water) (Fin rho_armour) (Fin KD) (Fin cot_alpha) (Fin alpha_Hs)))
  /\ (forall (Hs rho_water rho_armour KD cot_alpha alpha_Hs : R),
     positives (Hs :: rho_water :: rho_armour :: KD :: cot_alpha :: alpha_Hs :: nil) -> rho_water < rho_armour ->
     number_with positive (HudsonUnits.core_loc_unit_mass_M (Fin Hs) (Fin rho_water) (Fin rho_armour) (Fin KD) (Fin cot_alpha) (Fin alpha_Hs)))
  /\ (forall (m rho_water rho_armour KD cot_alpha alpha_Hs : R),
     positives (m :: rho_water :: rho_armour :: KD :: cot_alpha :: alpha_Hs :: nil) -> rho_water < rho_armour ->
     number_with positive (HudsonUnits.core_loc_wave_height_Hs (Fin m) (Fin rho_water) (Fin rho_armour) (Fin KD) (Fin cot_alpha) (Fin alpha_Hs)))
  /\ (forall (Hs rho_water rho_armour KD cot_alpha alpha_Hs : R),
     positives (Hs :: rho_water :: rho_armour :: KD :: cot_alpha :: alpha_Hs :: nil) -> rho_water < rho_armour ->
     number_with positive (HudsonUnits.cubes_unit_mass_M (Fin Hs) (Fin rho_water) (Fin rho_armour) (Fin KD) (Fin cot_alpha) (Fin alpha_Hs)))
  /\ (forall (m rho_water rho_armour KD cot_alpha alpha_Hs : R),
     positives (m :: rho_water :: rho_armour :: KD :: cot_alpha :: alpha_Hs :: nil) -> rho_water < rho_armour ->
     number_with positive (HudsonUnits.cubes_wave_height_Hs (Fin m) (Fin rho_water) (Fin rho_armour) (Fin KD) (Fin cot_alpha) (Fin alpha_Hs)))
  /\ (forall (Hs rho_water rho_armour KD cot_alpha alpha_Hs : R),
     positives (Hs :: rho_water :: rho_armour :: KD :: cot_alpha :: alpha_Hs :: nil) -> rho_water < rho_armour ->
     number_with positive (HudsonUnits.cubipod_unit_mass_M (Fin Hs) (Fin rho_water) (Fin rho_armour) (Fin KD) (Fin cot_alpha) (Fin alpha_Hs)))
  /\ (forall (m rho_water rho_armour KD cot_alpha alpha_Hs : R),
     positives (m :: rho_water :: rho_armour :: KD :: cot_alpha :: alpha_Hs :: nil) -> rho_water < rho_armour ->
     number_with positive (HudsonUnits.cubipod_wave_height_Hs (Fin m) (Fin rho_water) (Fin rho_armour) (Fin KD) (Fin cot_alpha) (Fin alpha_Hs)))
  /\ (forall (Hs rho_water rho_armour KD cot_alpha alpha_Hs : R),
     positives (Hs :: rho_water :: rho_armour :: KD :: cot_alpha :: alpha_Hs :: nil) -> rho_water < rho_armour ->
     number_with positive (HudsonUnits.tetrapod_unit_mass_M (Fin Hs) (Fin rho_water) (Fin rho_armour) (Fin KD) (Fin cot_alpha) (Fin alpha_Hs)))
  /\ (forall (m rho_water rho_armour KD cot_alpha alpha_Hs : R),
     positives (m :: rho_water :: rho_armour :: KD :: cot_alpha :: alpha_Hs :: nil) -> rho_water < rho_armour ->
     number_with positive (HudsonUnits.tetrapod_wave_height_Hs (Fin m) (Fin rho_water) (Fin rho_armour) (Fin KD) (Fin cot_alpha) (Fin alpha_Hs))).
Proof.
  Ltac unfold_HudsonUnits := cbv beta delta [CorePhysics.calculate_wave_steepness_s CorePhysics.calculate_Iribarren_number_ksi CorePhysics.calculate_critical_Iribarren_number_ksi_mc CorePhysics.calculate_buoyant_density_Delta CorePhysics.calculate_stability_number_Ns CorePhysics.calculate_M50_from_Dn50 CorePhysics.calculate_Dn50_from_M50 CorePhysics.check_usage_Dn50_or_M50 CorePhysics.calculate_S_from_Nod CorePhysics.calculate_Nod_from_S CorePhysics.g_default CorePhysics.local_wavelength CorePhysics.two_pi CorePhysics.check_usage_stabilitynumber Numpy.deg2rad HudsonUnits.accropode2_unit_mass_M HudsonUnits.accropode2_wave_height_Hs HudsonUnits.accropode2_KD_breaking HudsonUnits.accropode2_KD_nonbreaking HudsonUnits.accropode_unit_mass_M HudsonUnits.accropode_wave_height_Hs HudsonUnits.accropode_KD_breaking HudsonUnits.accropode_KD_nonbreaking HudsonUnits.core_loc_unit_mass_M HudsonUnits.core_loc_wave_height_Hs HudsonUnits.core_loc_KD_breaking HudsonUnits.core_loc_KD_nonbreaking HudsonUnits.cubes_unit_mass_M HudsonUnits.cubes_wave_height_Hs HudsonUnits.cubipod_unit_mass_M HudsonUnits.cubipod_wave_height_Hs HudsonUnits.tetrapod_unit_mass_M HudsonUnits.tetrapod_wave_height_Hs Hudson1959.calculate_median_rock_mass_M50_no_damage Hudson1959.calculate_significant_wave_height_Hs_no_damage Hudson1959.percentages Hudson1959.mult_factors_rough Hudson1959.mult_factors_smooth Hudson1959.lookup_table_damage_factors Hudson1959.calculate_median_rock_mass_M50 Hudson1959.calculate_significant_wave_height_Hs Hudson1959.alpha_Hs_default Numpy.Rtrunc Numpy.astype_int Numpy.number_of Numpy.vectorize Numpy.deg2rad].
  split; [intros; all_positive; unfold_HudsonUnits; numrun|].
  split; [intros; all_positive; unfold_HudsonUnits; numrun|].
  split; [intros; all_positive; unfold_HudsonUnits; numrun|].
  split; [intros; all_positive; unfold_HudsonUnits; numrun|].
  split; [intros; all_positive; unfold_HudsonUnits; numrun|].
  split; [intros; all_positive; unfold_HudsonUnits; numrun|].
  split; [intros; all_positive; unfold_HudsonUnits; numrun|].
  split; [intros; all_positive; unfold_HudsonUnits; numrun|].
  split; [intros; all_positive; unfold_HudsonUnits; numrun|].
  split; [intros; all_positive; unfold_HudsonUnits; numrun|].
  split; [intros; all_positive; unfold_HudsonUnits; numrun|].
  intros; all_positive; unfold_HudsonUnits; numrun.
Qed.

Theorem C84_cubes :
  (forall (Hs Tm rho_water rho_armour N_waves cot_alpha Nod : R),
     positives (Hs :: Tm :: rho_water :: rho_armour :: N_waves :: cot_alpha :: Nod :: nil) -> rho_water < rho_armour ->
     number_with positive (Cubes.calculate_nominal_diameter_Dn_vanDerMeer1988 (Fin Hs) (Fin Tm) (Fin rho_water) (Fin rho_armour) (Fin N_waves) (Fin cot_alpha) (Fin Nod)))
  /\ (forall (Dn s0m rho_water rho_armour N_waves cot_alpha Nod : R),
     positives (Dn :: s0m :: rho_water :: rho_armour :: N_waves :: cot_alpha :: Nod :: nil) -> rho_water < rho_armour ->
     number_with positive (Cubes.calculate_wave_height_Hs_vanDerMeer1988 (Fin Dn) (Fin s0m) (Fin rho_water) (Fin rho_armour) (Fin N_waves) (Fin cot_alpha) (Fin Nod)))
  /\ (forall (Hs rho_water rho_armour Ns : R),
     positives (Hs :: rho_water :: rho_armour :: Ns :: nil) -> rho_water < rho_armour ->
     number_with positive (Cubes.calculate_unit_mass_M_start_of_damage (Fin Hs) (Fin rho_water) (Fin rho_armour) (Fin Ns)))
  /\ (forall (Hs rho_water rho_armour Ns : R),
     positives (Hs :: rho_water :: rho_armour :: Ns :: nil) -> rho_water < rho_armour ->
     number_with positive (Cubes.calculate_unit_mass_M_failure (Fin Hs) (Fin rho_water) (Fin rho_armour) (Fin Ns)))
  /\ (forall (m rho_water rho_armour Ns : R),
     positives (m :: rho_water :: rho_armour :: Ns :: nil) -> rho_water < rho_armour ->
     number_with positive (Cubes.calculate_significant_wave_height_Hs_start_of_damage (Fin m) (Fin rho_water) (Fin rho_armour) (Fin Ns)))
  /\ (forall (m rho_water rho_armour Ns : R),
     positives (m :: rho_water :: rho_armour :: Ns :: nil) -> rho_water < rho_armour ->
     number_with positive (Cubes.calculate_significant_wave_height_Hs_failure (Fin m) (Fin rho_water) (Fin rho_armour) (Fin Ns))).
Proof.
  Ltac unfold_Cubes := cbv beta delta [CorePhysics.calculate_wave_steepness_s CorePhysics.calculate_Iribarren_number_ksi CorePhysics.calculate_critical_Iribarren_number_ksi_mc CorePhysics.calculate_buoyant_density_Delta CorePhysics.calculate_stability_number_Ns CorePhysics.calculate_M50_from_Dn50 CorePhysics.calculate_Dn50_from_M50 CorePhysics.check_usage_Dn50_or_M50 CorePhysics.calculate_S_from_Nod CorePhysics.calculate_Nod_from_S CorePhysics.g_default CorePhysics.local_wavelength CorePhysics.two_pi CorePhysics.check_usage_stabilitynumber Numpy.deg2rad Cubes.formula Cubes.Ns_formula Cubes.calculate_nominal_diameter_Dn_vanDerMeer1988 Cubes.Tm_from_steepness Cubes.calculate_wave_height_Hs_vanDerMeer1988 Cubes.calculate_damage_Nod_vanDerMeer1988 Cubes.calculate_unit_mass_M_start_of_damage Cubes.calculate_unit_mass_M_failure Cubes.calculate_significant_wave_height_Hs_start_of_damage Cubes.calculate_significant_wave_height_Hs_failure Cubes.Ns_start_default Cubes.Ns_failure_default Hudson1959.calculate_median_rock_mass_M50_no_damage Hudson1959.calculate_significant_wave_height_Hs_no_damage Hudson1959.percentages Hudson1959.mult_factors_rough Hudson1959.mult_factors_smooth Hudson1959.lookup_table_damage_factors Hudson1959.calculate_median_rock_mass_M50 Hudson1959.calculate_significant_wave_height_Hs Hudson1959.alpha_Hs_default].
  split; [intros; all_positive; unfold_Cubes; numrun|].
  split; [intros; all_positive; unfold_Cubes; numrun|].
  split; [intros; all_positive; unfold_Cubes; numrun|].
  split; [intros; all_positive; unfold_Cubes; numrun|].
  split; [intros; all_positive; unfold_Cubes; numrun|].
  intros; all_positive; unfold_Cubes; numrun.
Qed.

Theorem C84_xbloc :
  (forall (V rho_water rho_armour total_correction_factor : R),
     positives (V :: rho_water :: rho_armour :: total_correction_factor :: nil) -> rho_water < rho_armour ->
     number_with positive (Xbloc.xbloc_wave_height_Hs_from_V (Fin V) (Fin rho_water) (Fin rho_armour) (Fin total_correction_factor)))
  /\ (forall (m rho_water rho_armour total_correction_factor : R),
     positives (m :: rho_water :: rho_armour :: total_correction_factor :: nil) -> rho_water < rho_armour ->
     number_with positive (Xbloc.xbloc_wave_height_Hs_from_M (Fin m) (Fin rho_water) (Fin rho_armour) (Fin total_correction_factor)))
  /\ (forall (Hs rho_water rho_armour total_correction_factor : R),
     positives (Hs :: rho_water :: rho_armour :: total_correction_factor :: nil) -> rho_water < rho_armour ->
     number_with positive (Xbloc.xbloc_unit_volume_V (Fin Hs) (Fin rho_water) (Fin rho_armour) (Fin total_correction_factor)))
  /\ (forall (Hs rho_water rho_armour total_correction_factor : R),
     positives (Hs :: rho_water :: rho_armour :: total_correction_factor :: nil) -> rho_water < rho_armour ->
     number_with positive (Xbloc.xbloc_unit_mass_M (Fin Hs) (Fin rho_water) (Fin rho_armour) (Fin total_correction_factor)))
  /\ (forall (cot_alpha : R),
     positives (cot_alpha :: nil) ->
     number_with positive (Xbloc.xbloc_factor_cotalpha_seabed (Fin cot_alpha)))
  /\ (forall (perc_slope : R),
     positives (perc_slope :: nil) ->
     number_with positive (Xbloc.xbloc_factor_percslope_seabed (Fin perc_slope)))
  /\ (forall (rel_freeboard : R),
     positives (rel_freeboard :: nil) ->
     number_with positive (Xbloc.xbloc_factor_relative_freeboard (Fin rel_freeboard)))
  /\ (forall (rel_depth : R),
     positives (rel_depth :: nil) ->
     number_with positive (Xbloc.xbloc_factor_rel_depth (Fin rel_depth)))
  /\ (forall (design_event_occurs_frequently : bool) ,
     number_with positive (Xbloc.xbloc_factor_design_event_frequency design_event_occurs_frequently))
  /\ (forall (low_core_permeability : bool) (core_impermeable : bool) ,
     number_with positive (Xbloc.xbloc_factor_core_permeability low_core_permeability core_impermeable))
  /\ (forall (cot_alpha : R),
     positives (cot_alpha :: nil) ->
     number_with positive (Xbloc.xbloc_factor_structure_slope (Fin cot_alpha)))
  /\ (forall (V rho_water rho_armour total_correction_factor : R),
     positives (V :: rho_water :: rho_armour :: total_correction_factor :: nil) -> rho_water < rho_armour ->
     number_with positive (Xbloc.xblocplus_wave_height_Hs_from_V (Fin V) (Fin rho_water) (Fin rho_armour) (Fin total_correction_factor)))
  /\ (forall (m rho_water rho_armour total_correction_factor : R),
     positives (m :: rho_water :: rho_armour :: total_correction_factor :: nil) -> rho_water < rho_armour ->
     number_with positive (Xbloc.xblocplus_wave_height_Hs_from_M (Fin m) (Fin rho_water) (Fin rho_armour) (Fin total_correction_factor)))
  /\ (forall (Hs rho_water rho_armour total_correction_factor : R),
     positives (Hs :: rho_water :: rho_armour :: total_correction_factor :: nil) -> rho_water < rho_armour ->
     number_with positive (Xbloc.xblocplus_unit_volume_V (Fin Hs) (Fin rho_water) (Fin rho_armour) (Fin total_correction_factor)))
  /\ (forall (Hs rho_water rho_armour total_correction_factor : R),
     positives (Hs :: rho_water :: rho_armour :: total_correction_factor :: nil) -> rho_water < rho_armour ->
     number_with positive (Xbloc.xblocplus_unit_mass_M (Fin Hs) (Fin rho_water) (Fin rho_armour) (Fin total_correction_factor)))
  /\ (forall (cot_alpha : R),
     positives (cot_alpha :: nil) ->
     number_with positive (Xbloc.xblocplus_factor_cotalpha_seabed (Fin cot_alpha)))
  /\ (forall (perc_slope : R),
     positives (perc_slope :: nil) ->
     number_with positive (Xbloc.xblocplus_factor_percslope_seabed (Fin perc_slope)))
  /\ (forall (rel_freeboard : R),
     positives (rel_freeboard :: nil) ->
     number_with positive (Xbloc.xblocplus_factor_relative_freeboard (Fin rel_freeboard)))
  /\ (forall (low_core_permeability : bool) (core_impermeable : bool) ,
     number_with positive (Xbloc.xblocplus_factor_core_permeability low_core_permeability core_impermeable)).
Proof.
  Ltac unfold_Xbloc := cbv beta delta [CorePhysics.calculate_wave_steepness_s CorePhysics.calculate_Iribarren_number_ksi CorePhysics.calculate_critical_Iribarren_number_ksi_mc CorePhysics.calculate_buoyant_density_Delta CorePhysics.calculate_stability_number_Ns CorePhysics.calculate_M50_from_Dn50 CorePhysics.calculate_Dn50_from_M50 CorePhysics.check_usage_Dn50_or_M50 CorePhysics.calculate_S_from_Nod CorePhysics.calculate_Nod_from_S CorePhysics.g_default CorePhysics.local_wavelength CorePhysics.two_pi CorePhysics.check_usage_stabilitynumber Numpy.deg2rad Xbloc.xbloc_wave_height_Hs_from_V Xbloc.xbloc_wave_height_Hs_from_M Xbloc.xbloc_unit_volume_V Xbloc.xbloc_unit_mass_M Xbloc.xbloc_factor_cotalpha_seabed Xbloc.xbloc_factor_percslope_seabed Xbloc.xbloc_factor_relative_freeboard Xbloc.xbloc_factor_rel_depth Xbloc.xbloc_factor_design_event_frequency Xbloc.xbloc_factor_core_permeability Xbloc.xbloc_factor_structure_slope Xbloc.xblocplus_wave_height_Hs_from_V Xbloc.xblocplus_wave_height_Hs_from_M Xbloc.xblocplus_unit_volume_V Xbloc.xblocplus_unit_mass_M Xbloc.xblocplus_factor_cotalpha_seabed Xbloc.xblocplus_factor_percslope_seabed Xbloc.xblocplus_factor_relative_freeboard Xbloc.xblocplus_factor_core_permeability].
  split; [intros; all_positive; unfold_Xbloc; numrun|].
  split; [intros; all_positive; unfold_Xbloc; numrun|].
  split; [intros; all_positive; unfold_Xbloc; numrun|].
  split; [intros; all_positive; unfold_Xbloc; numrun|].
  split; [intros; all_positive; unfold_Xbloc; numrun|].
  split; [intros; all_positive; unfold_Xbloc; numrun|].
  split; [intros; all_positive; unfold_Xbloc; numrun|].
  split; [intros; all_positive; unfold_Xbloc; numrun|].
  split; [intros; all_positive; unfold_Xbloc; numrun|].
  split; [intros; all_positive; unfold_Xbloc; numrun|].
  split; [intros; all_positive; unfold_Xbloc; numrun|].
  split; [intros; all_positive; unfold_Xbloc; numrun|].
  split; [intros; all_positive; unfold_Xbloc; numrun|].
  split; [intros; all_positive; unfold_Xbloc; numrun|].
  split; [intros; all_positive; unfold_Xbloc; numrun|].
  split; [intros; all_positive; unfold_Xbloc; numrun|].
  split; [intros; all_positive; unfold_Xbloc; numrun|].
  split; [intros; all_positive; unfold_Xbloc; numrun|].
  intros; all_positive; unfold_Xbloc; numrun.
Qed.

Theorem C84_scaravaglione2025 :
  (forall (Hm0 Tmm10 N_waves cot_alpha rho_armour rho_core Dn50 Dn50_core c_VGnew rho_water : R),
     positives (Hm0 :: Tmm10 :: N_waves :: cot_alpha :: rho_armour :: rho_core :: Dn50 :: Dn50_core :: c_VGnew :: rho_water :: nil) -> rho_water < rho_armour ->
     number_with positive (Scaravaglione2025.calculate_damage_number_S (Fin Hm0) (Fin Tmm10) (Fin N_waves) (Fin cot_alpha) (Fin rho_armour) (Fin rho_core) (Fin Dn50) (Fin Dn50_core) NaN NaN (Fin c_VGnew) (Fin rho_water)))
  /\ (forall (Tmm10 N_waves cot_alpha rho_armour rho_core S Dn50 Dn50_core c_VGnew g rho_water : R),
     positives (Tmm10 :: N_waves :: cot_alpha :: rho_armour :: rho_core :: S :: Dn50 :: Dn50_core :: c_VGnew :: g :: rho_water :: nil) -> rho_water < rho_armour ->
     number_with positive (Scaravaglione2025.calculate_significant_wave_height_Hm0 (Fin Tmm10) (Fin N_waves) (Fin cot_alpha) (Fin rho_armour) (Fin rho_core) (Fin S) (Fin Dn50) (Fin Dn50_core) NaN NaN (Fin c_VGnew) (Fin g) (Fin rho_water))).
Proof.
  Ltac unfold_Scaravaglione2025 := cbv beta delta [CorePhysics.calculate_wave_steepness_s CorePhysics.calculate_Iribarren_number_ksi CorePhysics.calculate_critical_Iribarren_number_ksi_mc CorePhysics.calculate_buoyant_density_Delta CorePhysics.calculate_stability_number_Ns CorePhysics.calculate_M50_from_Dn50 CorePhysics.calculate_Dn50_from_M50 CorePhysics.check_usage_Dn50_or_M50 CorePhysics.calculate_S_from_Nod CorePhysics.calculate_Nod_from_S CorePhysics.g_default CorePhysics.local_wavelength CorePhysics.two_pi CorePhysics.check_usage_stabilitynumber Numpy.deg2rad Scaravaglione2025.sc25 Scaravaglione2025.calculate_damage_number_S Scaravaglione2025.calculate_nominal_rock_diameter_Dn50 Scaravaglione2025.calculate_significant_wave_height_Hm0 Scaravaglione2025.c_VGnew_default].
  split; [intros; all_positive; unfold_Scaravaglione2025; numrun|].
  intros; all_positive; unfold_Scaravaglione2025; numrun.
Qed.

Theorem C84_etemadshahidi2020 :
  (forall (Dn50 Dn50_core : R),
     positives (Dn50 :: Dn50_core :: nil) ->
     number_with positive (EtemadShahidi2020.calculate_permeability_coefficient_Cp (Fin Dn50) (Fin Dn50_core)))
  /\ (forall (use_depth_limited_version : bool) (m : R),
     positives (m :: nil) ->
     number_with any (EtemadShahidi2020.influence_depth use_depth_limited_version (Fin m))).
Proof.
  Ltac unfold_EtemadShahidi2020 := cbv beta delta [CorePhysics.calculate_wave_steepness_s CorePhysics.calculate_Iribarren_number_ksi CorePhysics.calculate_critical_Iribarren_number_ksi_mc CorePhysics.calculate_buoyant_density_Delta CorePhysics.calculate_stability_number_Ns CorePhysics.calculate_M50_from_Dn50 CorePhysics.calculate_Dn50_from_M50 CorePhysics.check_usage_Dn50_or_M50 CorePhysics.calculate_S_from_Nod CorePhysics.calculate_Nod_from_S CorePhysics.g_default CorePhysics.local_wavelength CorePhysics.two_pi CorePhysics.check_usage_stabilitynumber Numpy.deg2rad EtemadShahidi2020.es20 EtemadShahidi2020.calculate_permeability_coefficient_Cp EtemadShahidi2020.influence_depth EtemadShahidi2020.calculate_damage_number_S EtemadShahidi2020.bound EtemadShahidi2020.calculate_nominal_rock_diameter_Dn50 EtemadShahidi2020.calculate_significant_wave_height_Hs].
  split; [intros; all_positive; unfold_EtemadShahidi2020; numrun|].
  intros; all_positive; unfold_EtemadShahidi2020; numrun.
Qed.

Theorem C84_vandermeer1988modified :
  (forall (Hs H2p Tmm10 N_waves cot_alpha P rho_armour Dn50 c_pl c_s rho_water : R),
     positives (Hs :: H2p :: Tmm10 :: N_waves :: cot_alpha :: P :: rho_armour :: Dn50 :: c_pl :: c_s :: rho_water :: nil) -> rho_water < rho_armour ->
     number_with positive (VanderMeer1988Modified.calculate_damage_number_S (Fin Hs) (Fin H2p) (Fin Tmm10) (Fin N_waves) (Fin cot_alpha) (Fin P) (Fin rho_armour) (Fin Dn50) NaN (Fin c_pl) (Fin c_s) (Fin rho_water)))
  /\ (forall (Hs H2p Tmm10 N_waves cot_alpha P rho_armour S c_pl c_s rho_water : R),
     positives (Hs :: H2p :: Tmm10 :: N_waves :: cot_alpha :: P :: rho_armour :: S :: c_pl :: c_s :: rho_water :: nil) -> rho_water < rho_armour ->
     number_with positive (VanderMeer1988Modified.calculate_nominal_rock_diameter_Dn50 (Fin Hs) (Fin H2p) (Fin Tmm10) (Fin N_waves) (Fin cot_alpha) (Fin P) (Fin rho_armour) (Fin S) (Fin c_pl) (Fin c_s) (Fin rho_water)))
  /\ (forall (ratio_H2p_Hs Tmm10 N_waves cot_alpha P rho_armour S Dn50 c_pl c_s g rho_water : R),
     positives (ratio_H2p_Hs :: Tmm10 :: N_waves :: cot_alpha :: P :: rho_armour :: S :: Dn50 :: c_pl :: c_s :: g :: rho_water :: nil) -> rho_water < rho_armour ->
     number_with positive (VanderMeer1988Modified.calculate_significant_wave_height_Hs (Fin ratio_H2p_Hs) (Fin Tmm10) (Fin N_waves) (Fin cot_alpha) (Fin P) (Fin rho_armour) (Fin S) (Fin Dn50) NaN (Fin c_pl) (Fin c_s) (Fin g) (Fin rho_water)))
  /\ (forall (Hs Tmm10 N_waves cot_alpha P rho_armour Dn50 c_pl c_s c_pl_mult c_s_mult : R),
     positives (Hs :: Tmm10 :: N_waves :: cot_alpha :: P :: rho_armour :: Dn50 :: c_pl :: c_s :: c_pl_mult :: c_s_mult :: nil) -> 1025 < rho_armour ->
     number_with positive (VanderMeer1988Modified.damage_number_S_2021 (Fin Hs) (Fin Tmm10) (Fin N_waves) (Fin cot_alpha) (Fin P) (Fin rho_armour) (Fin Dn50) NaN (Fin c_pl) (Fin c_s) (Fin c_pl_mult) (Fin c_s_mult)))
  /\ (forall (Hs Tmm10 N_waves cot_alpha P rho_armour S c_pl c_s c_pl_mult c_s_mult : R),
     positives (Hs :: Tmm10 :: N_waves :: cot_alpha :: P :: rho_armour :: S :: c_pl :: c_s :: c_pl_mult :: c_s_mult :: nil) -> 1025 < rho_armour ->
     number_with positive (VanderMeer1988Modified.nominal_rock_diameter_Dn50_2021 (Fin Hs) (Fin Tmm10) (Fin N_waves) (Fin cot_alpha) (Fin P) (Fin rho_armour) (Fin S) (Fin c_pl) (Fin c_s) (Fin c_pl_mult) (Fin c_s_mult)))
  /\ (forall (Tmm10 N_waves cot_alpha P rho_armour S Dn50 c_pl c_s c_pl_mult c_s_mult g : R),
     positives (Tmm10 :: N_waves :: cot_alpha :: P :: rho_armour :: S :: Dn50 :: c_pl :: c_s :: c_pl_mult :: c_s_mult :: g :: nil) -> 1025 < rho_armour ->
     number_with positive (VanderMeer1988Modified.significant_wave_height_Hs_2021 (Fin Tmm10) (Fin N_waves) (Fin cot_alpha) (Fin P) (Fin rho_armour) (Fin S) (Fin Dn50) NaN (Fin c_pl) (Fin c_s) (Fin c_pl_mult) (Fin c_s_mult) (Fin g))).
Proof.
  Ltac unfold_VanderMeer1988Modified := cbv beta delta [CorePhysics.calculate_wave_steepness_s CorePhysics.calculate_Iribarren_number_ksi CorePhysics.calculate_critical_Iribarren_number_ksi_mc CorePhysics.calculate_buoyant_density_Delta CorePhysics.calculate_stability_number_Ns CorePhysics.calculate_M50_from_Dn50 CorePhysics.calculate_Dn50_from_M50 CorePhysics.check_usage_Dn50_or_M50 CorePhysics.calculate_S_from_Nod CorePhysics.calculate_Nod_from_S CorePhysics.g_default CorePhysics.local_wavelength CorePhysics.two_pi CorePhysics.check_usage_stabilitynumber Numpy.deg2rad VanderMeer1988Modified.vdmm VanderMeer1988Modified.calculate_damage_number_S VanderMeer1988Modified.calculate_nominal_rock_diameter_Dn50 VanderMeer1988Modified.calculate_significant_wave_height_Hs VanderMeer1988Modified.c_pl_default VanderMeer1988Modified.c_s_default VanderMeer1988Modified.damage_number_S_2021 VanderMeer1988Modified.nominal_rock_diameter_Dn50_2021 VanderMeer1988Modified.significant_wave_height_Hs_2021 VanderMeer1988Modified.c_pl_default_2021 VanderMeer1988Modified.c_s_default_2021].
  split; [intros; all_positive; unfold_VanderMeer1988Modified; numrun|].
  split; [intros; all_positive; unfold_VanderMeer1988Modified; numrun|].
  split; [intros; all_positive; unfold_VanderMeer1988Modified; numrun|].
  split; [intros; all_positive; unfold_VanderMeer1988Modified; numrun|].
  split; [intros; all_positive; unfold_VanderMeer1988Modified; numrun|].
  intros; all_positive; unfold_VanderMeer1988Modified; numrun.
Qed.

Theorem C84_rearvangentpozueta2004 :
  (forall (cot_phi S Hs Tmm10 N_waves Dn50 Delta cs Rc_rear : R),
     positives (cot_phi :: S :: Hs :: Tmm10 :: N_waves :: Dn50 :: Delta :: cs :: nil) ->
     number_with positive (RearVanGentPozueta2004.invert_for_u1p (Fin cot_phi) (Fin S) (Fin Hs) (Fin Tmm10) (Fin Rc_rear) (Fin N_waves) (Fin Dn50) (Fin Delta) (Fin cs))).
Proof.
  Ltac unfold_RearVanGentPozueta2004 := cbv beta delta [CorePhysics.calculate_wave_steepness_s CorePhysics.calculate_Iribarren_number_ksi CorePhysics.calculate_critical_Iribarren_number_ksi_mc CorePhysics.calculate_buoyant_density_Delta CorePhysics.calculate_stability_number_Ns CorePhysics.calculate_M50_from_Dn50 CorePhysics.calculate_Dn50_from_M50 CorePhysics.check_usage_Dn50_or_M50 CorePhysics.calculate_S_from_Nod CorePhysics.calculate_Nod_from_S CorePhysics.g_default CorePhysics.local_wavelength CorePhysics.two_pi CorePhysics.check_usage_stabilitynumber Numpy.deg2rad RearVanGentPozueta2004.calculate_damage_number_S RearVanGentPozueta2004.calculate_nominal_rock_diameter_Dn50 RearVanGentPozueta2004.invert_for_u1p RearVanGentPozueta2004.calculate_maximum_significant_wave_height_Hs RearVanGentPozueta2004.cs_default VanGent2001.calculate_wave_runup_height_zXp VanGent2001.calculate_wave_runup_height_z1p VanGent2001.z1p_c0 VanGent2001.z1p_c1 VanGent2001.calculate_wave_runup_height_z2p VanGent2001.z2p_c0 VanGent2001.z2p_c1 VanGent2001.calculate_wave_runup_height_z10p VanGent2001.z10p_c0 VanGent2001.z10p_c1 VanGent2001.invert_for_Hs VanGent2001.invert_c0 VanGent2001.invert_c1 VanGent2002Velocity.calculate_maximum_wave_overtopping_velocity_uXp VanGent2002Velocity.invert_for_zXp VanGent2002Velocity.cu1_default VanGent2002Velocity.cu2_default].
  intros; all_positive; unfold_RearVanGentPozueta2004; numrun.
Qed.

Theorem C84_gerding1993 :
  (forall (Hs ht h Dn50 rho_rock rho_water : R),
     positives (Hs :: ht :: h :: Dn50 :: rho_rock :: rho_water :: nil) -> rho_water < rho_rock ->
     number_with positive (Gerding1993.calculate_damage_Nod (Fin Hs) (Fin ht) (Fin h) (Fin Dn50) (Fin rho_rock) (Fin rho_water)))
  /\ (forall (Dn50 ht h Nod rho_rock rho_water : R),
     positives (Dn50 :: ht :: h :: Nod :: rho_rock :: rho_water :: nil) -> rho_water < rho_rock ->
     number_with positive (Gerding1993.calculate_wave_height_Hs (Fin Dn50) (Fin ht) (Fin h) (Fin Nod) (Fin rho_rock) (Fin rho_water))).
Proof.
  Ltac unfold_Gerding1993 := cbv beta delta [CorePhysics.calculate_wave_steepness_s CorePhysics.calculate_Iribarren_number_ksi CorePhysics.calculate_critical_Iribarren_number_ksi_mc CorePhysics.calculate_buoyant_density_Delta CorePhysics.calculate_stability_number_Ns CorePhysics.calculate_M50_from_Dn50 CorePhysics.calculate_Dn50_from_M50 CorePhysics.check_usage_Dn50_or_M50 CorePhysics.calculate_S_from_Nod CorePhysics.calculate_Nod_from_S CorePhysics.g_default CorePhysics.local_wavelength CorePhysics.two_pi CorePhysics.check_usage_stabilitynumber Numpy.deg2rad Gerding1993.calculate_damage_Nod Gerding1993.calculate_nominal_diameter_Dn50 Gerding1993.calculate_wave_height_Hs Gerding1993.calculate_depth_above_toe_ht].
  split; [intros; all_positive; unfold_Gerding1993; numrun|].
  intros; all_positive; unfold_Gerding1993; numrun.
Qed.

Theorem C84_vandermeer1998 :
  (forall (Hs ht h Dn50 rho_rock rho_water : R),
     positives (Hs :: ht :: h :: Dn50 :: rho_rock :: rho_water :: nil) -> rho_water < rho_rock ->
     number_with positive (VanderMeer1998.calculate_damage_Nod (Fin Hs) (Fin ht) (Fin h) (Fin Dn50) (Fin rho_rock) (Fin rho_water)))
  /\ (forall (Hs ht h Nod rho_rock rho_water : R),
     positives (Hs :: ht :: h :: Nod :: rho_rock :: rho_water :: nil) -> rho_water < rho_rock ->
     number_with positive (VanderMeer1998.calculate_nominal_diameter_Dn50 (Fin Hs) (Fin ht) (Fin h) (Fin Nod) (Fin rho_rock) (Fin rho_water)))
  /\ (forall (Dn50 ht h Nod rho_rock rho_water : R),
     positives (Dn50 :: ht :: h :: Nod :: rho_rock :: rho_water :: nil) -> rho_water < rho_rock ->
     number_with positive (VanderMeer1998.calculate_wave_height_Hs (Fin Dn50) (Fin ht) (Fin h) (Fin Nod) (Fin rho_rock) (Fin rho_water))).
Proof.
  Ltac unfold_VanderMeer1998 := cbv beta delta [CorePhysics.calculate_wave_steepness_s CorePhysics.calculate_Iribarren_number_ksi CorePhysics.calculate_critical_Iribarren_number_ksi_mc CorePhysics.calculate_buoyant_density_Delta CorePhysics.calculate_stability_number_Ns CorePhysics.calculate_M50_from_Dn50 CorePhysics.calculate_Dn50_from_M50 CorePhysics.check_usage_Dn50_or_M50 CorePhysics.calculate_S_from_Nod CorePhysics.calculate_Nod_from_S CorePhysics.g_default CorePhysics.local_wavelength CorePhysics.two_pi CorePhysics.check_usage_stabilitynumber Numpy.deg2rad VanderMeer1998.calculate_damage_Nod VanderMeer1998.calculate_nominal_diameter_Dn50 VanderMeer1998.calculate_wave_height_Hs VanderMeer1998.calculate_depth_above_toe_ht].
  split; [intros; all_positive; unfold_VanderMeer1998; numrun|].
  split; [intros; all_positive; unfold_VanderMeer1998; numrun|].
  intros; all_positive; unfold_VanderMeer1998; numrun.
Qed.
