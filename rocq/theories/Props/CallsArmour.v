(** Property C67: how calls with arrays end and what they report. *)
From Coq Require Import Reals Lra Lia List Bool Arith String.
From Verif.Lib Require Import Num Monad Arr ArrFlags ArrLoop RTac NTac.
From Verif.Spec Require Import Arrays ArrayWarnings ArrayCalls.
From Verif.Model Require Import CoreUtility ArrCore.
From Verif.Proofs Require Import Core CheckTac Arrays ArrayWarnings ArrayCalls.
From Verif.Model Require ArrCubes ArrHudson1959 ArrHudsonUnits ArrScaravaglione2025 CorePhysics Cubes Hudson1959 HudsonUnits Scaravaglione2025.
Import ListNotations.
Open Scope nat_scope.

#[local] Hint Unfold
  ArrScaravaglione2025.check_validity_range ArrScaravaglione2025.calculate_damage_number_S
  ArrScaravaglione2025.calculate_nominal_rock_diameter_Dn50
  ArrScaravaglione2025.calculate_significant_wave_height_Hm0
  ArrHudson1959.calculate_median_rock_mass_M50_no_damage
  ArrHudson1959.calculate_significant_wave_height_Hs_no_damage
  ArrHudson1959.lookup_table_damage_factors ArrHudson1959.calculate_median_rock_mass_M50
  ArrHudson1959.calculate_significant_wave_height_Hs ArrHudsonUnits.accropode2_check_validity_range
  ArrHudsonUnits.accropode2_unit_mass_M ArrHudsonUnits.accropode2_wave_height_Hs
  ArrHudsonUnits.accropode2_KD_breaking ArrHudsonUnits.accropode_check_validity_range
  ArrHudsonUnits.accropode_unit_mass_M ArrHudsonUnits.accropode_wave_height_Hs
  ArrHudsonUnits.accropode_KD_breaking ArrHudsonUnits.core_loc_check_validity_range
  ArrHudsonUnits.core_loc_unit_mass_M ArrHudsonUnits.core_loc_wave_height_Hs
  ArrHudsonUnits.core_loc_KD_breaking ArrHudsonUnits.cubes_unit_mass_M
  ArrHudsonUnits.cubes_wave_height_Hs ArrHudsonUnits.cubipod_unit_mass_M
  ArrHudsonUnits.cubipod_wave_height_Hs ArrHudsonUnits.tetrapod_unit_mass_M
  ArrHudsonUnits.tetrapod_wave_height_Hs ArrCubes.check_validity_range ArrCubes.Ns_formula
  ArrCubes.calculate_nominal_diameter_Dn_vanDerMeer1988 ArrCubes.Tm_from_steepness
  ArrCubes.calculate_wave_height_Hs_vanDerMeer1988 ArrCubes.calculate_damage_Nod_vanDerMeer1988
  ArrCubes.calculate_unit_mass_M_start_of_damage ArrCubes.calculate_unit_mass_M_failure
  ArrCubes.calculate_significant_wave_height_Hs_start_of_damage
  ArrCubes.calculate_significant_wave_height_Hs_failure : arrays.
#[local] Hint Unfold
  Scaravaglione2025.check_validity_range Scaravaglione2025.calculate_damage_number_S
  Scaravaglione2025.calculate_nominal_rock_diameter_Dn50
  Scaravaglione2025.calculate_significant_wave_height_Hm0 Scaravaglione2025.c_VGnew_default
  Hudson1959.calculate_median_rock_mass_M50_no_damage
  Hudson1959.calculate_significant_wave_height_Hs_no_damage Hudson1959.percentages
  Hudson1959.mult_factors_rough Hudson1959.mult_factors_smooth
  Hudson1959.lookup_table_damage_factors Hudson1959.calculate_median_rock_mass_M50
  Hudson1959.calculate_significant_wave_height_Hs Hudson1959.alpha_Hs_default
  HudsonUnits.accropode2_check_validity_range HudsonUnits.accropode2_unit_mass_M
  HudsonUnits.accropode2_wave_height_Hs HudsonUnits.accropode2_KD_breaking
  HudsonUnits.accropode2_KD_nonbreaking HudsonUnits.accropode_check_validity_range
  HudsonUnits.accropode_unit_mass_M HudsonUnits.accropode_wave_height_Hs
  HudsonUnits.accropode_KD_breaking HudsonUnits.accropode_KD_nonbreaking
  HudsonUnits.core_loc_check_validity_range HudsonUnits.core_loc_unit_mass_M
  HudsonUnits.core_loc_wave_height_Hs HudsonUnits.core_loc_KD_breaking
  HudsonUnits.core_loc_KD_nonbreaking HudsonUnits.cubes_unit_mass_M HudsonUnits.cubes_wave_height_Hs
  HudsonUnits.cubipod_unit_mass_M HudsonUnits.cubipod_wave_height_Hs
  HudsonUnits.tetrapod_unit_mass_M HudsonUnits.tetrapod_wave_height_Hs Cubes.check_validity_range
  Cubes.Ns_formula Cubes.calculate_nominal_diameter_Dn_vanDerMeer1988 Cubes.Tm_from_steepness
  Cubes.calculate_wave_height_Hs_vanDerMeer1988 Cubes.calculate_damage_Nod_vanDerMeer1988
  Cubes.calculate_unit_mass_M_start_of_damage Cubes.calculate_unit_mass_M_failure
  Cubes.calculate_significant_wave_height_Hs_start_of_damage
  Cubes.calculate_significant_wave_height_Hs_failure Cubes.Ns_start_default Cubes.Ns_failure_default : scalars.

Theorem C67_scaravaglione_S : forall Hm0 Tmm10 N_waves cot_alpha rho_armour rho_core Dn50 Dn50_core M50 M50_core c_VGnew rho_water,
  reports_call [Hm0; Tmm10; N_waves; cot_alpha; rho_armour; rho_core; Dn50; Dn50_core; M50; M50_core; c_VGnew; rho_water] [Hm0; Tmm10; N_waves; cot_alpha; rho_armour; rho_core; Dn50; Dn50_core; M50; M50_core]
    [fun at_ => outcome (CorePhysics.check_usage_Dn50_or_M50 (at_ Dn50) (at_ M50) (at_ rho_armour));
     fun at_ => outcome (CorePhysics.check_usage_Dn50_or_M50 (at_ Dn50_core) (at_ M50_core) (at_ rho_core))]
    (ArrScaravaglione2025.calculate_damage_number_S Hm0 Tmm10 N_waves cot_alpha rho_armour rho_core Dn50 Dn50_core M50 M50_core c_VGnew rho_water)
    (fun at_ => Scaravaglione2025.calculate_damage_number_S (at_ Hm0) (at_ Tmm10) (at_ N_waves) (at_ cot_alpha) (at_ rho_armour) (at_ rho_core) (at_ Dn50) (at_ Dn50_core) (at_ M50) (at_ M50_core) (at_ c_VGnew) (at_ rho_water)).
Proof. intros. call_tac. Qed.

Theorem C67_scaravaglione_Dn50 : forall Hm0 Tmm10 N_waves cot_alpha rho_armour rho_core S Dn50_core M50_core c_VGnew rho_water,
  reports_call [Hm0; Tmm10; N_waves; cot_alpha; rho_armour; rho_core; S; Dn50_core; M50_core; c_VGnew; rho_water] [Hm0; Tmm10; N_waves; cot_alpha; rho_core; Dn50_core; M50_core]
    [fun at_ => outcome (CorePhysics.check_usage_Dn50_or_M50 (at_ Dn50_core) (at_ M50_core) (at_ rho_core));
     fun at_ => outcome (Scaravaglione2025.calculate_nominal_rock_diameter_Dn50 (at_ Hm0) (at_ Tmm10) (at_ N_waves) (at_ cot_alpha) (at_ rho_armour) (at_ rho_core) (at_ S) (at_ Dn50_core) (at_ M50_core) (at_ c_VGnew) (at_ rho_water))]
    (ArrScaravaglione2025.calculate_nominal_rock_diameter_Dn50 Hm0 Tmm10 N_waves cot_alpha rho_armour rho_core S Dn50_core M50_core c_VGnew rho_water)
    (fun at_ => Scaravaglione2025.calculate_nominal_rock_diameter_Dn50 (at_ Hm0) (at_ Tmm10) (at_ N_waves) (at_ cot_alpha) (at_ rho_armour) (at_ rho_core) (at_ S) (at_ Dn50_core) (at_ M50_core) (at_ c_VGnew) (at_ rho_water)).
Proof. intros. call_tac. Qed.

Theorem C67_scaravaglione_Hm0 : forall Tmm10 N_waves cot_alpha rho_armour rho_core S Dn50 Dn50_core M50 M50_core c_VGnew g rho_water,
  reports_call [Tmm10; N_waves; cot_alpha; rho_armour; rho_core; S; Dn50; Dn50_core; M50; M50_core; c_VGnew; g; rho_water] [Tmm10; N_waves; cot_alpha; rho_armour; rho_core; Dn50; Dn50_core; M50; M50_core]
    [fun at_ => outcome (CorePhysics.check_usage_Dn50_or_M50 (at_ Dn50) (at_ M50) (at_ rho_armour));
     fun at_ => outcome (CorePhysics.check_usage_Dn50_or_M50 (at_ Dn50_core) (at_ M50_core) (at_ rho_core));
     fun at_ => outcome (Scaravaglione2025.calculate_significant_wave_height_Hm0 (at_ Tmm10) (at_ N_waves) (at_ cot_alpha) (at_ rho_armour) (at_ rho_core) (at_ S) (at_ Dn50) (at_ Dn50_core) (at_ M50) (at_ M50_core) (at_ c_VGnew) (at_ g) (at_ rho_water))]
    (ArrScaravaglione2025.calculate_significant_wave_height_Hm0 Tmm10 N_waves cot_alpha rho_armour rho_core S Dn50 Dn50_core M50 M50_core c_VGnew g rho_water)
    (fun at_ => Scaravaglione2025.calculate_significant_wave_height_Hm0 (at_ Tmm10) (at_ N_waves) (at_ cot_alpha) (at_ rho_armour) (at_ rho_core) (at_ S) (at_ Dn50) (at_ Dn50_core) (at_ M50) (at_ M50_core) (at_ c_VGnew) (at_ g) (at_ rho_water)).
Proof. intros. call_tac. Qed.

Theorem C67_accropode2_M : forall Hs rho_water rho_armour KD cot_alpha alpha_Hs,
  reports_call [Hs; rho_water; rho_armour; KD; cot_alpha; alpha_Hs] [cot_alpha] []
    (ArrHudsonUnits.accropode2_unit_mass_M Hs rho_water rho_armour KD cot_alpha alpha_Hs)
    (fun at_ => HudsonUnits.accropode2_unit_mass_M (at_ Hs) (at_ rho_water) (at_ rho_armour) (at_ KD) (at_ cot_alpha) (at_ alpha_Hs)).
Proof. intros. call_tac. Qed.

Theorem C67_accropode2_Hs : forall m rho_water rho_armour KD cot_alpha alpha_Hs,
  reports_call [m; rho_water; rho_armour; KD; cot_alpha; alpha_Hs] [cot_alpha] []
    (ArrHudsonUnits.accropode2_wave_height_Hs m rho_water rho_armour KD cot_alpha alpha_Hs)
    (fun at_ => HudsonUnits.accropode2_wave_height_Hs (at_ m) (at_ rho_water) (at_ rho_armour) (at_ KD) (at_ cot_alpha) (at_ alpha_Hs)).
Proof. intros. call_tac. Qed.

Theorem C67_accropode2_KD : forall seabed_slope_perc,
  reports_call [seabed_slope_perc] [seabed_slope_perc] []
    (ArrHudsonUnits.accropode2_KD_breaking seabed_slope_perc)
    (fun at_ => HudsonUnits.accropode2_KD_breaking (at_ seabed_slope_perc)).
Proof. intros. call_tac. Qed.

Theorem C67_accropode_M : forall Hs rho_water rho_armour KD cot_alpha alpha_Hs,
  reports_call [Hs; rho_water; rho_armour; KD; cot_alpha; alpha_Hs] [cot_alpha] []
    (ArrHudsonUnits.accropode_unit_mass_M Hs rho_water rho_armour KD cot_alpha alpha_Hs)
    (fun at_ => HudsonUnits.accropode_unit_mass_M (at_ Hs) (at_ rho_water) (at_ rho_armour) (at_ KD) (at_ cot_alpha) (at_ alpha_Hs)).
Proof. intros. call_tac. Qed.

Theorem C67_accropode_Hs : forall m rho_water rho_armour KD cot_alpha alpha_Hs,
  reports_call [m; rho_water; rho_armour; KD; cot_alpha; alpha_Hs] [cot_alpha] []
    (ArrHudsonUnits.accropode_wave_height_Hs m rho_water rho_armour KD cot_alpha alpha_Hs)
    (fun at_ => HudsonUnits.accropode_wave_height_Hs (at_ m) (at_ rho_water) (at_ rho_armour) (at_ KD) (at_ cot_alpha) (at_ alpha_Hs)).
Proof. intros. call_tac. Qed.

Theorem C67_accropode_KD : forall seabed_slope_perc,
  reports_call [seabed_slope_perc] [seabed_slope_perc] []
    (ArrHudsonUnits.accropode_KD_breaking seabed_slope_perc)
    (fun at_ => HudsonUnits.accropode_KD_breaking (at_ seabed_slope_perc)).
Proof. intros. call_tac. Qed.

Theorem C67_core_loc_M : forall Hs rho_water rho_armour KD cot_alpha alpha_Hs,
  reports_call [Hs; rho_water; rho_armour; KD; cot_alpha; alpha_Hs] [] []
    (ArrHudsonUnits.core_loc_unit_mass_M Hs rho_water rho_armour KD cot_alpha alpha_Hs)
    (fun at_ => HudsonUnits.core_loc_unit_mass_M (at_ Hs) (at_ rho_water) (at_ rho_armour) (at_ KD) (at_ cot_alpha) (at_ alpha_Hs)).
Proof. intros. call_tac. Qed.

Theorem C67_core_loc_Hs : forall m rho_water rho_armour KD cot_alpha alpha_Hs,
  reports_call [m; rho_water; rho_armour; KD; cot_alpha; alpha_Hs] [] []
    (ArrHudsonUnits.core_loc_wave_height_Hs m rho_water rho_armour KD cot_alpha alpha_Hs)
    (fun at_ => HudsonUnits.core_loc_wave_height_Hs (at_ m) (at_ rho_water) (at_ rho_armour) (at_ KD) (at_ cot_alpha) (at_ alpha_Hs)).
Proof. intros. call_tac. Qed.

Theorem C67_core_loc_KD : forall seabed_slope_perc,
  reports_call [seabed_slope_perc] [seabed_slope_perc] []
    (ArrHudsonUnits.core_loc_KD_breaking seabed_slope_perc)
    (fun at_ => HudsonUnits.core_loc_KD_breaking (at_ seabed_slope_perc)).
Proof. intros. call_tac. Qed.

Theorem C67_cubes_M : forall Hs rho_water rho_armour KD cot_alpha alpha_Hs,
  reports_call [Hs; rho_water; rho_armour; KD; cot_alpha; alpha_Hs] [] []
    (ArrHudsonUnits.cubes_unit_mass_M Hs rho_water rho_armour KD cot_alpha alpha_Hs)
    (fun at_ => HudsonUnits.cubes_unit_mass_M (at_ Hs) (at_ rho_water) (at_ rho_armour) (at_ KD) (at_ cot_alpha) (at_ alpha_Hs)).
Proof. intros. call_tac. Qed.

Theorem C67_cubes_Hs : forall m rho_water rho_armour KD cot_alpha alpha_Hs,
  reports_call [m; rho_water; rho_armour; KD; cot_alpha; alpha_Hs] [] []
    (ArrHudsonUnits.cubes_wave_height_Hs m rho_water rho_armour KD cot_alpha alpha_Hs)
    (fun at_ => HudsonUnits.cubes_wave_height_Hs (at_ m) (at_ rho_water) (at_ rho_armour) (at_ KD) (at_ cot_alpha) (at_ alpha_Hs)).
Proof. intros. call_tac. Qed.

Theorem C67_cubipod_M : forall Hs rho_water rho_armour KD cot_alpha alpha_Hs,
  reports_call [Hs; rho_water; rho_armour; KD; cot_alpha; alpha_Hs] [] []
    (ArrHudsonUnits.cubipod_unit_mass_M Hs rho_water rho_armour KD cot_alpha alpha_Hs)
    (fun at_ => HudsonUnits.cubipod_unit_mass_M (at_ Hs) (at_ rho_water) (at_ rho_armour) (at_ KD) (at_ cot_alpha) (at_ alpha_Hs)).
Proof. intros. call_tac. Qed.

Theorem C67_cubipod_Hs : forall m rho_water rho_armour KD cot_alpha alpha_Hs,
  reports_call [m; rho_water; rho_armour; KD; cot_alpha; alpha_Hs] [] []
    (ArrHudsonUnits.cubipod_wave_height_Hs m rho_water rho_armour KD cot_alpha alpha_Hs)
    (fun at_ => HudsonUnits.cubipod_wave_height_Hs (at_ m) (at_ rho_water) (at_ rho_armour) (at_ KD) (at_ cot_alpha) (at_ alpha_Hs)).
Proof. intros. call_tac. Qed.

Theorem C67_tetrapod_M : forall Hs rho_water rho_armour KD cot_alpha alpha_Hs,
  reports_call [Hs; rho_water; rho_armour; KD; cot_alpha; alpha_Hs] [] []
    (ArrHudsonUnits.tetrapod_unit_mass_M Hs rho_water rho_armour KD cot_alpha alpha_Hs)
    (fun at_ => HudsonUnits.tetrapod_unit_mass_M (at_ Hs) (at_ rho_water) (at_ rho_armour) (at_ KD) (at_ cot_alpha) (at_ alpha_Hs)).
Proof. intros. call_tac. Qed.

Theorem C67_tetrapod_Hs : forall m rho_water rho_armour KD cot_alpha alpha_Hs,
  reports_call [m; rho_water; rho_armour; KD; cot_alpha; alpha_Hs] [] []
    (ArrHudsonUnits.tetrapod_wave_height_Hs m rho_water rho_armour KD cot_alpha alpha_Hs)
    (fun at_ => HudsonUnits.tetrapod_wave_height_Hs (at_ m) (at_ rho_water) (at_ rho_armour) (at_ KD) (at_ cot_alpha) (at_ alpha_Hs)).
Proof. intros. call_tac. Qed.

Theorem C67_cubes_double_Dn : forall Hs Tm rho_water rho_armour N_waves cot_alpha Nod,
  reports_call [Hs; Tm; rho_water; rho_armour; N_waves; cot_alpha; Nod] [Hs; Tm; rho_armour; N_waves; cot_alpha] []
    (ArrCubes.calculate_nominal_diameter_Dn_vanDerMeer1988 Hs Tm rho_water rho_armour N_waves cot_alpha Nod)
    (fun at_ => Cubes.calculate_nominal_diameter_Dn_vanDerMeer1988 (at_ Hs) (at_ Tm) (at_ rho_water) (at_ rho_armour) (at_ N_waves) (at_ cot_alpha) (at_ Nod)).
Proof. intros. call_tac. Qed.

Theorem C67_cubes_double_Hs : forall Dn s0m rho_water rho_armour N_waves cot_alpha Nod,
  reports_call [Dn; s0m; rho_water; rho_armour; N_waves; cot_alpha; Nod] [rho_armour; N_waves; cot_alpha]
    [fun at_ => outcome (Cubes.calculate_wave_height_Hs_vanDerMeer1988 (at_ Dn) (at_ s0m) (at_ rho_water) (at_ rho_armour) (at_ N_waves) (at_ cot_alpha) (at_ Nod));
     fun at_ => Cubes.Tm_from_steepness (outcome (Cubes.calculate_wave_height_Hs_vanDerMeer1988 (at_ Dn) (at_ s0m) (at_ rho_water) (at_ rho_armour) (at_ N_waves) (at_ cot_alpha) (at_ Nod))) (at_ s0m)]
    (ArrCubes.calculate_wave_height_Hs_vanDerMeer1988 Dn s0m rho_water rho_armour N_waves cot_alpha Nod)
    (fun at_ => Cubes.calculate_wave_height_Hs_vanDerMeer1988 (at_ Dn) (at_ s0m) (at_ rho_water) (at_ rho_armour) (at_ N_waves) (at_ cot_alpha) (at_ Nod)).
Proof. intros. missing_tac. Qed.

Theorem C67_cubes_double_Nod : forall Hs Dn s0m rho_water rho_armour N_waves cot_alpha,
  reports_call [Hs; Dn; s0m; rho_water; rho_armour; N_waves; cot_alpha] [Hs; rho_armour; N_waves; cot_alpha]
    [fun at_ => Cubes.Tm_from_steepness (at_ Hs) (at_ s0m)]
    (ArrCubes.calculate_damage_Nod_vanDerMeer1988 Hs Dn s0m rho_water rho_armour N_waves cot_alpha)
    (fun at_ => Cubes.calculate_damage_Nod_vanDerMeer1988 (at_ Hs) (at_ Dn) (at_ s0m) (at_ rho_water) (at_ rho_armour) (at_ N_waves) (at_ cot_alpha)).
Proof. intros. missing_tac. Qed.

Theorem C67_cubes_single_M : forall Hs rho_water rho_armour Ns,
  reports_call [Hs; rho_water; rho_armour; Ns] [] []
    (ArrCubes.calculate_unit_mass_M_start_of_damage Hs rho_water rho_armour Ns)
    (fun at_ => Cubes.calculate_unit_mass_M_start_of_damage (at_ Hs) (at_ rho_water) (at_ rho_armour) (at_ Ns)).
Proof. intros. call_tac. Qed.

Theorem C67_cubes_single_M_failure : forall Hs rho_water rho_armour Ns,
  reports_call [Hs; rho_water; rho_armour; Ns] [] []
    (ArrCubes.calculate_unit_mass_M_failure Hs rho_water rho_armour Ns)
    (fun at_ => Cubes.calculate_unit_mass_M_failure (at_ Hs) (at_ rho_water) (at_ rho_armour) (at_ Ns)).
Proof. intros. call_tac. Qed.

Theorem C67_cubes_single_Hs : forall m rho_water rho_armour Ns,
  reports_call [m; rho_water; rho_armour; Ns] [] []
    (ArrCubes.calculate_significant_wave_height_Hs_start_of_damage m rho_water rho_armour Ns)
    (fun at_ => Cubes.calculate_significant_wave_height_Hs_start_of_damage (at_ m) (at_ rho_water) (at_ rho_armour) (at_ Ns)).
Proof. intros. call_tac. Qed.

Theorem C67_cubes_single_Hs_failure : forall m rho_water rho_armour Ns,
  reports_call [m; rho_water; rho_armour; Ns] [] []
    (ArrCubes.calculate_significant_wave_height_Hs_failure m rho_water rho_armour Ns)
    (fun at_ => Cubes.calculate_significant_wave_height_Hs_failure (at_ m) (at_ rho_water) (at_ rho_armour) (at_ Ns)).
Proof. intros. call_tac. Qed.
