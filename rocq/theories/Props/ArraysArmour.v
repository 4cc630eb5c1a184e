(** Property C61, armour layers: Scaravaglione, Hudson and concrete units. *)
From Coq Require Import Reals Lra List Bool Arith String.
From Verif.Lib Require Import Num Monad Arr RTac NTac Table Str.
From Verif.Spec Require Import Arrays.
From Verif.Model Require Import CoreUtility.
From Verif.Model Require CorePhysics ArrCore Scaravaglione2025 Hudson1959 HudsonUnits Cubes ArrScaravaglione2025 ArrHudson1959 ArrHudsonUnits ArrCubes.
From Verif.Proofs Require Import Core CheckTac Arrays.
Import ListNotations.
Open Scope nat_scope.

#[local] Hint Unfold
  ArrScaravaglione2025.check_validity_range ArrScaravaglione2025.calculate_damage_number_S
  ArrScaravaglione2025.calculate_nominal_rock_diameter_Dn50
  ArrScaravaglione2025.calculate_significant_wave_height_Hm0
  ArrHudson1959.calculate_median_rock_mass_M50_no_damage
  ArrHudson1959.calculate_significant_wave_height_Hs_no_damage
  ArrHudson1959.lookup_table_damage_factors ArrHudson1959.calculate_median_rock_mass_M50
  ArrHudson1959.calculate_significant_wave_height_Hs ArrHudsonUnits.accropode2_check_validity_range
  ArrHudsonUnits.accropode2_unit_mass_M ArrHudsonUnits.accropode2_wave_height_Hs
  ArrHudsonUnits.accropode2_KD_breaking ArrHudsonUnits.accropode_check_validity_range
  ArrHudsonUnits.accropode_unit_mass_M ArrHudsonUnits.accropode_wave_height_Hs
  ArrHudsonUnits.accropode_KD_breaking ArrHudsonUnits.core_loc_check_validity_range
  ArrHudsonUnits.core_loc_unit_mass_M ArrHudsonUnits.core_loc_wave_height_Hs
  ArrHudsonUnits.core_loc_KD_breaking ArrHudsonUnits.cubes_unit_mass_M
  ArrHudsonUnits.cubes_wave_height_Hs ArrHudsonUnits.cubipod_unit_mass_M
  ArrHudsonUnits.cubipod_wave_height_Hs ArrHudsonUnits.tetrapod_unit_mass_M
  ArrHudsonUnits.tetrapod_wave_height_Hs ArrCubes.check_validity_range ArrCubes.Ns_formula
  ArrCubes.calculate_nominal_diameter_Dn_vanDerMeer1988 ArrCubes.Tm_from_steepness
  ArrCubes.calculate_wave_height_Hs_vanDerMeer1988 ArrCubes.calculate_damage_Nod_vanDerMeer1988
  ArrCubes.calculate_unit_mass_M_start_of_damage ArrCubes.calculate_unit_mass_M_failure
  ArrCubes.calculate_significant_wave_height_Hs_start_of_damage
  ArrCubes.calculate_significant_wave_height_Hs_failure : arrays.
#[local] Hint Unfold
  Scaravaglione2025.check_validity_range Scaravaglione2025.calculate_damage_number_S
  Scaravaglione2025.calculate_nominal_rock_diameter_Dn50
  Scaravaglione2025.calculate_significant_wave_height_Hm0 Scaravaglione2025.c_VGnew_default
  Hudson1959.calculate_median_rock_mass_M50_no_damage
  Hudson1959.calculate_significant_wave_height_Hs_no_damage Hudson1959.percentages
  Hudson1959.mult_factors_rough Hudson1959.mult_factors_smooth
  Hudson1959.lookup_table_damage_factors Hudson1959.calculate_median_rock_mass_M50
  Hudson1959.calculate_significant_wave_height_Hs Hudson1959.alpha_Hs_default
  HudsonUnits.accropode2_check_validity_range HudsonUnits.accropode2_unit_mass_M
  HudsonUnits.accropode2_wave_height_Hs HudsonUnits.accropode2_KD_breaking
  HudsonUnits.accropode2_KD_nonbreaking HudsonUnits.accropode_check_validity_range
  HudsonUnits.accropode_unit_mass_M HudsonUnits.accropode_wave_height_Hs
  HudsonUnits.accropode_KD_breaking HudsonUnits.accropode_KD_nonbreaking
  HudsonUnits.core_loc_check_validity_range HudsonUnits.core_loc_unit_mass_M
  HudsonUnits.core_loc_wave_height_Hs HudsonUnits.core_loc_KD_breaking
  HudsonUnits.core_loc_KD_nonbreaking HudsonUnits.cubes_unit_mass_M HudsonUnits.cubes_wave_height_Hs
  HudsonUnits.cubipod_unit_mass_M HudsonUnits.cubipod_wave_height_Hs
  HudsonUnits.tetrapod_unit_mass_M HudsonUnits.tetrapod_wave_height_Hs Cubes.check_validity_range
  Cubes.Ns_formula Cubes.calculate_nominal_diameter_Dn_vanDerMeer1988 Cubes.Tm_from_steepness
  Cubes.calculate_wave_height_Hs_vanDerMeer1988 Cubes.calculate_damage_Nod_vanDerMeer1988
  Cubes.calculate_unit_mass_M_start_of_damage Cubes.calculate_unit_mass_M_failure
  Cubes.calculate_significant_wave_height_Hs_start_of_damage
  Cubes.calculate_significant_wave_height_Hs_failure Cubes.Ns_start_default Cubes.Ns_failure_default : scalars.

Theorem C61_scaravaglione_S : forall Hm0 Tmm10 N_waves cot_alpha rho_armour rho_core Dn50 Dn50_core M50 M50_core c_VGnew rho_water,
  filled Dn50 ->
  filled Dn50_core ->
  elementwise [Hm0; Tmm10; N_waves; cot_alpha; rho_armour; Dn50; Dn50_core; c_VGnew; rho_water]
    (ArrScaravaglione2025.calculate_damage_number_S Hm0 Tmm10 N_waves cot_alpha rho_armour rho_core Dn50 Dn50_core M50 M50_core c_VGnew rho_water)
    (fun at_ => value (Scaravaglione2025.calculate_damage_number_S (at_ Hm0) (at_ Tmm10) (at_ N_waves) (at_ cot_alpha) (at_ rho_armour) (at_ rho_core) (at_ Dn50) (at_ Dn50_core) (at_ M50) (at_ M50_core) (at_ c_VGnew) (at_ rho_water))).
Proof.
  intros. array_tac.
Qed.

Theorem C61_scaravaglione_S_from_M50 : forall Hm0 Tmm10 N_waves cot_alpha rho_armour rho_core Dn50 Dn50_core M50 M50_core c_VGnew rho_water,
  missing Dn50 ->
  missing Dn50_core ->
  filled M50 ->
  filled M50_core ->
  filled rho_armour ->
  filled rho_core ->
  elementwise [Hm0; Tmm10; N_waves; cot_alpha; rho_armour; rho_core; M50; M50_core; c_VGnew; rho_water]
    (ArrScaravaglione2025.calculate_damage_number_S Hm0 Tmm10 N_waves cot_alpha rho_armour rho_core Dn50 Dn50_core M50 M50_core c_VGnew rho_water)
    (fun at_ => value (Scaravaglione2025.calculate_damage_number_S (at_ Hm0) (at_ Tmm10) (at_ N_waves) (at_ cot_alpha) (at_ rho_armour) (at_ rho_core) (at_ Dn50) (at_ Dn50_core) (at_ M50) (at_ M50_core) (at_ c_VGnew) (at_ rho_water))).
Proof.
  intros. array_tac.
Qed.

Theorem C61_scaravaglione_Dn50 : forall Hm0 Tmm10 N_waves cot_alpha rho_armour rho_core S Dn50_core M50_core c_VGnew rho_water,
  filled Dn50_core ->
  elementwise [Hm0; Tmm10; N_waves; cot_alpha; rho_armour; S; Dn50_core; c_VGnew; rho_water]
    (ArrScaravaglione2025.calculate_nominal_rock_diameter_Dn50 Hm0 Tmm10 N_waves cot_alpha rho_armour rho_core S Dn50_core M50_core c_VGnew rho_water)
    (fun at_ => value (Scaravaglione2025.calculate_nominal_rock_diameter_Dn50 (at_ Hm0) (at_ Tmm10) (at_ N_waves) (at_ cot_alpha) (at_ rho_armour) (at_ rho_core) (at_ S) (at_ Dn50_core) (at_ M50_core) (at_ c_VGnew) (at_ rho_water))).
Proof.
  intros. array_tac.
Qed.

Theorem C61_scaravaglione_Dn50_from_M50 : forall Hm0 Tmm10 N_waves cot_alpha rho_armour rho_core S Dn50_core M50_core c_VGnew rho_water,
  missing Dn50_core ->
  filled M50_core ->
  filled rho_core ->
  elementwise [Hm0; Tmm10; N_waves; cot_alpha; rho_armour; rho_core; S; M50_core; c_VGnew; rho_water]
    (ArrScaravaglione2025.calculate_nominal_rock_diameter_Dn50 Hm0 Tmm10 N_waves cot_alpha rho_armour rho_core S Dn50_core M50_core c_VGnew rho_water)
    (fun at_ => value (Scaravaglione2025.calculate_nominal_rock_diameter_Dn50 (at_ Hm0) (at_ Tmm10) (at_ N_waves) (at_ cot_alpha) (at_ rho_armour) (at_ rho_core) (at_ S) (at_ Dn50_core) (at_ M50_core) (at_ c_VGnew) (at_ rho_water))).
Proof.
  intros. array_tac.
Qed.

Theorem C61_scaravaglione_Hm0 : forall Tmm10 N_waves cot_alpha rho_armour rho_core S Dn50 Dn50_core M50 M50_core c_VGnew g rho_water,
  filled Dn50 ->
  filled Dn50_core ->
  elementwise [Tmm10; N_waves; cot_alpha; rho_armour; S; Dn50; Dn50_core; c_VGnew; g; rho_water]
    (ArrScaravaglione2025.calculate_significant_wave_height_Hm0 Tmm10 N_waves cot_alpha rho_armour rho_core S Dn50 Dn50_core M50 M50_core c_VGnew g rho_water)
    (fun at_ => value (Scaravaglione2025.calculate_significant_wave_height_Hm0 (at_ Tmm10) (at_ N_waves) (at_ cot_alpha) (at_ rho_armour) (at_ rho_core) (at_ S) (at_ Dn50) (at_ Dn50_core) (at_ M50) (at_ M50_core) (at_ c_VGnew) (at_ g) (at_ rho_water))).
Proof.
  intros. array_tac.
Qed.

Theorem C61_scaravaglione_Hm0_from_M50 : forall Tmm10 N_waves cot_alpha rho_armour rho_core S Dn50 Dn50_core M50 M50_core c_VGnew g rho_water,
  missing Dn50 ->
  missing Dn50_core ->
  filled M50 ->
  filled M50_core ->
  filled rho_armour ->
  filled rho_core ->
  elementwise [Tmm10; N_waves; cot_alpha; rho_armour; rho_core; S; M50; M50_core; c_VGnew; g; rho_water]
    (ArrScaravaglione2025.calculate_significant_wave_height_Hm0 Tmm10 N_waves cot_alpha rho_armour rho_core S Dn50 Dn50_core M50 M50_core c_VGnew g rho_water)
    (fun at_ => value (Scaravaglione2025.calculate_significant_wave_height_Hm0 (at_ Tmm10) (at_ N_waves) (at_ cot_alpha) (at_ rho_armour) (at_ rho_core) (at_ S) (at_ Dn50) (at_ Dn50_core) (at_ M50) (at_ M50_core) (at_ c_VGnew) (at_ g) (at_ rho_water))).
Proof.
  intros. array_tac.
Qed.

Theorem C61_hudson_M50 : forall Hs rho_water rho_armour KD cot_alpha alpha_Hs,
  elementwise [Hs; rho_water; rho_armour; KD; cot_alpha; alpha_Hs]
    (ArrHudson1959.calculate_median_rock_mass_M50_no_damage Hs rho_water rho_armour KD cot_alpha alpha_Hs)
    (fun at_ => Ok (Hudson1959.calculate_median_rock_mass_M50_no_damage (at_ Hs) (at_ rho_water) (at_ rho_armour) (at_ KD) (at_ cot_alpha) (at_ alpha_Hs))).
Proof.
  intros. array_tac.
Qed.

Theorem C61_hudson_Hs : forall M50 rho_water rho_armour KD cot_alpha alpha_Hs,
  elementwise [M50; rho_water; rho_armour; KD; cot_alpha; alpha_Hs]
    (ArrHudson1959.calculate_significant_wave_height_Hs_no_damage M50 rho_water rho_armour KD cot_alpha alpha_Hs)
    (fun at_ => Ok (Hudson1959.calculate_significant_wave_height_Hs_no_damage (at_ M50) (at_ rho_water) (at_ rho_armour) (at_ KD) (at_ cot_alpha) (at_ alpha_Hs))).
Proof.
  intros. array_tac.
Qed.

Theorem C61_accropode2_M : forall Hs rho_water rho_armour KD cot_alpha alpha_Hs,
  elementwise [Hs; rho_water; rho_armour; KD; cot_alpha; alpha_Hs]
    (ArrHudsonUnits.accropode2_unit_mass_M Hs rho_water rho_armour KD cot_alpha alpha_Hs)
    (fun at_ => value (HudsonUnits.accropode2_unit_mass_M (at_ Hs) (at_ rho_water) (at_ rho_armour) (at_ KD) (at_ cot_alpha) (at_ alpha_Hs))).
Proof.
  intros. array_tac.
Qed.

Theorem C61_accropode2_Hs : forall m rho_water rho_armour KD cot_alpha alpha_Hs,
  elementwise [m; rho_water; rho_armour; KD; cot_alpha; alpha_Hs]
    (ArrHudsonUnits.accropode2_wave_height_Hs m rho_water rho_armour KD cot_alpha alpha_Hs)
    (fun at_ => value (HudsonUnits.accropode2_wave_height_Hs (at_ m) (at_ rho_water) (at_ rho_armour) (at_ KD) (at_ cot_alpha) (at_ alpha_Hs))).
Proof.
  intros. array_tac.
Qed.

Theorem C61_accropode2_KD : forall seabed_slope_perc,
  elementwise [seabed_slope_perc]
    (ArrHudsonUnits.accropode2_KD_breaking seabed_slope_perc)
    (fun at_ => value (HudsonUnits.accropode2_KD_breaking (at_ seabed_slope_perc))).
Proof.
  intros. array_tac.
Qed.

Theorem C61_accropode_M : forall Hs rho_water rho_armour KD cot_alpha alpha_Hs,
  elementwise [Hs; rho_water; rho_armour; KD; cot_alpha; alpha_Hs]
    (ArrHudsonUnits.accropode_unit_mass_M Hs rho_water rho_armour KD cot_alpha alpha_Hs)
    (fun at_ => value (HudsonUnits.accropode_unit_mass_M (at_ Hs) (at_ rho_water) (at_ rho_armour) (at_ KD) (at_ cot_alpha) (at_ alpha_Hs))).
Proof.
  intros. array_tac.
Qed.

Theorem C61_accropode_Hs : forall m rho_water rho_armour KD cot_alpha alpha_Hs,
  elementwise [m; rho_water; rho_armour; KD; cot_alpha; alpha_Hs]
    (ArrHudsonUnits.accropode_wave_height_Hs m rho_water rho_armour KD cot_alpha alpha_Hs)
    (fun at_ => value (HudsonUnits.accropode_wave_height_Hs (at_ m) (at_ rho_water) (at_ rho_armour) (at_ KD) (at_ cot_alpha) (at_ alpha_Hs))).
Proof.
  intros. array_tac.
Qed.

Theorem C61_accropode_KD : forall seabed_slope_perc,
  elementwise [seabed_slope_perc]
    (ArrHudsonUnits.accropode_KD_breaking seabed_slope_perc)
    (fun at_ => value (HudsonUnits.accropode_KD_breaking (at_ seabed_slope_perc))).
Proof.
  intros. array_tac.
Qed.

Theorem C61_core_loc_M : forall Hs rho_water rho_armour KD cot_alpha alpha_Hs,
  elementwise [Hs; rho_water; rho_armour; KD; cot_alpha; alpha_Hs]
    (ArrHudsonUnits.core_loc_unit_mass_M Hs rho_water rho_armour KD cot_alpha alpha_Hs)
    (fun at_ => value (HudsonUnits.core_loc_unit_mass_M (at_ Hs) (at_ rho_water) (at_ rho_armour) (at_ KD) (at_ cot_alpha) (at_ alpha_Hs))).
Proof.
  intros. array_tac.
Qed.

Theorem C61_core_loc_Hs : forall m rho_water rho_armour KD cot_alpha alpha_Hs,
  elementwise [m; rho_water; rho_armour; KD; cot_alpha; alpha_Hs]
    (ArrHudsonUnits.core_loc_wave_height_Hs m rho_water rho_armour KD cot_alpha alpha_Hs)
    (fun at_ => value (HudsonUnits.core_loc_wave_height_Hs (at_ m) (at_ rho_water) (at_ rho_armour) (at_ KD) (at_ cot_alpha) (at_ alpha_Hs))).
Proof.
  intros. array_tac.
Qed.

Theorem C61_core_loc_KD : forall seabed_slope_perc,
  elementwise [seabed_slope_perc]
    (ArrHudsonUnits.core_loc_KD_breaking seabed_slope_perc)
    (fun at_ => value (HudsonUnits.core_loc_KD_breaking (at_ seabed_slope_perc))).
Proof.
  intros. array_tac.
Qed.

Theorem C61_cubes_M : forall Hs rho_water rho_armour KD cot_alpha alpha_Hs,
  elementwise [Hs; rho_water; rho_armour; KD; cot_alpha; alpha_Hs]
    (ArrHudsonUnits.cubes_unit_mass_M Hs rho_water rho_armour KD cot_alpha alpha_Hs)
    (fun at_ => value (HudsonUnits.cubes_unit_mass_M (at_ Hs) (at_ rho_water) (at_ rho_armour) (at_ KD) (at_ cot_alpha) (at_ alpha_Hs))).
Proof.
  intros. array_tac.
Qed.

Theorem C61_cubes_Hs : forall m rho_water rho_armour KD cot_alpha alpha_Hs,
  elementwise [m; rho_water; rho_armour; KD; cot_alpha; alpha_Hs]
    (ArrHudsonUnits.cubes_wave_height_Hs m rho_water rho_armour KD cot_alpha alpha_Hs)
    (fun at_ => value (HudsonUnits.cubes_wave_height_Hs (at_ m) (at_ rho_water) (at_ rho_armour) (at_ KD) (at_ cot_alpha) (at_ alpha_Hs))).
Proof.
  intros. array_tac.
Qed.

Theorem C61_cubipod_M : forall Hs rho_water rho_armour KD cot_alpha alpha_Hs,
  elementwise [Hs; rho_water; rho_armour; KD; cot_alpha; alpha_Hs]
    (ArrHudsonUnits.cubipod_unit_mass_M Hs rho_water rho_armour KD cot_alpha alpha_Hs)
    (fun at_ => value (HudsonUnits.cubipod_unit_mass_M (at_ Hs) (at_ rho_water) (at_ rho_armour) (at_ KD) (at_ cot_alpha) (at_ alpha_Hs))).
Proof.
  intros. array_tac.
Qed.

Theorem C61_cubipod_Hs : forall m rho_water rho_armour KD cot_alpha alpha_Hs,
  elementwise [m; rho_water; rho_armour; KD; cot_alpha; alpha_Hs]
    (ArrHudsonUnits.cubipod_wave_height_Hs m rho_water rho_armour KD cot_alpha alpha_Hs)
    (fun at_ => value (HudsonUnits.cubipod_wave_height_Hs (at_ m) (at_ rho_water) (at_ rho_armour) (at_ KD) (at_ cot_alpha) (at_ alpha_Hs))).
Proof.
  intros. array_tac.
Qed.

Theorem C61_tetrapod_M : forall Hs rho_water rho_armour KD cot_alpha alpha_Hs,
  elementwise [Hs; rho_water; rho_armour; KD; cot_alpha; alpha_Hs]
    (ArrHudsonUnits.tetrapod_unit_mass_M Hs rho_water rho_armour KD cot_alpha alpha_Hs)
    (fun at_ => value (HudsonUnits.tetrapod_unit_mass_M (at_ Hs) (at_ rho_water) (at_ rho_armour) (at_ KD) (at_ cot_alpha) (at_ alpha_Hs))).
Proof.
  intros. array_tac.
Qed.

Theorem C61_tetrapod_Hs : forall m rho_water rho_armour KD cot_alpha alpha_Hs,
  elementwise [m; rho_water; rho_armour; KD; cot_alpha; alpha_Hs]
    (ArrHudsonUnits.tetrapod_wave_height_Hs m rho_water rho_armour KD cot_alpha alpha_Hs)
    (fun at_ => value (HudsonUnits.tetrapod_wave_height_Hs (at_ m) (at_ rho_water) (at_ rho_armour) (at_ KD) (at_ cot_alpha) (at_ alpha_Hs))).
Proof.
  intros. array_tac.
Qed.

Theorem C61_cubes_double_Dn : forall Hs Tm rho_water rho_armour N_waves cot_alpha Nod,
  elementwise [Hs; Tm; rho_water; rho_armour; N_waves; Nod]
    (ArrCubes.calculate_nominal_diameter_Dn_vanDerMeer1988 Hs Tm rho_water rho_armour N_waves cot_alpha Nod)
    (fun at_ => value (Cubes.calculate_nominal_diameter_Dn_vanDerMeer1988 (at_ Hs) (at_ Tm) (at_ rho_water) (at_ rho_armour) (at_ N_waves) (at_ cot_alpha) (at_ Nod))).
Proof.
  intros. array_tac.
Qed.

Theorem C61_cubes_double_Hs : forall Dn s0m rho_water rho_armour N_waves cot_alpha Nod,
  elementwise [Dn; s0m; rho_water; rho_armour; N_waves; Nod]
    (ArrCubes.calculate_wave_height_Hs_vanDerMeer1988 Dn s0m rho_water rho_armour N_waves cot_alpha Nod)
    (fun at_ => value (Cubes.calculate_wave_height_Hs_vanDerMeer1988 (at_ Dn) (at_ s0m) (at_ rho_water) (at_ rho_armour) (at_ N_waves) (at_ cot_alpha) (at_ Nod))).
Proof.
  intros. array_tac.
Qed.

Theorem C61_cubes_double_Nod : forall Hs Dn s0m rho_water rho_armour N_waves cot_alpha,
  elementwise [Hs; Dn; s0m; rho_water; rho_armour; N_waves]
    (ArrCubes.calculate_damage_Nod_vanDerMeer1988 Hs Dn s0m rho_water rho_armour N_waves cot_alpha)
    (fun at_ => value (Cubes.calculate_damage_Nod_vanDerMeer1988 (at_ Hs) (at_ Dn) (at_ s0m) (at_ rho_water) (at_ rho_armour) (at_ N_waves) (at_ cot_alpha))).
Proof.
  intros. array_tac.
Qed.

Theorem C61_cubes_single_M : forall Hs rho_water rho_armour Ns,
  elementwise [Hs; rho_water; rho_armour; Ns]
    (ArrCubes.calculate_unit_mass_M_start_of_damage Hs rho_water rho_armour Ns)
    (fun at_ => value (Cubes.calculate_unit_mass_M_start_of_damage (at_ Hs) (at_ rho_water) (at_ rho_armour) (at_ Ns))).
Proof.
  intros. array_tac.
Qed.

Theorem C61_cubes_single_M_failure : forall Hs rho_water rho_armour Ns,
  elementwise [Hs; rho_water; rho_armour; Ns]
    (ArrCubes.calculate_unit_mass_M_failure Hs rho_water rho_armour Ns)
    (fun at_ => value (Cubes.calculate_unit_mass_M_failure (at_ Hs) (at_ rho_water) (at_ rho_armour) (at_ Ns))).
Proof.
  intros. array_tac.
Qed.

Theorem C61_cubes_single_Hs : forall m rho_water rho_armour Ns,
  elementwise [m; rho_water; rho_armour; Ns]
    (ArrCubes.calculate_significant_wave_height_Hs_start_of_damage m rho_water rho_armour Ns)
    (fun at_ => value (Cubes.calculate_significant_wave_height_Hs_start_of_damage (at_ m) (at_ rho_water) (at_ rho_armour) (at_ Ns))).
Proof.
  intros. array_tac.
Qed.

Theorem C61_cubes_single_Hs_failure : forall m rho_water rho_armour Ns,
  elementwise [m; rho_water; rho_armour; Ns]
    (ArrCubes.calculate_significant_wave_height_Hs_failure m rho_water rho_armour Ns)
    (fun at_ => value (Cubes.calculate_significant_wave_height_Hs_failure (at_ m) (at_ rho_water) (at_ rho_armour) (at_ Ns))).
Proof.
  intros. array_tac.
Qed.

(** The factor of the damage percentage is looked up for every entry; a percentage
    of 100 or more (or NaN) anywhere ends the call. *)
Definition below_100 (p : num) : Prop := nlt p #100 = true.

Lemma factor_works l p : List.length l = 9 -> below_100 p -> works (fun p => index l (searchsorted_right Hudson1959.percentages p)) p.
Proof.
  unfold below_100. intros E H. unfold works, index, Hudson1959.percentages. cbn [searchsorted_right].
  do 9 (destruct l as [|? l]; [discriminate|]).
  repeat match goal with |- context [nlt p ?x] => destruct (nlt p x) eqn:?; [eexists; reflexivity|] end.
  congruence.
Qed.

Ltac table_tac :=
  intros; match goal with H : Forall below_100 (entries ?a) |- _ =>
    assert (Forall (works (fun p => index Hudson1959.mult_factors_rough (searchsorted_right Hudson1959.percentages p))) (entries a))
      by (eapply Forall_impl; [|exact H]; intros; apply factor_works; auto);
    assert (Forall (works (fun p => index Hudson1959.mult_factors_smooth (searchsorted_right Hudson1959.percentages p))) (entries a))
      by (eapply Forall_impl; [|exact H]; intros; apply factor_works; auto) end.

Definition known_rock (t : string) : Prop := strip (lower t) = "rough"%string \/ strip (lower t) = "smooth"%string.

Theorem C61_hudson_M50_damage : forall Hs rho_water rho_armour KD cot_alpha damage_percentage (rock_type : string) alpha_Hs,
  known_rock rock_type ->
  Forall below_100 (entries damage_percentage) ->
  elementwise [Hs; rho_water; rho_armour; KD; cot_alpha; damage_percentage; alpha_Hs]
    (ArrHudson1959.calculate_median_rock_mass_M50 Hs rho_water rho_armour KD cot_alpha damage_percentage rock_type alpha_Hs)
    (fun at_ => value (Hudson1959.calculate_median_rock_mass_M50 (at_ Hs) (at_ rho_water) (at_ rho_armour) (at_ KD) (at_ cot_alpha) (at_ damage_percentage) rock_type (at_ alpha_Hs))).
Proof.
  intros. table_tac. autounfold with arrays; unfold Hudson1959.calculate_median_rock_mass_M50, Hudson1959.lookup_table_damage_factors; destruct H as [E|E]; rewrite E; cbn [String.eqb Ascii.eqb Bool.eqb]; elementwise_tac; at_place; [rewrite (works_place _ _ sh i H1) by assumption|rewrite (works_place _ _ sh i H2) by assumption]; at_place.
Qed.

Theorem C61_hudson_Hs_damage : forall M50 rho_water rho_armour KD cot_alpha damage_percentage (rock_type : string) alpha_Hs,
  known_rock rock_type ->
  Forall below_100 (entries damage_percentage) ->
  elementwise [M50; rho_water; rho_armour; KD; cot_alpha; damage_percentage; alpha_Hs]
    (ArrHudson1959.calculate_significant_wave_height_Hs M50 rho_water rho_armour KD cot_alpha damage_percentage rock_type alpha_Hs)
    (fun at_ => value (Hudson1959.calculate_significant_wave_height_Hs (at_ M50) (at_ rho_water) (at_ rho_armour) (at_ KD) (at_ cot_alpha) (at_ damage_percentage) rock_type (at_ alpha_Hs))).
Proof.
  intros. table_tac. autounfold with arrays; unfold Hudson1959.calculate_significant_wave_height_Hs, Hudson1959.lookup_table_damage_factors; destruct H as [E|E]; rewrite E; cbn [String.eqb Ascii.eqb Bool.eqb]; elementwise_tac; at_place; [rewrite (works_place _ _ sh i H1) by assumption|rewrite (works_place _ _ sh i H2) by assumption]; at_place.
Qed.

