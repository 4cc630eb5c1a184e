(** Properties C61 and C63 for the rock stability formulas of Etemad-Shahidi et al. (2020)
    and Jumelet et al. (2024). *)
From Coq Require Import Reals Lra Lia List Bool Arith String.
From Verif.Lib Require Import Num Monad Arr ArrLoop RTac NTac.
From Verif.Spec Require Import Arrays ArrayLoops.
From Verif.Model Require Import CoreUtility.
From Verif.Model Require CorePhysics ArrCore EtemadShahidi2020 ArrEtemadShahidi2020 Jumelet2024 ArrJumelet2024.
From Verif.Proofs Require Import Core CheckTac Arrays ArrayLoops.
Import ListNotations.
Open Scope nat_scope.

#[local] Hint Unfold
  ArrEtemadShahidi2020.check_validity_range ArrEtemadShahidi2020.calculate_permeability_coefficient_Cp
  ArrEtemadShahidi2020.calculate_damage_number_S
  ArrEtemadShahidi2020.calculate_significant_wave_height_Hs
  ArrJumelet2024.check_validity_range ArrJumelet2024.calculate_fraction_plunging_waves_Fp
  ArrJumelet2024.calculate_damage_number_S ArrJumelet2024.calculate_nominal_rock_diameter_Dn50 : arrays.
#[local] Hint Unfold
  EtemadShahidi2020.check_validity_range EtemadShahidi2020.calculate_permeability_coefficient_Cp
  EtemadShahidi2020.calculate_damage_number_S
  EtemadShahidi2020.calculate_significant_wave_height_Hs
  Jumelet2024.check_validity_range Jumelet2024.calculate_fraction_plunging_waves_Fp
  Jumelet2024.calculate_damage_number_S Jumelet2024.calculate_nominal_rock_diameter_Dn50 : scalars.

Theorem C61_jumelet_S : forall Hs Tmm10 N_waves cot_alpha rho_armour Dn50 M50 c_pl rho_water, filled Dn50 ->
  elementwise [Hs; Tmm10; N_waves; cot_alpha; rho_armour; Dn50; c_pl; rho_water]
    (ArrJumelet2024.calculate_damage_number_S Hs Tmm10 N_waves cot_alpha rho_armour Dn50 M50 c_pl rho_water)
    (fun at_ => value (Jumelet2024.calculate_damage_number_S (at_ Hs) (at_ Tmm10) (at_ N_waves) (at_ cot_alpha) (at_ rho_armour) (at_ Dn50) (at_ M50) (at_ c_pl) (at_ rho_water))).
Proof. intros. array_tac. Qed.
Theorem C61_jumelet_S_from_M50 : forall Hs Tmm10 N_waves cot_alpha rho_armour Dn50 M50 c_pl rho_water, missing Dn50 -> filled M50 -> filled rho_armour ->
  elementwise [Hs; Tmm10; N_waves; cot_alpha; rho_armour; M50; c_pl; rho_water]
    (ArrJumelet2024.calculate_damage_number_S Hs Tmm10 N_waves cot_alpha rho_armour Dn50 M50 c_pl rho_water)
    (fun at_ => value (Jumelet2024.calculate_damage_number_S (at_ Hs) (at_ Tmm10) (at_ N_waves) (at_ cot_alpha) (at_ rho_armour) (at_ Dn50) (at_ M50) (at_ c_pl) (at_ rho_water))).
Proof. intros. array_tac. Qed.
Theorem C61_jumelet_Dn50 : forall Hs Tmm10 N_waves cot_alpha rho_armour S c_pl,
  elementwise [Hs; Tmm10; N_waves; cot_alpha; rho_armour; S; c_pl]
    (ArrJumelet2024.calculate_nominal_rock_diameter_Dn50 Hs Tmm10 N_waves cot_alpha rho_armour S c_pl)
    (fun at_ => value (Jumelet2024.calculate_nominal_rock_diameter_Dn50 (at_ Hs) (at_ Tmm10) (at_ N_waves) (at_ cot_alpha) (at_ rho_armour) (at_ S) (at_ c_pl))).
Proof. intros. array_tac. Qed.

Lemma depth_given m : filled m -> ArrEtemadShahidi2020.influence_depth true m = (lit 1 - lit 3 * m)%arr.
Proof.
  intros F. apply filled_given in F. unfold ArrCore.given in F. unfold ArrEtemadShahidi2020.influence_depth.
  destruct (any_nan m); [discriminate|reflexivity].
Qed.
Lemma depth_given_at m sh i : filled m -> stretches (shape m) sh -> inside sh i ->
  EtemadShahidi2020.influence_depth true (place i m) = ret (#1 - #3 * place i m)%num.
Proof. intros F S I. unfold EtemadShahidi2020.influence_depth. rewrite (filled_place _ _ _ F S I). reflexivity. Qed.
Ltac plain_tac := autounfold with arrays; unfold ArrEtemadShahidi2020.influence_depth; elementwise_tac; autounfold with scalars; unfold EtemadShahidi2020.influence_depth; at_place.
Ltac depth_tac :=
  autounfold with arrays; 
  match goal with F : filled ?m |- context [ArrEtemadShahidi2020.influence_depth true ?m] => rewrite (depth_given m F) end;
  elementwise_tac; autounfold with scalars;
  match goal with F : filled ?m, S : stretches (shape ?m) ?sh, I : inside ?sh ?i |- context [EtemadShahidi2020.influence_depth true (place ?i ?m)] =>
    rewrite (depth_given_at m sh i F S I) end; at_place.

Theorem C61_etemad_S : forall Hs Tmm10 N_waves cot_alpha rho_armour Dn50 M50 Dn50_core M50_core rho_core rho_water m, filled Dn50 -> filled Dn50_core -> 
  elementwise [Hs; Tmm10; N_waves; cot_alpha; rho_armour; Dn50; Dn50_core; rho_water]
    (ArrEtemadShahidi2020.calculate_damage_number_S Hs Tmm10 N_waves cot_alpha rho_armour Dn50 M50 Dn50_core M50_core rho_core rho_water m false)
    (fun at_ => value (EtemadShahidi2020.calculate_damage_number_S (at_ Hs) (at_ Tmm10) (at_ N_waves) (at_ cot_alpha) (at_ rho_armour) (at_ Dn50) (at_ M50) (at_ Dn50_core) (at_ M50_core) (at_ rho_core) (at_ rho_water) (at_ m) false)).
Proof. intros. plain_tac. Qed.
Theorem C61_etemad_Hs : forall Tmm10 N_waves cot_alpha rho_armour S Dn50 M50 Dn50_core M50_core rho_core m g, filled Dn50 -> filled Dn50_core -> 
  elementwise [Tmm10; N_waves; cot_alpha; rho_armour; S; Dn50; Dn50_core; g]
    (ArrEtemadShahidi2020.calculate_significant_wave_height_Hs Tmm10 N_waves cot_alpha rho_armour S Dn50 M50 Dn50_core M50_core rho_core m false g)
    (fun at_ => value (EtemadShahidi2020.calculate_significant_wave_height_Hs (at_ Tmm10) (at_ N_waves) (at_ cot_alpha) (at_ rho_armour) (at_ S) (at_ Dn50) (at_ M50) (at_ Dn50_core) (at_ M50_core) (at_ rho_core) (at_ m) false (at_ g))).
Proof. intros. plain_tac. Qed.
Theorem C61_etemad_S_from_M50 : forall Hs Tmm10 N_waves cot_alpha rho_armour Dn50 M50 Dn50_core M50_core rho_core rho_water m, missing Dn50 -> filled M50 -> filled rho_armour -> filled Dn50_core -> 
  elementwise [Hs; Tmm10; N_waves; cot_alpha; rho_armour; M50; Dn50_core; rho_water]
    (ArrEtemadShahidi2020.calculate_damage_number_S Hs Tmm10 N_waves cot_alpha rho_armour Dn50 M50 Dn50_core M50_core rho_core rho_water m false)
    (fun at_ => value (EtemadShahidi2020.calculate_damage_number_S (at_ Hs) (at_ Tmm10) (at_ N_waves) (at_ cot_alpha) (at_ rho_armour) (at_ Dn50) (at_ M50) (at_ Dn50_core) (at_ M50_core) (at_ rho_core) (at_ rho_water) (at_ m) false)).
Proof. intros. plain_tac. Qed.
Theorem C61_etemad_Hs_from_M50 : forall Tmm10 N_waves cot_alpha rho_armour S Dn50 M50 Dn50_core M50_core rho_core m g, missing Dn50 -> filled M50 -> filled rho_armour -> filled Dn50_core -> 
  elementwise [Tmm10; N_waves; cot_alpha; rho_armour; S; M50; Dn50_core; g]
    (ArrEtemadShahidi2020.calculate_significant_wave_height_Hs Tmm10 N_waves cot_alpha rho_armour S Dn50 M50 Dn50_core M50_core rho_core m false g)
    (fun at_ => value (EtemadShahidi2020.calculate_significant_wave_height_Hs (at_ Tmm10) (at_ N_waves) (at_ cot_alpha) (at_ rho_armour) (at_ S) (at_ Dn50) (at_ M50) (at_ Dn50_core) (at_ M50_core) (at_ rho_core) (at_ m) false (at_ g))).
Proof. intros. plain_tac. Qed.
Theorem C61_etemad_S_from_M50_core : forall Hs Tmm10 N_waves cot_alpha rho_armour Dn50 M50 Dn50_core M50_core rho_core rho_water m, filled Dn50 -> missing Dn50_core -> filled M50_core -> filled rho_core -> 
  elementwise [Hs; Tmm10; N_waves; cot_alpha; rho_armour; Dn50; M50_core; rho_core; rho_water]
    (ArrEtemadShahidi2020.calculate_damage_number_S Hs Tmm10 N_waves cot_alpha rho_armour Dn50 M50 Dn50_core M50_core rho_core rho_water m false)
    (fun at_ => value (EtemadShahidi2020.calculate_damage_number_S (at_ Hs) (at_ Tmm10) (at_ N_waves) (at_ cot_alpha) (at_ rho_armour) (at_ Dn50) (at_ M50) (at_ Dn50_core) (at_ M50_core) (at_ rho_core) (at_ rho_water) (at_ m) false)).
Proof. intros. plain_tac. Qed.
Theorem C61_etemad_Hs_from_M50_core : forall Tmm10 N_waves cot_alpha rho_armour S Dn50 M50 Dn50_core M50_core rho_core m g, filled Dn50 -> missing Dn50_core -> filled M50_core -> filled rho_core -> 
  elementwise [Tmm10; N_waves; cot_alpha; rho_armour; S; Dn50; M50_core; rho_core; g]
    (ArrEtemadShahidi2020.calculate_significant_wave_height_Hs Tmm10 N_waves cot_alpha rho_armour S Dn50 M50 Dn50_core M50_core rho_core m false g)
    (fun at_ => value (EtemadShahidi2020.calculate_significant_wave_height_Hs (at_ Tmm10) (at_ N_waves) (at_ cot_alpha) (at_ rho_armour) (at_ S) (at_ Dn50) (at_ M50) (at_ Dn50_core) (at_ M50_core) (at_ rho_core) (at_ m) false (at_ g))).
Proof. intros. plain_tac. Qed.
Theorem C61_etemad_S_from_masses : forall Hs Tmm10 N_waves cot_alpha rho_armour Dn50 M50 Dn50_core M50_core rho_core rho_water m, missing Dn50 -> filled M50 -> filled rho_armour -> missing Dn50_core -> filled M50_core -> filled rho_core -> 
  elementwise [Hs; Tmm10; N_waves; cot_alpha; rho_armour; M50; M50_core; rho_core; rho_water]
    (ArrEtemadShahidi2020.calculate_damage_number_S Hs Tmm10 N_waves cot_alpha rho_armour Dn50 M50 Dn50_core M50_core rho_core rho_water m false)
    (fun at_ => value (EtemadShahidi2020.calculate_damage_number_S (at_ Hs) (at_ Tmm10) (at_ N_waves) (at_ cot_alpha) (at_ rho_armour) (at_ Dn50) (at_ M50) (at_ Dn50_core) (at_ M50_core) (at_ rho_core) (at_ rho_water) (at_ m) false)).
Proof. intros. plain_tac. Qed.
Theorem C61_etemad_Hs_from_masses : forall Tmm10 N_waves cot_alpha rho_armour S Dn50 M50 Dn50_core M50_core rho_core m g, missing Dn50 -> filled M50 -> filled rho_armour -> missing Dn50_core -> filled M50_core -> filled rho_core -> 
  elementwise [Tmm10; N_waves; cot_alpha; rho_armour; S; M50; M50_core; rho_core; g]
    (ArrEtemadShahidi2020.calculate_significant_wave_height_Hs Tmm10 N_waves cot_alpha rho_armour S Dn50 M50 Dn50_core M50_core rho_core m false g)
    (fun at_ => value (EtemadShahidi2020.calculate_significant_wave_height_Hs (at_ Tmm10) (at_ N_waves) (at_ cot_alpha) (at_ rho_armour) (at_ S) (at_ Dn50) (at_ M50) (at_ Dn50_core) (at_ M50_core) (at_ rho_core) (at_ m) false (at_ g))).
Proof. intros. plain_tac. Qed.
Theorem C61_etemad_S_depth_limited : forall Hs Tmm10 N_waves cot_alpha rho_armour Dn50 M50 Dn50_core M50_core rho_core rho_water m, filled Dn50 -> filled Dn50_core -> filled m -> 
  elementwise [Hs; Tmm10; N_waves; cot_alpha; rho_armour; Dn50; Dn50_core; rho_water; m]
    (ArrEtemadShahidi2020.calculate_damage_number_S Hs Tmm10 N_waves cot_alpha rho_armour Dn50 M50 Dn50_core M50_core rho_core rho_water m true)
    (fun at_ => value (EtemadShahidi2020.calculate_damage_number_S (at_ Hs) (at_ Tmm10) (at_ N_waves) (at_ cot_alpha) (at_ rho_armour) (at_ Dn50) (at_ M50) (at_ Dn50_core) (at_ M50_core) (at_ rho_core) (at_ rho_water) (at_ m) true)).
Proof. intros. depth_tac. Qed.
Theorem C61_etemad_Hs_depth_limited : forall Tmm10 N_waves cot_alpha rho_armour S Dn50 M50 Dn50_core M50_core rho_core m g, filled Dn50 -> filled Dn50_core -> filled m -> 
  elementwise [Tmm10; N_waves; cot_alpha; rho_armour; S; Dn50; Dn50_core; m; g]
    (ArrEtemadShahidi2020.calculate_significant_wave_height_Hs Tmm10 N_waves cot_alpha rho_armour S Dn50 M50 Dn50_core M50_core rho_core m true g)
    (fun at_ => value (EtemadShahidi2020.calculate_significant_wave_height_Hs (at_ Tmm10) (at_ N_waves) (at_ cot_alpha) (at_ rho_armour) (at_ S) (at_ Dn50) (at_ M50) (at_ Dn50_core) (at_ M50_core) (at_ rho_core) (at_ m) true (at_ g))).
Proof. intros. depth_tac. Qed.
Theorem C61_etemad_S_depth_limited_from_M50 : forall Hs Tmm10 N_waves cot_alpha rho_armour Dn50 M50 Dn50_core M50_core rho_core rho_water m, missing Dn50 -> filled M50 -> filled rho_armour -> filled Dn50_core -> filled m -> 
  elementwise [Hs; Tmm10; N_waves; cot_alpha; rho_armour; M50; Dn50_core; rho_water; m]
    (ArrEtemadShahidi2020.calculate_damage_number_S Hs Tmm10 N_waves cot_alpha rho_armour Dn50 M50 Dn50_core M50_core rho_core rho_water m true)
    (fun at_ => value (EtemadShahidi2020.calculate_damage_number_S (at_ Hs) (at_ Tmm10) (at_ N_waves) (at_ cot_alpha) (at_ rho_armour) (at_ Dn50) (at_ M50) (at_ Dn50_core) (at_ M50_core) (at_ rho_core) (at_ rho_water) (at_ m) true)).
Proof. intros. depth_tac. Qed.
Theorem C61_etemad_Hs_depth_limited_from_M50 : forall Tmm10 N_waves cot_alpha rho_armour S Dn50 M50 Dn50_core M50_core rho_core m g, missing Dn50 -> filled M50 -> filled rho_armour -> filled Dn50_core -> filled m -> 
  elementwise [Tmm10; N_waves; cot_alpha; rho_armour; S; M50; Dn50_core; m; g]
    (ArrEtemadShahidi2020.calculate_significant_wave_height_Hs Tmm10 N_waves cot_alpha rho_armour S Dn50 M50 Dn50_core M50_core rho_core m true g)
    (fun at_ => value (EtemadShahidi2020.calculate_significant_wave_height_Hs (at_ Tmm10) (at_ N_waves) (at_ cot_alpha) (at_ rho_armour) (at_ S) (at_ Dn50) (at_ M50) (at_ Dn50_core) (at_ M50_core) (at_ rho_core) (at_ m) true (at_ g))).
Proof. intros. depth_tac. Qed.
Theorem C61_etemad_S_depth_limited_from_M50_core : forall Hs Tmm10 N_waves cot_alpha rho_armour Dn50 M50 Dn50_core M50_core rho_core rho_water m, filled Dn50 -> missing Dn50_core -> filled M50_core -> filled rho_core -> filled m -> 
  elementwise [Hs; Tmm10; N_waves; cot_alpha; rho_armour; Dn50; M50_core; rho_core; rho_water; m]
    (ArrEtemadShahidi2020.calculate_damage_number_S Hs Tmm10 N_waves cot_alpha rho_armour Dn50 M50 Dn50_core M50_core rho_core rho_water m true)
    (fun at_ => value (EtemadShahidi2020.calculate_damage_number_S (at_ Hs) (at_ Tmm10) (at_ N_waves) (at_ cot_alpha) (at_ rho_armour) (at_ Dn50) (at_ M50) (at_ Dn50_core) (at_ M50_core) (at_ rho_core) (at_ rho_water) (at_ m) true)).
Proof. intros. depth_tac. Qed.
Theorem C61_etemad_Hs_depth_limited_from_M50_core : forall Tmm10 N_waves cot_alpha rho_armour S Dn50 M50 Dn50_core M50_core rho_core m g, filled Dn50 -> missing Dn50_core -> filled M50_core -> filled rho_core -> filled m -> 
  elementwise [Tmm10; N_waves; cot_alpha; rho_armour; S; Dn50; M50_core; rho_core; m; g]
    (ArrEtemadShahidi2020.calculate_significant_wave_height_Hs Tmm10 N_waves cot_alpha rho_armour S Dn50 M50 Dn50_core M50_core rho_core m true g)
    (fun at_ => value (EtemadShahidi2020.calculate_significant_wave_height_Hs (at_ Tmm10) (at_ N_waves) (at_ cot_alpha) (at_ rho_armour) (at_ S) (at_ Dn50) (at_ M50) (at_ Dn50_core) (at_ M50_core) (at_ rho_core) (at_ m) true (at_ g))).
Proof. intros. depth_tac. Qed.
Theorem C61_etemad_S_depth_limited_from_masses : forall Hs Tmm10 N_waves cot_alpha rho_armour Dn50 M50 Dn50_core M50_core rho_core rho_water m, missing Dn50 -> filled M50 -> filled rho_armour -> missing Dn50_core -> filled M50_core -> filled rho_core -> filled m -> 
  elementwise [Hs; Tmm10; N_waves; cot_alpha; rho_armour; M50; M50_core; rho_core; rho_water; m]
    (ArrEtemadShahidi2020.calculate_damage_number_S Hs Tmm10 N_waves cot_alpha rho_armour Dn50 M50 Dn50_core M50_core rho_core rho_water m true)
    (fun at_ => value (EtemadShahidi2020.calculate_damage_number_S (at_ Hs) (at_ Tmm10) (at_ N_waves) (at_ cot_alpha) (at_ rho_armour) (at_ Dn50) (at_ M50) (at_ Dn50_core) (at_ M50_core) (at_ rho_core) (at_ rho_water) (at_ m) true)).
Proof. intros. depth_tac. Qed.
Theorem C61_etemad_Hs_depth_limited_from_masses : forall Tmm10 N_waves cot_alpha rho_armour S Dn50 M50 Dn50_core M50_core rho_core m g, missing Dn50 -> filled M50 -> filled rho_armour -> missing Dn50_core -> filled M50_core -> filled rho_core -> filled m -> 
  elementwise [Tmm10; N_waves; cot_alpha; rho_armour; S; M50; M50_core; rho_core; m; g]
    (ArrEtemadShahidi2020.calculate_significant_wave_height_Hs Tmm10 N_waves cot_alpha rho_armour S Dn50 M50 Dn50_core M50_core rho_core m true g)
    (fun at_ => value (EtemadShahidi2020.calculate_significant_wave_height_Hs (at_ Tmm10) (at_ N_waves) (at_ cot_alpha) (at_ rho_armour) (at_ S) (at_ Dn50) (at_ M50) (at_ Dn50_core) (at_ M50_core) (at_ rho_core) (at_ m) true (at_ g))).
Proof. intros. depth_tac. Qed.
