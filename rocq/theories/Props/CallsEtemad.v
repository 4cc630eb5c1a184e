(** Property C67: how calls with arrays end and what they report. *)
From Coq Require Import Reals Lra Lia List Bool Arith String.
From Verif.Lib Require Import Num Monad Arr ArrFlags ArrLoop RTac NTac.
From Verif.Spec Require Import Arrays ArrayWarnings ArrayCalls.
From Verif.Model Require Import CoreUtility ArrCore.
From Verif.Proofs Require Import Core CheckTac Arrays ArrayWarnings ArrayCalls.
From Verif.Model Require ArrEtemadShahidi2020 ArrJumelet2024 ArrKramerBurcharth2004 CorePhysics EtemadShahidi2020 Jumelet2024 KramerBurcharth2004.
Import ListNotations.
Open Scope nat_scope.

#[local] Hint Unfold
  ArrEtemadShahidi2020.check_validity_range ArrEtemadShahidi2020.calculate_permeability_coefficient_Cp
  ArrEtemadShahidi2020.calculate_damage_number_S
  ArrEtemadShahidi2020.calculate_significant_wave_height_Hs
  ArrJumelet2024.check_validity_range ArrJumelet2024.calculate_fraction_plunging_waves_Fp
  ArrJumelet2024.calculate_damage_number_S ArrJumelet2024.calculate_nominal_rock_diameter_Dn50 ArrKramerBurcharth2004.calculate_significant_wave_height_Hs
  ArrKramerBurcharth2004.check_validity_range : arrays.
#[local] Hint Unfold
  EtemadShahidi2020.check_validity_range EtemadShahidi2020.calculate_permeability_coefficient_Cp
  EtemadShahidi2020.calculate_damage_number_S
  EtemadShahidi2020.calculate_significant_wave_height_Hs
  Jumelet2024.check_validity_range Jumelet2024.calculate_fraction_plunging_waves_Fp
  Jumelet2024.calculate_damage_number_S Jumelet2024.calculate_nominal_rock_diameter_Dn50 KramerBurcharth2004.calculate_significant_wave_height_Hs
  KramerBurcharth2004.check_validity_range : scalars.

Theorem C67_jumelet_Dn50 : forall Hs Tmm10 N_waves cot_alpha rho_armour S c_pl,
  reports_call [Hs; Tmm10; N_waves; cot_alpha; rho_armour; S; c_pl] [Hs; Tmm10; N_waves; cot_alpha] []
    (ArrJumelet2024.calculate_nominal_rock_diameter_Dn50 Hs Tmm10 N_waves cot_alpha rho_armour S c_pl)
    (fun at_ => Jumelet2024.calculate_nominal_rock_diameter_Dn50 (at_ Hs) (at_ Tmm10) (at_ N_waves) (at_ cot_alpha) (at_ rho_armour) (at_ S) (at_ c_pl)).
Proof. intros. call_tac. Qed.

Theorem C67_jumelet_S : forall Hs Tmm10 N_waves cot_alpha rho_armour Dn50 M50 c_pl rho_water,
  reports_call [Hs; Tmm10; N_waves; cot_alpha; rho_armour; Dn50; M50; c_pl; rho_water] [Hs; Tmm10; N_waves; cot_alpha; rho_armour; Dn50; M50] []
    (ArrJumelet2024.calculate_damage_number_S Hs Tmm10 N_waves cot_alpha rho_armour Dn50 M50 c_pl rho_water)
    (fun at_ => Jumelet2024.calculate_damage_number_S (at_ Hs) (at_ Tmm10) (at_ N_waves) (at_ cot_alpha) (at_ rho_armour) (at_ Dn50) (at_ M50) (at_ c_pl) (at_ rho_water)).
Proof. intros. call_tac. Qed.

Theorem C67_kramer_Hs : forall Rc rho Dn50 M50,
  reports_call [Rc; rho; Dn50; M50] [Rc; rho; Dn50; M50]
    [fun at_ => outcome (CorePhysics.check_usage_Dn50_or_M50 (at_ Dn50) (at_ M50) (at_ rho))]
    (ArrKramerBurcharth2004.calculate_significant_wave_height_Hs Rc rho Dn50 M50)
    (fun at_ => KramerBurcharth2004.calculate_significant_wave_height_Hs (at_ Rc) (at_ rho) (at_ Dn50) (at_ M50)).
Proof. intros. call_tac. Qed.

(** Whether the version for shallow water has the foreshore slope it needs *)
Lemma any_nan_places a sh i : all_or_none a -> stretches (shape a) sh -> sh <> Some 0 -> inside sh i -> isnan (place i a) = any_nan a.
Proof. intros H S NE I. pose proof (given_places a sh i H S NE I) as G. unfold provided, given in G. destruct (isnan _), (any_nan a); congruence || discriminate. Qed.
Lemma tells_depth sh limited m : sh <> Some 0 -> (limited = true -> all_or_none m) -> stretches (shape m) sh ->
  tells sh (ArrEtemadShahidi2020.influence_depth limited m) (fun i => EtemadShahidi2020.influence_depth limited (place i m)).
Proof.
  intros NE A S. unfold ArrEtemadShahidi2020.influence_depth, EtemadShahidi2020.influence_depth. destruct limited.
  - specialize (A eq_refl). apply tells_if; [intros i I; apply (any_nan_places m sh i); assumption|intros _; apply tells_raise|intros _].
    eapply tells_expr; [quiet_tac|den_tac|reflexivity].
  - eapply tells_expr; [quiet_tac|den_tac|reflexivity].
Qed.
Ltac depth_tac := call_start; apply tells_call; [apply tells_depth; [assumption|intros; assumption|assumption]|intros ?a ?S ?V; tells_tac].

Theorem C67_etemad_S : forall Hs Tmm10 N_waves cot_alpha rho_armour Dn50 M50 Dn50_core M50_core rho_core rho_water m limited,
  reports_call [Hs; Tmm10; N_waves; cot_alpha; rho_armour; Dn50; M50; Dn50_core; M50_core; rho_core; rho_water; m]
    [Hs; Tmm10; N_waves; cot_alpha; rho_armour; Dn50; M50; Dn50_core; M50_core; rho_core; m]
    [fun at_ => outcome (CorePhysics.check_usage_Dn50_or_M50 (at_ Dn50) (at_ M50) (at_ rho_armour));
     fun at_ => outcome (CorePhysics.check_usage_Dn50_or_M50 (at_ Dn50_core) (at_ M50_core) (at_ rho_core));
     fun at_ => outcome (EtemadShahidi2020.calculate_damage_number_S (at_ Hs) (at_ Tmm10) (at_ N_waves) (at_ cot_alpha) (at_ rho_armour) (at_ Dn50) (at_ M50) (at_ Dn50_core) (at_ M50_core) (at_ rho_core) (at_ rho_water) (at_ m) limited)]
    (ArrEtemadShahidi2020.calculate_damage_number_S Hs Tmm10 N_waves cot_alpha rho_armour Dn50 M50 Dn50_core M50_core rho_core rho_water m limited)
    (fun at_ => EtemadShahidi2020.calculate_damage_number_S (at_ Hs) (at_ Tmm10) (at_ N_waves) (at_ cot_alpha) (at_ rho_armour) (at_ Dn50) (at_ M50) (at_ Dn50_core) (at_ M50_core) (at_ rho_core) (at_ rho_water) (at_ m) limited).
Proof. intros. depth_tac. Qed.

Theorem C67_etemad_Hs : forall Tmm10 N_waves cot_alpha rho_armour S Dn50 M50 Dn50_core M50_core rho_core m limited g,
  reports_call [Tmm10; N_waves; cot_alpha; rho_armour; S; Dn50; M50; Dn50_core; M50_core; rho_core; m; g]
    [Tmm10; N_waves; cot_alpha; rho_armour; S; Dn50; M50; Dn50_core; M50_core; rho_core; m]
    [fun at_ => outcome (CorePhysics.check_usage_Dn50_or_M50 (at_ Dn50) (at_ M50) (at_ rho_armour));
     fun at_ => outcome (CorePhysics.check_usage_Dn50_or_M50 (at_ Dn50_core) (at_ M50_core) (at_ rho_core));
     fun at_ => outcome (EtemadShahidi2020.calculate_significant_wave_height_Hs (at_ Tmm10) (at_ N_waves) (at_ cot_alpha) (at_ rho_armour) (at_ S) (at_ Dn50) (at_ M50) (at_ Dn50_core) (at_ M50_core) (at_ rho_core) (at_ m) limited (at_ g))]
    (ArrEtemadShahidi2020.calculate_significant_wave_height_Hs Tmm10 N_waves cot_alpha rho_armour S Dn50 M50 Dn50_core M50_core rho_core m limited g)
    (fun at_ => EtemadShahidi2020.calculate_significant_wave_height_Hs (at_ Tmm10) (at_ N_waves) (at_ cot_alpha) (at_ rho_armour) (at_ S) (at_ Dn50) (at_ M50) (at_ Dn50_core) (at_ M50_core) (at_ rho_core) (at_ m) limited (at_ g)).
Proof. intros. depth_tac. Qed.
