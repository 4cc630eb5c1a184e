(** Property C67: how calls with arrays end and what they report. *)
From Coq Require Import Reals Lra Lia List Bool Arith String.
From Verif.Lib Require Import Num Monad Arr ArrFlags ArrLoop RTac NTac.
From Verif.Spec Require Import Arrays ArrayWarnings ArrayCalls.
From Verif.Model Require Import CoreUtility ArrCore.
From Verif.Proofs Require Import Core CheckTac Arrays ArrayWarnings ArrayCalls.
From Verif.Model Require ArrVanderMeer1988 ArrVanderMeer1988Modified CorePhysics VanderMeer1988 VanderMeer1988Modified.
Import ListNotations.
Open Scope nat_scope.

#[local] Hint Unfold
  ArrVanderMeer1988.check_validity_range ArrVanderMeer1988.calculate_correction_term_gamma_N
  ArrVanderMeer1988.calculate_damage_number_S ArrVanderMeer1988.calculate_nominal_rock_diameter_Dn50
  ArrVanderMeer1988.calculate_significant_wave_height_Hs
  ArrVanderMeer1988Modified.check_validity_range ArrVanderMeer1988Modified.calculate_damage_number_S
  ArrVanderMeer1988Modified.calculate_nominal_rock_diameter_Dn50
  ArrVanderMeer1988Modified.calculate_significant_wave_height_Hs
  ArrVanderMeer1988Modified.check_2021 ArrVanderMeer1988Modified.damage_number_S_2021
  ArrVanderMeer1988Modified.nominal_rock_diameter_Dn50_2021
  ArrVanderMeer1988Modified.significant_wave_height_Hs_2021 : arrays.
#[local] Hint Unfold
  VanderMeer1988.check_validity_range VanderMeer1988.calculate_correction_term_gamma_N
  VanderMeer1988.calculate_damage_number_S VanderMeer1988.calculate_nominal_rock_diameter_Dn50
  VanderMeer1988.calculate_significant_wave_height_Hs VanderMeer1988.c_pl_default
  VanderMeer1988.c_s_default VanderMeer1988Modified.check_validity_range
  VanderMeer1988Modified.calculate_damage_number_S
  VanderMeer1988Modified.calculate_nominal_rock_diameter_Dn50
  VanderMeer1988Modified.calculate_significant_wave_height_Hs VanderMeer1988Modified.c_pl_default
  VanderMeer1988Modified.c_s_default VanderMeer1988Modified.check_2021
  VanderMeer1988Modified.damage_number_S_2021 VanderMeer1988Modified.nominal_rock_diameter_Dn50_2021
  VanderMeer1988Modified.significant_wave_height_Hs_2021 VanderMeer1988Modified.c_pl_default_2021
  VanderMeer1988Modified.c_s_default_2021 : scalars.

Theorem C67_vdm88_S : forall Hs H2p Tm N_waves cot_alpha P rho_armour Dn50 M50 c_pl c_s rho_water,
  reports_call [Hs; H2p; Tm; N_waves; cot_alpha; P; rho_armour; Dn50; M50; c_pl; c_s; rho_water] [Hs; H2p; N_waves; cot_alpha; P; rho_armour; Dn50; M50] []
    (ArrVanderMeer1988.calculate_damage_number_S Hs H2p Tm N_waves cot_alpha P rho_armour Dn50 M50 c_pl c_s rho_water)
    (fun at_ => VanderMeer1988.calculate_damage_number_S (at_ Hs) (at_ H2p) (at_ Tm) (at_ N_waves) (at_ cot_alpha) (at_ P) (at_ rho_armour) (at_ Dn50) (at_ M50) (at_ c_pl) (at_ c_s) (at_ rho_water)).
Proof. intros. call_tac. Qed.

Theorem C67_vdm88_Dn50 : forall Hs H2p Tm N_waves cot_alpha P rho_armour S c_pl c_s rho_water,
  reports_call [Hs; H2p; Tm; N_waves; cot_alpha; P; rho_armour; S; c_pl; c_s; rho_water] [Hs; H2p; N_waves; cot_alpha; P; rho_armour] []
    (ArrVanderMeer1988.calculate_nominal_rock_diameter_Dn50 Hs H2p Tm N_waves cot_alpha P rho_armour S c_pl c_s rho_water)
    (fun at_ => VanderMeer1988.calculate_nominal_rock_diameter_Dn50 (at_ Hs) (at_ H2p) (at_ Tm) (at_ N_waves) (at_ cot_alpha) (at_ P) (at_ rho_armour) (at_ S) (at_ c_pl) (at_ c_s) (at_ rho_water)).
Proof. intros. call_tac. Qed.

Theorem C67_vdm88_Hs : forall ratio_H2p_Hs Tm N_waves cot_alpha P rho_armour S Dn50 M50 c_pl c_s g rho_water,
  reports_call [ratio_H2p_Hs; Tm; N_waves; cot_alpha; P; rho_armour; S; Dn50; M50; c_pl; c_s; g; rho_water] [N_waves; cot_alpha; P; rho_armour; Dn50; M50]
    [fun at_ => outcome (VanderMeer1988.calculate_significant_wave_height_Hs (at_ ratio_H2p_Hs) (at_ Tm) (at_ N_waves) (at_ cot_alpha) (at_ P) (at_ rho_armour) (at_ S) (at_ Dn50) (at_ M50) (at_ c_pl) (at_ c_s) (at_ g) (at_ rho_water))]
    (ArrVanderMeer1988.calculate_significant_wave_height_Hs ratio_H2p_Hs Tm N_waves cot_alpha P rho_armour S Dn50 M50 c_pl c_s g rho_water)
    (fun at_ => VanderMeer1988.calculate_significant_wave_height_Hs (at_ ratio_H2p_Hs) (at_ Tm) (at_ N_waves) (at_ cot_alpha) (at_ P) (at_ rho_armour) (at_ S) (at_ Dn50) (at_ M50) (at_ c_pl) (at_ c_s) (at_ g) (at_ rho_water)).
Proof. intros. call_tac. Qed.

Theorem C67_modified_S : forall Hs H2p Tmm10 N_waves cot_alpha P rho_armour Dn50 M50 c_pl c_s rho_water,
  reports_call [Hs; H2p; Tmm10; N_waves; cot_alpha; P; rho_armour; Dn50; M50; c_pl; c_s; rho_water] [Hs; H2p; Tmm10; N_waves; cot_alpha; P; rho_armour; Dn50; M50]
    [fun at_ => outcome (CorePhysics.check_usage_Dn50_or_M50 (at_ Dn50) (at_ M50) (at_ rho_armour))]
    (ArrVanderMeer1988Modified.calculate_damage_number_S Hs H2p Tmm10 N_waves cot_alpha P rho_armour Dn50 M50 c_pl c_s rho_water)
    (fun at_ => VanderMeer1988Modified.calculate_damage_number_S (at_ Hs) (at_ H2p) (at_ Tmm10) (at_ N_waves) (at_ cot_alpha) (at_ P) (at_ rho_armour) (at_ Dn50) (at_ M50) (at_ c_pl) (at_ c_s) (at_ rho_water)).
Proof. intros. call_tac. Qed.

Theorem C67_modified_Dn50 : forall Hs H2p Tmm10 N_waves cot_alpha P rho_armour S c_pl c_s rho_water,
  reports_call [Hs; H2p; Tmm10; N_waves; cot_alpha; P; rho_armour; S; c_pl; c_s; rho_water] [Hs; H2p; Tmm10; N_waves; cot_alpha; P; rho_armour]
    [fun at_ => outcome (VanderMeer1988Modified.calculate_nominal_rock_diameter_Dn50 (at_ Hs) (at_ H2p) (at_ Tmm10) (at_ N_waves) (at_ cot_alpha) (at_ P) (at_ rho_armour) (at_ S) (at_ c_pl) (at_ c_s) (at_ rho_water))]
    (ArrVanderMeer1988Modified.calculate_nominal_rock_diameter_Dn50 Hs H2p Tmm10 N_waves cot_alpha P rho_armour S c_pl c_s rho_water)
    (fun at_ => VanderMeer1988Modified.calculate_nominal_rock_diameter_Dn50 (at_ Hs) (at_ H2p) (at_ Tmm10) (at_ N_waves) (at_ cot_alpha) (at_ P) (at_ rho_armour) (at_ S) (at_ c_pl) (at_ c_s) (at_ rho_water)).
Proof. intros. call_tac. Qed.

Theorem C67_modified_Hs : forall ratio_H2p_Hs Tmm10 N_waves cot_alpha P rho_armour S Dn50 M50 c_pl c_s g rho_water,
  reports_call [ratio_H2p_Hs; Tmm10; N_waves; cot_alpha; P; rho_armour; S; Dn50; M50; c_pl; c_s; g; rho_water] [Tmm10; N_waves; cot_alpha; P; rho_armour; Dn50; M50]
    [fun at_ => outcome (VanderMeer1988Modified.calculate_significant_wave_height_Hs (at_ ratio_H2p_Hs) (at_ Tmm10) (at_ N_waves) (at_ cot_alpha) (at_ P) (at_ rho_armour) (at_ S) (at_ Dn50) (at_ M50) (at_ c_pl) (at_ c_s) (at_ g) (at_ rho_water));
     fun at_ => outcome (CorePhysics.check_usage_Dn50_or_M50 (at_ Dn50) (at_ M50) (at_ rho_armour))]
    (ArrVanderMeer1988Modified.calculate_significant_wave_height_Hs ratio_H2p_Hs Tmm10 N_waves cot_alpha P rho_armour S Dn50 M50 c_pl c_s g rho_water)
    (fun at_ => VanderMeer1988Modified.calculate_significant_wave_height_Hs (at_ ratio_H2p_Hs) (at_ Tmm10) (at_ N_waves) (at_ cot_alpha) (at_ P) (at_ rho_armour) (at_ S) (at_ Dn50) (at_ M50) (at_ c_pl) (at_ c_s) (at_ g) (at_ rho_water)).
Proof. intros. call_tac. Qed.

Theorem C67_vdm2021_S : forall Hs Tmm10 N_waves cot_alpha P rho_armour Dn50 M50 c_pl c_s c_pl_mult c_s_mult,
  reports_call [Hs; Tmm10; N_waves; cot_alpha; P; rho_armour; Dn50; M50; c_pl; c_s; c_pl_mult; c_s_mult] [Hs; Tmm10; N_waves; cot_alpha; P; rho_armour; Dn50; M50]
    [fun at_ => outcome (CorePhysics.check_usage_Dn50_or_M50 (at_ Dn50) (at_ M50) (at_ rho_armour))]
    (ArrVanderMeer1988Modified.damage_number_S_2021 Hs Tmm10 N_waves cot_alpha P rho_armour Dn50 M50 c_pl c_s c_pl_mult c_s_mult)
    (fun at_ => VanderMeer1988Modified.damage_number_S_2021 (at_ Hs) (at_ Tmm10) (at_ N_waves) (at_ cot_alpha) (at_ P) (at_ rho_armour) (at_ Dn50) (at_ M50) (at_ c_pl) (at_ c_s) (at_ c_pl_mult) (at_ c_s_mult)).
Proof. intros. call_tac. Qed.

Theorem C67_vdm2021_Dn50 : forall Hs Tmm10 N_waves cot_alpha P rho_armour S c_pl c_s c_pl_mult c_s_mult,
  reports_call [Hs; Tmm10; N_waves; cot_alpha; P; rho_armour; S; c_pl; c_s; c_pl_mult; c_s_mult] [Hs; Tmm10; N_waves; cot_alpha; P; rho_armour]
    [fun at_ => outcome (VanderMeer1988Modified.nominal_rock_diameter_Dn50_2021 (at_ Hs) (at_ Tmm10) (at_ N_waves) (at_ cot_alpha) (at_ P) (at_ rho_armour) (at_ S) (at_ c_pl) (at_ c_s) (at_ c_pl_mult) (at_ c_s_mult))]
    (ArrVanderMeer1988Modified.nominal_rock_diameter_Dn50_2021 Hs Tmm10 N_waves cot_alpha P rho_armour S c_pl c_s c_pl_mult c_s_mult)
    (fun at_ => VanderMeer1988Modified.nominal_rock_diameter_Dn50_2021 (at_ Hs) (at_ Tmm10) (at_ N_waves) (at_ cot_alpha) (at_ P) (at_ rho_armour) (at_ S) (at_ c_pl) (at_ c_s) (at_ c_pl_mult) (at_ c_s_mult)).
Proof. intros. call_tac. Qed.

Theorem C67_vdm2021_Hs : forall Tmm10 N_waves cot_alpha P rho_armour S Dn50 M50 c_pl c_s c_pl_mult c_s_mult g,
  reports_call [Tmm10; N_waves; cot_alpha; P; rho_armour; S; Dn50; M50; c_pl; c_s; c_pl_mult; c_s_mult; g] [Tmm10; N_waves; cot_alpha; P; rho_armour; Dn50; M50]
    [fun at_ => outcome (VanderMeer1988Modified.significant_wave_height_Hs_2021 (at_ Tmm10) (at_ N_waves) (at_ cot_alpha) (at_ P) (at_ rho_armour) (at_ S) (at_ Dn50) (at_ M50) (at_ c_pl) (at_ c_s) (at_ c_pl_mult) (at_ c_s_mult) (at_ g));
     fun at_ => outcome (CorePhysics.check_usage_Dn50_or_M50 (at_ Dn50) (at_ M50) (at_ rho_armour))]
    (ArrVanderMeer1988Modified.significant_wave_height_Hs_2021 Tmm10 N_waves cot_alpha P rho_armour S Dn50 M50 c_pl c_s c_pl_mult c_s_mult g)
    (fun at_ => VanderMeer1988Modified.significant_wave_height_Hs_2021 (at_ Tmm10) (at_ N_waves) (at_ cot_alpha) (at_ P) (at_ rho_armour) (at_ S) (at_ Dn50) (at_ M50) (at_ c_pl) (at_ c_s) (at_ c_pl_mult) (at_ c_s_mult) (at_ g)).
Proof. intros. call_tac. Qed.
