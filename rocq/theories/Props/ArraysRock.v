(** Property C61, rock armour: Van der Meer. *)
From Coq Require Import Reals Lra List Bool Arith String.
From Verif.Lib Require Import Num Monad Arr RTac NTac Table Str.
From Verif.Spec Require Import Arrays.
From Verif.Model Require Import CoreUtility.
From Verif.Model Require CorePhysics ArrCore VanderMeer1988 VanderMeer1988Modified ArrVanderMeer1988 ArrVanderMeer1988Modified.
From Verif.Proofs Require Import Core CheckTac Arrays.
Import ListNotations.
Open Scope nat_scope.

#[local] Hint Unfold
  ArrVanderMeer1988.check_validity_range ArrVanderMeer1988.calculate_correction_term_gamma_N
  ArrVanderMeer1988.calculate_damage_number_S ArrVanderMeer1988.calculate_nominal_rock_diameter_Dn50
  ArrVanderMeer1988.calculate_significant_wave_height_Hs
  ArrVanderMeer1988Modified.check_validity_range ArrVanderMeer1988Modified.calculate_damage_number_S
  ArrVanderMeer1988Modified.calculate_nominal_rock_diameter_Dn50
  ArrVanderMeer1988Modified.calculate_significant_wave_height_Hs
  ArrVanderMeer1988Modified.check_2021 ArrVanderMeer1988Modified.damage_number_S_2021
  ArrVanderMeer1988Modified.nominal_rock_diameter_Dn50_2021
  ArrVanderMeer1988Modified.significant_wave_height_Hs_2021 : arrays.
#[local] Hint Unfold
  VanderMeer1988.check_validity_range VanderMeer1988.calculate_correction_term_gamma_N
  VanderMeer1988.calculate_damage_number_S VanderMeer1988.calculate_nominal_rock_diameter_Dn50
  VanderMeer1988.calculate_significant_wave_height_Hs VanderMeer1988.c_pl_default
  VanderMeer1988.c_s_default VanderMeer1988Modified.check_validity_range
  VanderMeer1988Modified.calculate_damage_number_S
  VanderMeer1988Modified.calculate_nominal_rock_diameter_Dn50
  VanderMeer1988Modified.calculate_significant_wave_height_Hs VanderMeer1988Modified.c_pl_default
  VanderMeer1988Modified.c_s_default VanderMeer1988Modified.check_2021
  VanderMeer1988Modified.damage_number_S_2021 VanderMeer1988Modified.nominal_rock_diameter_Dn50_2021
  VanderMeer1988Modified.significant_wave_height_Hs_2021 VanderMeer1988Modified.c_pl_default_2021
  VanderMeer1988Modified.c_s_default_2021 : scalars.

Theorem C61_vdm88_gamma_N : forall N_waves,
  elementwise [N_waves]
    (ArrVanderMeer1988.calculate_correction_term_gamma_N N_waves)
    (fun at_ => Ok (VanderMeer1988.calculate_correction_term_gamma_N (at_ N_waves))).
Proof.
  intros. array_tac.
Qed.

Theorem C61_vdm88_S : forall Hs H2p Tm N_waves cot_alpha P rho_armour Dn50 M50 c_pl c_s rho_water,
  filled Dn50 ->
  elementwise [Hs; H2p; Tm; N_waves; cot_alpha; P; rho_armour; Dn50; c_pl; c_s; rho_water]
    (ArrVanderMeer1988.calculate_damage_number_S Hs H2p Tm N_waves cot_alpha P rho_armour Dn50 M50 c_pl c_s rho_water)
    (fun at_ => value (VanderMeer1988.calculate_damage_number_S (at_ Hs) (at_ H2p) (at_ Tm) (at_ N_waves) (at_ cot_alpha) (at_ P) (at_ rho_armour) (at_ Dn50) (at_ M50) (at_ c_pl) (at_ c_s) (at_ rho_water))).
Proof.
  intros. array_tac.
Qed.

Theorem C61_vdm88_S_from_M50 : forall Hs H2p Tm N_waves cot_alpha P rho_armour Dn50 M50 c_pl c_s rho_water,
  missing Dn50 ->
  filled M50 ->
  filled rho_armour ->
  elementwise [Hs; H2p; Tm; N_waves; cot_alpha; P; rho_armour; M50; c_pl; c_s; rho_water]
    (ArrVanderMeer1988.calculate_damage_number_S Hs H2p Tm N_waves cot_alpha P rho_armour Dn50 M50 c_pl c_s rho_water)
    (fun at_ => value (VanderMeer1988.calculate_damage_number_S (at_ Hs) (at_ H2p) (at_ Tm) (at_ N_waves) (at_ cot_alpha) (at_ P) (at_ rho_armour) (at_ Dn50) (at_ M50) (at_ c_pl) (at_ c_s) (at_ rho_water))).
Proof.
  intros. array_tac.
Qed.

Theorem C61_vdm88_Dn50 : forall Hs H2p Tm N_waves cot_alpha P rho_armour S c_pl c_s rho_water,
  elementwise [Hs; H2p; Tm; N_waves; cot_alpha; P; rho_armour; S; c_pl; c_s; rho_water]
    (ArrVanderMeer1988.calculate_nominal_rock_diameter_Dn50 Hs H2p Tm N_waves cot_alpha P rho_armour S c_pl c_s rho_water)
    (fun at_ => value (VanderMeer1988.calculate_nominal_rock_diameter_Dn50 (at_ Hs) (at_ H2p) (at_ Tm) (at_ N_waves) (at_ cot_alpha) (at_ P) (at_ rho_armour) (at_ S) (at_ c_pl) (at_ c_s) (at_ rho_water))).
Proof.
  intros. array_tac.
Qed.

Theorem C61_vdm88_Hs : forall ratio_H2p_Hs Tm N_waves cot_alpha P rho_armour S Dn50 M50 c_pl c_s g rho_water,
  filled Dn50 ->
  elementwise [ratio_H2p_Hs; Tm; N_waves; cot_alpha; P; rho_armour; S; Dn50; c_pl; c_s; g; rho_water]
    (ArrVanderMeer1988.calculate_significant_wave_height_Hs ratio_H2p_Hs Tm N_waves cot_alpha P rho_armour S Dn50 M50 c_pl c_s g rho_water)
    (fun at_ => value (VanderMeer1988.calculate_significant_wave_height_Hs (at_ ratio_H2p_Hs) (at_ Tm) (at_ N_waves) (at_ cot_alpha) (at_ P) (at_ rho_armour) (at_ S) (at_ Dn50) (at_ M50) (at_ c_pl) (at_ c_s) (at_ g) (at_ rho_water))).
Proof.
  intros. array_tac.
Qed.

Theorem C61_vdm88_Hs_from_M50 : forall ratio_H2p_Hs Tm N_waves cot_alpha P rho_armour S Dn50 M50 c_pl c_s g rho_water,
  missing Dn50 ->
  filled M50 ->
  filled rho_armour ->
  elementwise [ratio_H2p_Hs; Tm; N_waves; cot_alpha; P; rho_armour; S; M50; c_pl; c_s; g; rho_water]
    (ArrVanderMeer1988.calculate_significant_wave_height_Hs ratio_H2p_Hs Tm N_waves cot_alpha P rho_armour S Dn50 M50 c_pl c_s g rho_water)
    (fun at_ => value (VanderMeer1988.calculate_significant_wave_height_Hs (at_ ratio_H2p_Hs) (at_ Tm) (at_ N_waves) (at_ cot_alpha) (at_ P) (at_ rho_armour) (at_ S) (at_ Dn50) (at_ M50) (at_ c_pl) (at_ c_s) (at_ g) (at_ rho_water))).
Proof.
  intros. array_tac.
Qed.

Theorem C61_modified_S : forall Hs H2p Tmm10 N_waves cot_alpha P rho_armour Dn50 M50 c_pl c_s rho_water,
  filled Dn50 ->
  elementwise [Hs; H2p; Tmm10; N_waves; cot_alpha; P; rho_armour; Dn50; c_pl; c_s; rho_water]
    (ArrVanderMeer1988Modified.calculate_damage_number_S Hs H2p Tmm10 N_waves cot_alpha P rho_armour Dn50 M50 c_pl c_s rho_water)
    (fun at_ => value (VanderMeer1988Modified.calculate_damage_number_S (at_ Hs) (at_ H2p) (at_ Tmm10) (at_ N_waves) (at_ cot_alpha) (at_ P) (at_ rho_armour) (at_ Dn50) (at_ M50) (at_ c_pl) (at_ c_s) (at_ rho_water))).
Proof.
  intros. array_tac.
Qed.

Theorem C61_modified_S_from_M50 : forall Hs H2p Tmm10 N_waves cot_alpha P rho_armour Dn50 M50 c_pl c_s rho_water,
  missing Dn50 ->
  filled M50 ->
  filled rho_armour ->
  elementwise [Hs; H2p; Tmm10; N_waves; cot_alpha; P; rho_armour; M50; c_pl; c_s; rho_water]
    (ArrVanderMeer1988Modified.calculate_damage_number_S Hs H2p Tmm10 N_waves cot_alpha P rho_armour Dn50 M50 c_pl c_s rho_water)
    (fun at_ => value (VanderMeer1988Modified.calculate_damage_number_S (at_ Hs) (at_ H2p) (at_ Tmm10) (at_ N_waves) (at_ cot_alpha) (at_ P) (at_ rho_armour) (at_ Dn50) (at_ M50) (at_ c_pl) (at_ c_s) (at_ rho_water))).
Proof.
  intros. array_tac.
Qed.

Theorem C61_modified_Dn50 : forall Hs H2p Tmm10 N_waves cot_alpha P rho_armour S c_pl c_s rho_water,
  elementwise [Hs; H2p; Tmm10; N_waves; cot_alpha; P; rho_armour; S; c_pl; c_s; rho_water]
    (ArrVanderMeer1988Modified.calculate_nominal_rock_diameter_Dn50 Hs H2p Tmm10 N_waves cot_alpha P rho_armour S c_pl c_s rho_water)
    (fun at_ => value (VanderMeer1988Modified.calculate_nominal_rock_diameter_Dn50 (at_ Hs) (at_ H2p) (at_ Tmm10) (at_ N_waves) (at_ cot_alpha) (at_ P) (at_ rho_armour) (at_ S) (at_ c_pl) (at_ c_s) (at_ rho_water))).
Proof.
  intros. array_tac.
Qed.

Theorem C61_modified_Hs : forall ratio_H2p_Hs Tmm10 N_waves cot_alpha P rho_armour S Dn50 M50 c_pl c_s g rho_water,
  filled Dn50 ->
  elementwise [ratio_H2p_Hs; Tmm10; N_waves; cot_alpha; P; rho_armour; S; Dn50; c_pl; c_s; g; rho_water]
    (ArrVanderMeer1988Modified.calculate_significant_wave_height_Hs ratio_H2p_Hs Tmm10 N_waves cot_alpha P rho_armour S Dn50 M50 c_pl c_s g rho_water)
    (fun at_ => value (VanderMeer1988Modified.calculate_significant_wave_height_Hs (at_ ratio_H2p_Hs) (at_ Tmm10) (at_ N_waves) (at_ cot_alpha) (at_ P) (at_ rho_armour) (at_ S) (at_ Dn50) (at_ M50) (at_ c_pl) (at_ c_s) (at_ g) (at_ rho_water))).
Proof.
  intros. array_tac.
Qed.

Theorem C61_modified_Hs_from_M50 : forall ratio_H2p_Hs Tmm10 N_waves cot_alpha P rho_armour S Dn50 M50 c_pl c_s g rho_water,
  missing Dn50 ->
  filled M50 ->
  filled rho_armour ->
  elementwise [ratio_H2p_Hs; Tmm10; N_waves; cot_alpha; P; rho_armour; S; M50; c_pl; c_s; g; rho_water]
    (ArrVanderMeer1988Modified.calculate_significant_wave_height_Hs ratio_H2p_Hs Tmm10 N_waves cot_alpha P rho_armour S Dn50 M50 c_pl c_s g rho_water)
    (fun at_ => value (VanderMeer1988Modified.calculate_significant_wave_height_Hs (at_ ratio_H2p_Hs) (at_ Tmm10) (at_ N_waves) (at_ cot_alpha) (at_ P) (at_ rho_armour) (at_ S) (at_ Dn50) (at_ M50) (at_ c_pl) (at_ c_s) (at_ g) (at_ rho_water))).
Proof.
  intros. array_tac.
Qed.

Theorem C61_vdm2021_S : forall Hs Tmm10 N_waves cot_alpha P rho_armour Dn50 M50 c_pl c_s c_pl_mult c_s_mult,
  filled Dn50 ->
  elementwise [Hs; Tmm10; N_waves; cot_alpha; P; rho_armour; Dn50; c_pl; c_s; c_pl_mult; c_s_mult]
    (ArrVanderMeer1988Modified.damage_number_S_2021 Hs Tmm10 N_waves cot_alpha P rho_armour Dn50 M50 c_pl c_s c_pl_mult c_s_mult)
    (fun at_ => value (VanderMeer1988Modified.damage_number_S_2021 (at_ Hs) (at_ Tmm10) (at_ N_waves) (at_ cot_alpha) (at_ P) (at_ rho_armour) (at_ Dn50) (at_ M50) (at_ c_pl) (at_ c_s) (at_ c_pl_mult) (at_ c_s_mult))).
Proof.
  intros. array_tac.
Qed.

Theorem C61_vdm2021_S_from_M50 : forall Hs Tmm10 N_waves cot_alpha P rho_armour Dn50 M50 c_pl c_s c_pl_mult c_s_mult,
  missing Dn50 ->
  filled M50 ->
  filled rho_armour ->
  elementwise [Hs; Tmm10; N_waves; cot_alpha; P; rho_armour; M50; c_pl; c_s; c_pl_mult; c_s_mult]
    (ArrVanderMeer1988Modified.damage_number_S_2021 Hs Tmm10 N_waves cot_alpha P rho_armour Dn50 M50 c_pl c_s c_pl_mult c_s_mult)
    (fun at_ => value (VanderMeer1988Modified.damage_number_S_2021 (at_ Hs) (at_ Tmm10) (at_ N_waves) (at_ cot_alpha) (at_ P) (at_ rho_armour) (at_ Dn50) (at_ M50) (at_ c_pl) (at_ c_s) (at_ c_pl_mult) (at_ c_s_mult))).
Proof.
  intros. array_tac.
Qed.

Theorem C61_vdm2021_Dn50 : forall Hs Tmm10 N_waves cot_alpha P rho_armour S c_pl c_s c_pl_mult c_s_mult,
  elementwise [Hs; Tmm10; N_waves; cot_alpha; P; rho_armour; S; c_pl; c_s; c_pl_mult; c_s_mult]
    (ArrVanderMeer1988Modified.nominal_rock_diameter_Dn50_2021 Hs Tmm10 N_waves cot_alpha P rho_armour S c_pl c_s c_pl_mult c_s_mult)
    (fun at_ => value (VanderMeer1988Modified.nominal_rock_diameter_Dn50_2021 (at_ Hs) (at_ Tmm10) (at_ N_waves) (at_ cot_alpha) (at_ P) (at_ rho_armour) (at_ S) (at_ c_pl) (at_ c_s) (at_ c_pl_mult) (at_ c_s_mult))).
Proof.
  intros. array_tac.
Qed.

Theorem C61_vdm2021_Hs : forall Tmm10 N_waves cot_alpha P rho_armour S Dn50 M50 c_pl c_s c_pl_mult c_s_mult g,
  filled Dn50 ->
  elementwise [Tmm10; N_waves; cot_alpha; P; rho_armour; S; Dn50; c_pl; c_s; c_pl_mult; c_s_mult; g]
    (ArrVanderMeer1988Modified.significant_wave_height_Hs_2021 Tmm10 N_waves cot_alpha P rho_armour S Dn50 M50 c_pl c_s c_pl_mult c_s_mult g)
    (fun at_ => value (VanderMeer1988Modified.significant_wave_height_Hs_2021 (at_ Tmm10) (at_ N_waves) (at_ cot_alpha) (at_ P) (at_ rho_armour) (at_ S) (at_ Dn50) (at_ M50) (at_ c_pl) (at_ c_s) (at_ c_pl_mult) (at_ c_s_mult) (at_ g))).
Proof.
  intros. array_tac.
Qed.

Theorem C61_vdm2021_Hs_from_M50 : forall Tmm10 N_waves cot_alpha P rho_armour S Dn50 M50 c_pl c_s c_pl_mult c_s_mult g,
  missing Dn50 ->
  filled M50 ->
  filled rho_armour ->
  elementwise [Tmm10; N_waves; cot_alpha; P; rho_armour; S; M50; c_pl; c_s; c_pl_mult; c_s_mult; g]
    (ArrVanderMeer1988Modified.significant_wave_height_Hs_2021 Tmm10 N_waves cot_alpha P rho_armour S Dn50 M50 c_pl c_s c_pl_mult c_s_mult g)
    (fun at_ => value (VanderMeer1988Modified.significant_wave_height_Hs_2021 (at_ Tmm10) (at_ N_waves) (at_ cot_alpha) (at_ P) (at_ rho_armour) (at_ S) (at_ Dn50) (at_ M50) (at_ c_pl) (at_ c_s) (at_ c_pl_mult) (at_ c_s_mult) (at_ g))).
Proof.
  intros. array_tac.
Qed.

(** Two wave heights and a column of two slopes give two damage numbers, those of
    the two scalar calls. *)
Example C61_vdm88_example : let call := ArrVanderMeer1988.calculate_damage_number_S
    (Ar [#2; #3]) (Ar [#2.8; #4.2]) (Sc #7) (Sc #3000) (Ar [#2; #4]) (Sc #0.4) (Sc #2650) (Sc #1.2) (Sc NaN) (Sc #6.2) (Sc #1) (Sc #1025) in
  exists s0 s1, value call = Ok (Ar [s0; s1])
  /\ value (VanderMeer1988.calculate_damage_number_S #2 #2.8 #7 #3000 #2 #0.4 #2650 #1.2 NaN #6.2 #1 #1025) = Ok s0
  /\ value (VanderMeer1988.calculate_damage_number_S #3 #4.2 #7 #3000 #4 #0.4 #2650 #1.2 NaN #6.2 #1 #1025) = Ok s1.
Proof.
  intros call.
  destruct (proj1 (C61_vdm88_S (Ar [#2; #3]) (Ar [#2.8; #4.2]) (Sc #7) (Sc #3000) (Ar [#2; #4]) (Sc #0.4) (Sc #2650) (Sc #1.2) (Sc NaN) (Sc #6.2) (Sc #1) (Sc #1025)
    ltac:(split; [discriminate|repeat constructor])) (Some 2)) as (r & E & S & P).
  - split; [apply shapes_ok; reflexivity|right; left; reflexivity].
  - exists (Some 2). apply shapes_ok. reflexivity.
  - destruct r as [?|[|s0 [|s1 [|? ?]]]]; try discriminate S. exists s0, s1. split; [exact E|].
    split; [exact (P 0 ltac:(cbn; auto))|exact (P 1 ltac:(cbn; auto))].
Qed.
