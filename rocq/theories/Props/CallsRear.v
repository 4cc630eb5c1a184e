(** Property C67: how calls with arrays end and what they report. *)
From Coq Require Import Reals Lra Lia List Bool Arith String.
From Verif.Lib Require Import Num Monad Arr ArrFlags ArrLoop RTac NTac.
From Verif.Spec Require Import Arrays ArrayWarnings ArrayCalls.
From Verif.Model Require Import CoreUtility ArrCore.
From Verif.Proofs Require Import Core CheckTac Arrays ArrayWarnings ArrayCalls.
From Verif.Model Require ArrRearVanGent2007 ArrRearVanGentPozueta2004 ArrVanGent2001 ArrVanGent2002Velocity CorePhysics RearVanGent2007 RearVanGentPozueta2004 VanGent2001 VanGent2002Velocity.
Import ListNotations.
Open Scope nat_scope.

#[local] Hint Unfold
  ArrRearVanGent2007.check_validity_range ArrRearVanGent2007.calculate_damage_number_S
  ArrRearVanGent2007.calculate_nominal_rock_diameter_Dn50 ArrRearVanGent2007.invert_for_z1p
  ArrRearVanGent2007.search ArrRearVanGent2007.calculate_maximum_significant_wave_height_Hs
  ArrRearVanGentPozueta2004.check_validity_range ArrRearVanGentPozueta2004.calculate_damage_number_S
  ArrRearVanGentPozueta2004.calculate_nominal_rock_diameter_Dn50
  ArrRearVanGentPozueta2004.invert_for_u1p
  ArrRearVanGentPozueta2004.calculate_maximum_significant_wave_height_Hs
  ArrVanGent2001.calculate_wave_runup_height_zXp ArrVanGent2001.calculate_wave_runup_height_z1p
  ArrVanGent2001.isnan_truth ArrVanGent2001.calculate_wave_runup_height_z2p
  ArrVanGent2001.calculate_wave_runup_height_z10p ArrVanGent2001.invert_for_Hs
  ArrVanGent2002Velocity.calculate_maximum_wave_overtopping_velocity_uXp
  ArrVanGent2002Velocity.invert_for_zXp : arrays.
#[local] Hint Unfold
  RearVanGent2007.check_validity_range RearVanGent2007.calculate_damage_number_S
  RearVanGent2007.calculate_nominal_rock_diameter_Dn50 RearVanGent2007.invert_for_z1p
  RearVanGent2007.search RearVanGent2007.calculate_maximum_significant_wave_height_Hs
  RearVanGent2007.tolerance_default RearVanGent2007.max_iterations_default
  RearVanGentPozueta2004.check_validity_range RearVanGentPozueta2004.calculate_damage_number_S
  RearVanGentPozueta2004.calculate_nominal_rock_diameter_Dn50 RearVanGentPozueta2004.invert_for_u1p
  RearVanGentPozueta2004.calculate_maximum_significant_wave_height_Hs
  RearVanGentPozueta2004.cs_default VanGent2001.calculate_wave_runup_height_zXp
  VanGent2001.calculate_wave_runup_height_z1p VanGent2001.z1p_c0 VanGent2001.z1p_c1
  VanGent2001.calculate_wave_runup_height_z2p VanGent2001.z2p_c0 VanGent2001.z2p_c1
  VanGent2001.calculate_wave_runup_height_z10p VanGent2001.z10p_c0 VanGent2001.z10p_c1
  VanGent2001.invert_for_Hs VanGent2001.invert_c0 VanGent2001.invert_c1
  VanGent2002Velocity.calculate_maximum_wave_overtopping_velocity_uXp
  VanGent2002Velocity.invert_for_zXp VanGent2002Velocity.cu1_default VanGent2002Velocity.cu2_default : scalars.

Theorem C67_rear2007_S : forall cot_alpha cot_phi gamma Hs Tmm10 Rc Rc2_front Rc2_rear N_waves Dn50 M50 rho_rock,
  reports_call [cot_alpha; cot_phi; gamma; Hs; Tmm10; Rc; Rc2_front; Rc2_rear; N_waves; Dn50; M50; rho_rock] [Hs; Rc; Rc2_front; Rc2_rear; N_waves; Dn50; M50; rho_rock]
    [fun at_ => (VanGent2001.calculate_wave_runup_height_z1p (at_ Hs) (at_ Tmm10) (at_ gamma) (at_ cot_alpha) #1.45 #5.1)%num;
     fun at_ => outcome (CorePhysics.check_usage_Dn50_or_M50 (at_ Dn50) (at_ M50) (at_ rho_rock));
     fun at_ => outcome (RearVanGent2007.calculate_damage_number_S (at_ cot_alpha) (at_ cot_phi) (at_ gamma) (at_ Hs) (at_ Tmm10) (at_ Rc) (at_ Rc2_front) (at_ Rc2_rear) (at_ N_waves) (at_ Dn50) (at_ M50) (at_ rho_rock))]
    (ArrRearVanGent2007.calculate_damage_number_S cot_alpha cot_phi gamma Hs Tmm10 Rc Rc2_front Rc2_rear N_waves Dn50 M50 rho_rock)
    (fun at_ => RearVanGent2007.calculate_damage_number_S (at_ cot_alpha) (at_ cot_phi) (at_ gamma) (at_ Hs) (at_ Tmm10) (at_ Rc) (at_ Rc2_front) (at_ Rc2_rear) (at_ N_waves) (at_ Dn50) (at_ M50) (at_ rho_rock)).
Proof. intros. call_tac. Qed.

Theorem C67_rear2007_Dn50 : forall cot_alpha cot_phi gamma S Hs Tmm10 Rc Rc2_front Rc2_rear N_waves,
  reports_call [cot_alpha; cot_phi; gamma; S; Hs; Tmm10; Rc; Rc2_front; Rc2_rear; N_waves] [S; Hs; Rc; Rc2_front; Rc2_rear; N_waves]
    [fun at_ => (VanGent2001.calculate_wave_runup_height_z1p (at_ Hs) (at_ Tmm10) (at_ gamma) (at_ cot_alpha) #1.45 #5.1)%num;
     fun at_ => outcome (RearVanGent2007.calculate_nominal_rock_diameter_Dn50 (at_ cot_alpha) (at_ cot_phi) (at_ gamma) (at_ S) (at_ Hs) (at_ Tmm10) (at_ Rc) (at_ Rc2_front) (at_ Rc2_rear) (at_ N_waves))]
    (ArrRearVanGent2007.calculate_nominal_rock_diameter_Dn50 cot_alpha cot_phi gamma S Hs Tmm10 Rc Rc2_front Rc2_rear N_waves)
    (fun at_ => RearVanGent2007.calculate_nominal_rock_diameter_Dn50 (at_ cot_alpha) (at_ cot_phi) (at_ gamma) (at_ S) (at_ Hs) (at_ Tmm10) (at_ Rc) (at_ Rc2_front) (at_ Rc2_rear) (at_ N_waves)).
Proof. intros. call_tac. Qed.

Theorem C67_pozueta_S : forall cot_alpha cot_phi gamma_f gamma_f_Crest Hs Tmm10 Rc Rc_rear Bc N_waves Dn50 M50 rho_rock rho_water cs,
  reports_call [cot_alpha; cot_phi; gamma_f; gamma_f_Crest; Hs; Tmm10; Rc; Rc_rear; Bc; N_waves; Dn50; M50; rho_rock; rho_water; cs] [cot_phi; gamma_f; Hs; Tmm10; Rc; Rc_rear; Bc; N_waves; Dn50; M50; rho_rock; rho_water]
    [fun at_ => (VanGent2001.calculate_wave_runup_height_z1p (at_ Hs) (at_ Tmm10) (at_ gamma_f) (at_ cot_alpha) #1.45 #5.1)%num;
     fun at_ => outcome (CorePhysics.check_usage_Dn50_or_M50 (at_ Dn50) (at_ M50) (at_ rho_rock));
     fun at_ => outcome (RearVanGentPozueta2004.calculate_damage_number_S (at_ cot_alpha) (at_ cot_phi) (at_ gamma_f) (at_ gamma_f_Crest) (at_ Hs) (at_ Tmm10) (at_ Rc) (at_ Rc_rear) (at_ Bc) (at_ N_waves) (at_ Dn50) (at_ M50) (at_ rho_rock) (at_ rho_water) (at_ cs))]
    (ArrRearVanGentPozueta2004.calculate_damage_number_S cot_alpha cot_phi gamma_f gamma_f_Crest Hs Tmm10 Rc Rc_rear Bc N_waves Dn50 M50 rho_rock rho_water cs)
    (fun at_ => RearVanGentPozueta2004.calculate_damage_number_S (at_ cot_alpha) (at_ cot_phi) (at_ gamma_f) (at_ gamma_f_Crest) (at_ Hs) (at_ Tmm10) (at_ Rc) (at_ Rc_rear) (at_ Bc) (at_ N_waves) (at_ Dn50) (at_ M50) (at_ rho_rock) (at_ rho_water) (at_ cs)).
Proof. intros. call_tac. Qed.

Theorem C67_pozueta_Dn50 : forall cot_alpha cot_phi gamma_f gamma_f_Crest S Hs Tmm10 Rc Rc_rear Bc rho_rock N_waves rho_water cs,
  reports_call [cot_alpha; cot_phi; gamma_f; gamma_f_Crest; S; Hs; Tmm10; Rc; Rc_rear; Bc; rho_rock; N_waves; rho_water; cs] [cot_phi; gamma_f; S; Hs; Tmm10; Rc; Rc_rear; Bc; rho_rock; N_waves; rho_water]
    [fun at_ => (VanGent2001.calculate_wave_runup_height_z1p (at_ Hs) (at_ Tmm10) (at_ gamma_f) (at_ cot_alpha) #1.45 #5.1)%num;
     fun at_ => outcome (RearVanGentPozueta2004.calculate_nominal_rock_diameter_Dn50 (at_ cot_alpha) (at_ cot_phi) (at_ gamma_f) (at_ gamma_f_Crest) (at_ S) (at_ Hs) (at_ Tmm10) (at_ Rc) (at_ Rc_rear) (at_ Bc) (at_ rho_rock) (at_ N_waves) (at_ rho_water) (at_ cs))]
    (ArrRearVanGentPozueta2004.calculate_nominal_rock_diameter_Dn50 cot_alpha cot_phi gamma_f gamma_f_Crest S Hs Tmm10 Rc Rc_rear Bc rho_rock N_waves rho_water cs)
    (fun at_ => RearVanGentPozueta2004.calculate_nominal_rock_diameter_Dn50 (at_ cot_alpha) (at_ cot_phi) (at_ gamma_f) (at_ gamma_f_Crest) (at_ S) (at_ Hs) (at_ Tmm10) (at_ Rc) (at_ Rc_rear) (at_ Bc) (at_ rho_rock) (at_ N_waves) (at_ rho_water) (at_ cs)).
Proof. intros. call_tac. Qed.
