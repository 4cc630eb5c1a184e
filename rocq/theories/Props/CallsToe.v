(** Property C67: how calls with arrays end and what they report. *)
From Coq Require Import Reals Lra Lia List Bool Arith String.
From Verif.Lib Require Import Num Monad Arr ArrFlags ArrLoop RTac NTac.
From Verif.Spec Require Import Arrays ArrayWarnings ArrayCalls.
From Verif.Model Require Import CoreUtility ArrCore.
From Verif.Proofs Require Import Core CheckTac Arrays ArrayWarnings ArrayCalls.
From Verif.Model Require ArrGerding1993 ArrVanGentVanderWerf2014 ArrVanderMeer1998 CorePhysics Gerding1993 VanGentVanderWerf2014 VanderMeer1998.
Import ListNotations.
Open Scope nat_scope.

#[local] Hint Unfold
  ArrGerding1993.check_validity ArrGerding1993.calculate_damage_Nod
  ArrGerding1993.calculate_nominal_diameter_Dn50 ArrGerding1993.calculate_wave_height_Hs
  ArrGerding1993.calculate_depth_above_toe_ht ArrVanderMeer1998.check_validity
  ArrVanderMeer1998.calculate_damage_Nod ArrVanderMeer1998.calculate_nominal_diameter_Dn50
  ArrVanderMeer1998.calculate_wave_height_Hs ArrVanderMeer1998.calculate_depth_above_toe_ht
  ArrVanGentVanderWerf2014.check_validity ArrVanGentVanderWerf2014.calculate_velocity_u_delta
  ArrVanGentVanderWerf2014.calculate_damage_Nod
  ArrVanGentVanderWerf2014.calculate_nominal_diameter_Dn50 : arrays.
#[local] Hint Unfold
  Gerding1993.check_validity Gerding1993.calculate_damage_Nod
  Gerding1993.calculate_nominal_diameter_Dn50 Gerding1993.calculate_wave_height_Hs
  Gerding1993.calculate_depth_above_toe_ht VanderMeer1998.check_validity
  VanderMeer1998.calculate_damage_Nod VanderMeer1998.calculate_nominal_diameter_Dn50
  VanderMeer1998.calculate_wave_height_Hs VanderMeer1998.calculate_depth_above_toe_ht
  VanGentVanderWerf2014.check_validity VanGentVanderWerf2014.calculate_velocity_u_delta
  VanGentVanderWerf2014.calculate_damage_Nod VanGentVanderWerf2014.calculate_nominal_diameter_Dn50
  VanGentVanderWerf2014.default_damage_Nod : scalars.

Theorem C67_gerding_Nod : forall Hs ht h Dn50 rho_rock rho_water,
  reports_call [Hs; ht; h; Dn50; rho_rock; rho_water] [ht; h; Dn50] []
    (ArrGerding1993.calculate_damage_Nod Hs ht h Dn50 rho_rock rho_water)
    (fun at_ => Gerding1993.calculate_damage_Nod (at_ Hs) (at_ ht) (at_ h) (at_ Dn50) (at_ rho_rock) (at_ rho_water)).
Proof. intros. call_tac. Qed.

Theorem C67_gerding_Dn50 : forall Hs ht h Nod rho_rock rho_water,
  reports_call [Hs; ht; h; Nod; rho_rock; rho_water] [ht; h]
    [fun at_ => outcome (Gerding1993.calculate_nominal_diameter_Dn50 (at_ Hs) (at_ ht) (at_ h) (at_ Nod) (at_ rho_rock) (at_ rho_water))]
    (ArrGerding1993.calculate_nominal_diameter_Dn50 Hs ht h Nod rho_rock rho_water)
    (fun at_ => Gerding1993.calculate_nominal_diameter_Dn50 (at_ Hs) (at_ ht) (at_ h) (at_ Nod) (at_ rho_rock) (at_ rho_water)).
Proof. intros. call_tac. Qed.

Theorem C67_gerding_Hs : forall Dn50 ht h Nod rho_rock rho_water,
  reports_call [Dn50; ht; h; Nod; rho_rock; rho_water] [Dn50; ht; h] []
    (ArrGerding1993.calculate_wave_height_Hs Dn50 ht h Nod rho_rock rho_water)
    (fun at_ => Gerding1993.calculate_wave_height_Hs (at_ Dn50) (at_ ht) (at_ h) (at_ Nod) (at_ rho_rock) (at_ rho_water)).
Proof. intros. call_tac. Qed.

Theorem C67_gerding_ht : forall Hs Dn50 h Nod rho_rock rho_water,
  reports_call [Hs; Dn50; h; Nod; rho_rock; rho_water] [Dn50; h]
    [fun at_ => outcome (Gerding1993.calculate_depth_above_toe_ht (at_ Hs) (at_ Dn50) (at_ h) (at_ Nod) (at_ rho_rock) (at_ rho_water))]
    (ArrGerding1993.calculate_depth_above_toe_ht Hs Dn50 h Nod rho_rock rho_water)
    (fun at_ => Gerding1993.calculate_depth_above_toe_ht (at_ Hs) (at_ Dn50) (at_ h) (at_ Nod) (at_ rho_rock) (at_ rho_water)).
Proof. intros. call_tac. Qed.

Theorem C67_vdm98_Nod : forall Hs ht h Dn50 rho_rock rho_water,
  reports_call [Hs; ht; h; Dn50; rho_rock; rho_water] [Hs; ht; h; Dn50]
    [fun at_ => outcome (VanderMeer1998.calculate_damage_Nod (at_ Hs) (at_ ht) (at_ h) (at_ Dn50) (at_ rho_rock) (at_ rho_water));
     fun at_ => CorePhysics.calculate_buoyant_density_Delta (at_ rho_rock) (at_ rho_water)]
    (ArrVanderMeer1998.calculate_damage_Nod Hs ht h Dn50 rho_rock rho_water)
    (fun at_ => VanderMeer1998.calculate_damage_Nod (at_ Hs) (at_ ht) (at_ h) (at_ Dn50) (at_ rho_rock) (at_ rho_water)).
Proof. intros. call_tac. Qed.

Theorem C67_vdm98_Dn50 : forall Hs ht h Nod rho_rock rho_water,
  reports_call [Hs; ht; h; Nod; rho_rock; rho_water] [Hs; ht; h; Nod]
    [fun at_ => outcome (VanderMeer1998.calculate_nominal_diameter_Dn50 (at_ Hs) (at_ ht) (at_ h) (at_ Nod) (at_ rho_rock) (at_ rho_water));
     fun at_ => CorePhysics.calculate_buoyant_density_Delta (at_ rho_rock) (at_ rho_water)]
    (ArrVanderMeer1998.calculate_nominal_diameter_Dn50 Hs ht h Nod rho_rock rho_water)
    (fun at_ => VanderMeer1998.calculate_nominal_diameter_Dn50 (at_ Hs) (at_ ht) (at_ h) (at_ Nod) (at_ rho_rock) (at_ rho_water)).
Proof. intros. call_tac. Qed.

Theorem C67_vdm98_Hs : forall Dn50 ht h Nod rho_rock rho_water,
  reports_call [Dn50; ht; h; Nod; rho_rock; rho_water] [Dn50; ht; h; Nod]
    [fun at_ => outcome (VanderMeer1998.calculate_wave_height_Hs (at_ Dn50) (at_ ht) (at_ h) (at_ Nod) (at_ rho_rock) (at_ rho_water));
     fun at_ => CorePhysics.calculate_buoyant_density_Delta (at_ rho_rock) (at_ rho_water)]
    (ArrVanderMeer1998.calculate_wave_height_Hs Dn50 ht h Nod rho_rock rho_water)
    (fun at_ => VanderMeer1998.calculate_wave_height_Hs (at_ Dn50) (at_ ht) (at_ h) (at_ Nod) (at_ rho_rock) (at_ rho_water)).
Proof. intros. call_tac. Qed.

Theorem C67_toe2014_Nod : forall Hm0 Tmm10 ht Bt tt Dn50 rho_rock rho_water cot_alpha_armour_slope g c1 c2 c3 c4 c5,
  reports_call [Hm0; Tmm10; ht; Bt; tt; Dn50; rho_rock; rho_water; cot_alpha_armour_slope; g; c1; c2; c3; c4; c5] [Hm0; ht; tt; cot_alpha_armour_slope] []
    (ArrVanGentVanderWerf2014.calculate_damage_Nod Hm0 Tmm10 ht Bt tt Dn50 rho_rock rho_water cot_alpha_armour_slope g c1 c2 c3 c4 c5)
    (fun at_ => VanGentVanderWerf2014.calculate_damage_Nod (at_ Hm0) (at_ Tmm10) (at_ ht) (at_ Bt) (at_ tt) (at_ Dn50) (at_ rho_rock) (at_ rho_water) (at_ cot_alpha_armour_slope) (at_ g) (at_ c1) (at_ c2) (at_ c3) (at_ c4) (at_ c5)).
Proof. intros. call_tac. Qed.

Theorem C67_toe2014_Dn50 : forall Hm0 Tmm10 ht Bt tt Nod rho_rock rho_water cot_alpha_armour_slope g,
  reports_call [Hm0; Tmm10; ht; Bt; tt; Nod; rho_rock; rho_water; cot_alpha_armour_slope; g] [Hm0; ht; tt; cot_alpha_armour_slope] []
    (ArrVanGentVanderWerf2014.calculate_nominal_diameter_Dn50 Hm0 Tmm10 ht Bt tt Nod rho_rock rho_water cot_alpha_armour_slope g)
    (fun at_ => VanGentVanderWerf2014.calculate_nominal_diameter_Dn50 (at_ Hm0) (at_ Tmm10) (at_ ht) (at_ Bt) (at_ tt) (at_ Nod) (at_ rho_rock) (at_ rho_water) (at_ cot_alpha_armour_slope) (at_ g)).
Proof. intros. call_tac. Qed.
