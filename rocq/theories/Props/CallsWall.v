(** Property C67: how calls with arrays end and what they report. *)
From Coq Require Import Reals Lra Lia List Bool Arith String.
From Verif.Lib Require Import Num Monad Arr ArrFlags ArrLoop RTac NTac.
From Verif.Spec Require Import Arrays ArrayWarnings ArrayCalls.
From Verif.Model Require Import CoreUtility ArrCore.
From Verif.Proofs Require Import Core CheckTac Arrays ArrayWarnings ArrayCalls.
From Verif.Model Require ArrCrestWall2019 ArrVanGent2001 CorePhysics CrestWall2019 VanGent2001.
Import ListNotations.
Open Scope nat_scope.

#[local] Hint Unfold
  ArrVanGent2001.calculate_wave_runup_height_zXp ArrVanGent2001.calculate_wave_runup_height_z1p
  ArrVanGent2001.isnan_truth ArrVanGent2001.calculate_wave_runup_height_z2p
  ArrVanGent2001.calculate_wave_runup_height_z10p ArrVanGent2001.invert_for_Hs
  ArrCrestWall2019.check_validity
  ArrCrestWall2019.calculate_influence_oblique_waves_force_gamma_F_beta
  ArrCrestWall2019.calculate_influence_oblique_waves_horizontal_force_gamma_FH_beta
  ArrCrestWall2019.calculate_influence_oblique_waves_vertical_force_gamma_FV_beta
  ArrCrestWall2019.calculate_influence_oblique_waves_gamma_beta
  ArrCrestWall2019.calculate_FH2p_perpendicular_from_z2p
  ArrCrestWall2019.calculate_FH2p_perpendicular ArrCrestWall2019.calculate_FH2p_oblique
  ArrCrestWall2019.calculate_FV2p_perpendicular_from_z2p
  ArrCrestWall2019.calculate_FV2p_perpendicular ArrCrestWall2019.calculate_FV2p_oblique
  ArrCrestWall2019.calculate_FH01p_perpendicular ArrCrestWall2019.calculate_FV01p_perpendicular : arrays.
#[local] Hint Unfold
  VanGent2001.calculate_wave_runup_height_zXp VanGent2001.calculate_wave_runup_height_z1p
  VanGent2001.z1p_c0 VanGent2001.z1p_c1 VanGent2001.calculate_wave_runup_height_z2p
  VanGent2001.z2p_c0 VanGent2001.z2p_c1 VanGent2001.calculate_wave_runup_height_z10p
  VanGent2001.z10p_c0 VanGent2001.z10p_c1 VanGent2001.invert_for_Hs VanGent2001.invert_c0
  VanGent2001.invert_c1 CrestWall2019.check_validity
  CrestWall2019.calculate_influence_oblique_waves_force_gamma_F_beta
  CrestWall2019.calculate_influence_oblique_waves_horizontal_force_gamma_FH_beta
  CrestWall2019.gamma_A_FH
  CrestWall2019.calculate_influence_oblique_waves_vertical_force_gamma_FV_beta
  CrestWall2019.gamma_A_FV CrestWall2019.calculate_influence_oblique_waves_gamma_beta
  CrestWall2019.gamma_beta_c CrestWall2019.calculate_FH2p_perpendicular_from_z2p
  CrestWall2019.calculate_FH2p_perpendicular CrestWall2019.calculate_FH2p_oblique
  CrestWall2019.calculate_FV2p_perpendicular_from_z2p CrestWall2019.calculate_FV2p_perpendicular
  CrestWall2019.calculate_FV2p_oblique CrestWall2019.calculate_FH01p_perpendicular
  CrestWall2019.calculate_FV01p_perpendicular CrestWall2019.default_gamma_beta
  CrestWall2019.default_gamma_f CrestWall2019.default_c0 CrestWall2019.default_c1
  CrestWall2019.default_cFH CrestWall2019.default_cFV CrestWall2019.default_cFb
  CrestWall2019.default_rho_water : scalars.

Theorem C67_crestwall_FH_from_z2p : forall Hm0 z2p Ac Rc Hwall rho_water g cFH,
  reports_call [Hm0; z2p; Ac; Rc; Hwall; rho_water; g; cFH] [Hm0; Ac; Rc] []
    (ArrCrestWall2019.calculate_FH2p_perpendicular_from_z2p Hm0 z2p Ac Rc Hwall rho_water g cFH)
    (fun at_ => CrestWall2019.calculate_FH2p_perpendicular_from_z2p (at_ Hm0) (at_ z2p) (at_ Ac) (at_ Rc) (at_ Hwall) (at_ rho_water) (at_ g) (at_ cFH)).
Proof. intros. call_tac. Qed.

Theorem C67_crestwall_FH : forall Hm0 Tmm10 cot_alpha Ac Rc Hwall gamma_beta gamma_f c0 c1 rho_water g cFH,
  reports_call [Hm0; Tmm10; cot_alpha; Ac; Rc; Hwall; gamma_beta; gamma_f; c0; c1; rho_water; g; cFH] [Hm0; Ac; Rc] []
    (ArrCrestWall2019.calculate_FH2p_perpendicular Hm0 Tmm10 cot_alpha Ac Rc Hwall gamma_beta gamma_f c0 c1 rho_water g cFH)
    (fun at_ => CrestWall2019.calculate_FH2p_perpendicular (at_ Hm0) (at_ Tmm10) (at_ cot_alpha) (at_ Ac) (at_ Rc) (at_ Hwall) (at_ gamma_beta) (at_ gamma_f) (at_ c0) (at_ c1) (at_ rho_water) (at_ g) (at_ cFH)).
Proof. intros. call_tac. Qed.

Theorem C67_crestwall_FH_oblique : forall Hm0 Tmm10 beta cot_alpha Ac Rc Hwall gamma_beta gamma_f c0 c1 cFH rho_water g,
  reports_call [Hm0; Tmm10; beta; cot_alpha; Ac; Rc; Hwall; gamma_beta; gamma_f; c0; c1; cFH; rho_water; g] [Hm0; beta; Ac; Rc] []
    (ArrCrestWall2019.calculate_FH2p_oblique Hm0 Tmm10 beta cot_alpha Ac Rc Hwall gamma_beta gamma_f c0 c1 cFH rho_water g)
    (fun at_ => CrestWall2019.calculate_FH2p_oblique (at_ Hm0) (at_ Tmm10) (at_ beta) (at_ cot_alpha) (at_ Ac) (at_ Rc) (at_ Hwall) (at_ gamma_beta) (at_ gamma_f) (at_ c0) (at_ c1) (at_ cFH) (at_ rho_water) (at_ g)).
Proof. intros. call_tac. Qed.

Theorem C67_crestwall_FV : forall Hm0 Tmm10 cot_alpha Ac Bwall Fb gamma_beta gamma_f c0 c1 cFV cFb rho_water g,
  reports_call [Hm0; Tmm10; cot_alpha; Ac; Bwall; Fb; gamma_beta; gamma_f; c0; c1; cFV; cFb; rho_water; g] [Hm0; Fb] []
    (ArrCrestWall2019.calculate_FV2p_perpendicular Hm0 Tmm10 cot_alpha Ac Bwall Fb gamma_beta gamma_f c0 c1 cFV cFb rho_water g)
    (fun at_ => CrestWall2019.calculate_FV2p_perpendicular (at_ Hm0) (at_ Tmm10) (at_ cot_alpha) (at_ Ac) (at_ Bwall) (at_ Fb) (at_ gamma_beta) (at_ gamma_f) (at_ c0) (at_ c1) (at_ cFV) (at_ cFb) (at_ rho_water) (at_ g)).
Proof. intros. call_tac. Qed.

Theorem C67_crestwall_FV_oblique : forall Hm0 Tmm10 beta cot_alpha Ac Bwall Fb gamma_beta gamma_f c0 c1 cFV cFb rho_water g,
  reports_call [Hm0; Tmm10; beta; cot_alpha; Ac; Bwall; Fb; gamma_beta; gamma_f; c0; c1; cFV; cFb; rho_water; g] [Hm0; beta; Fb] []
    (ArrCrestWall2019.calculate_FV2p_oblique Hm0 Tmm10 beta cot_alpha Ac Bwall Fb gamma_beta gamma_f c0 c1 cFV cFb rho_water g)
    (fun at_ => CrestWall2019.calculate_FV2p_oblique (at_ Hm0) (at_ Tmm10) (at_ beta) (at_ cot_alpha) (at_ Ac) (at_ Bwall) (at_ Fb) (at_ gamma_beta) (at_ gamma_f) (at_ c0) (at_ c1) (at_ cFV) (at_ cFb) (at_ rho_water) (at_ g)).
Proof. intros. call_tac. Qed.
