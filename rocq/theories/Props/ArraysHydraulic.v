(** Property C61, transmission, set-up, run-up and overtopping. *)
From Coq Require Import Reals Lra List Bool Arith String.
From Verif.Lib Require Import Num Monad Arr RTac NTac Table Str.
From Verif.Spec Require Import Arrays.
From Verif.Model Require Import CoreUtility.
From Verif.Model Require CorePhysics ArrCore DAngremond1996 VanGent2024Setup VanGent2001 VanGent2002Velocity DeRidder2024 DeRidder2026 ArrDAngremond1996 ArrVanGent2024Setup ArrVanGent2001 ArrVanGent2002Velocity ArrDeRidder2024 ArrDeRidder2026.
From Verif.Proofs Require Import Core CheckTac Arrays.
Import ListNotations.
Open Scope nat_scope.

#[local] Hint Unfold
  ArrDAngremond1996.check_validity ArrDAngremond1996.calculate_wave_transmission_Kt_permeable
  ArrDAngremond1996.calculate_wave_transmission_Kt_impermeable
  ArrVanGent2024Setup.check_validity_range
  ArrVanGent2024Setup.calculate_dimensionless_structure_induced_setup_impermeable
  ArrVanGent2024Setup.calculate_structure_induced_setup_delta_impermeable
  ArrVanGent2024Setup.calculate_dimensionless_structure_induced_setup_permeable
  ArrVanGent2024Setup.calculate_structure_induced_setup_delta_permeable
  ArrVanGent2001.calculate_wave_runup_height_zXp ArrVanGent2001.calculate_wave_runup_height_z1p
  ArrVanGent2001.isnan_truth ArrVanGent2001.calculate_wave_runup_height_z2p
  ArrVanGent2001.calculate_wave_runup_height_z10p ArrVanGent2001.invert_for_Hs
  ArrVanGent2002Velocity.calculate_maximum_wave_overtopping_velocity_uXp
  ArrVanGent2002Velocity.invert_for_zXp ArrDeRidder2024.check_validity_range
  ArrDeRidder2024.period_HF ArrDeRidder2024.calculate_dimensionless_crest_freeboard_discharge_q_eq24
  ArrDeRidder2024.calculate_crest_freeboard_discharge_q_eq24
  ArrDeRidder2024.calculate_crest_freeboard_discharge_q_eq26
  ArrDeRidder2024.calculate_dimensionless_overtopping_discharge_eq24
  ArrDeRidder2024.calculate_overtopping_discharge_q_eq24
  ArrDeRidder2024.calculate_dimensionless_overtopping_discharge_eq26
  ArrDeRidder2024.calculate_overtopping_discharge_q_eq26 ArrDeRidder2026.check_validity_range
  ArrDeRidder2026.period_HF ArrDeRidder2026.calculate_gamma_beta
  ArrDeRidder2026.calculate_dimensionless_crest_freeboard_discharge_q_eq28
  ArrDeRidder2026.calculate_crest_freeboard_discharge_q_eq28
  ArrDeRidder2026.calculate_crest_freeboard_discharge_q_eq32
  ArrDeRidder2026.calculate_dimensionless_overtopping_discharge_eq28
  ArrDeRidder2026.calculate_overtopping_discharge_q_eq28
  ArrDeRidder2026.calculate_dimensionless_overtopping_discharge_eq32
  ArrDeRidder2026.calculate_overtopping_discharge_q_eq32 : arrays.
#[local] Hint Unfold
  DAngremond1996.check_validity DAngremond1996.calculate_wave_transmission_Kt_permeable
  DAngremond1996.C1_permeable DAngremond1996.calculate_wave_transmission_Kt_impermeable
  DAngremond1996.C1_impermeable VanGent2024Setup.check_validity_range
  VanGent2024Setup.calculate_dimensionless_structure_induced_setup_impermeable
  VanGent2024Setup.calculate_structure_induced_setup_delta_impermeable
  VanGent2024Setup.calculate_dimensionless_structure_induced_setup_permeable
  VanGent2024Setup.calculate_structure_induced_setup_delta_permeable
  VanGent2001.calculate_wave_runup_height_zXp VanGent2001.calculate_wave_runup_height_z1p
  VanGent2001.z1p_c0 VanGent2001.z1p_c1 VanGent2001.calculate_wave_runup_height_z2p
  VanGent2001.z2p_c0 VanGent2001.z2p_c1 VanGent2001.calculate_wave_runup_height_z10p
  VanGent2001.z10p_c0 VanGent2001.z10p_c1 VanGent2001.invert_for_Hs VanGent2001.invert_c0
  VanGent2001.invert_c1 VanGent2002Velocity.calculate_maximum_wave_overtopping_velocity_uXp
  VanGent2002Velocity.invert_for_zXp VanGent2002Velocity.cu1_default VanGent2002Velocity.cu2_default
  DeRidder2024.check_validity_range DeRidder2024.period_HF
  DeRidder2024.calculate_dimensionless_crest_freeboard_discharge_q_eq24
  DeRidder2024.calculate_crest_freeboard_discharge_q_eq24
  DeRidder2024.calculate_crest_freeboard_discharge_q_eq26
  DeRidder2024.calculate_dimensionless_overtopping_discharge_eq24
  DeRidder2024.calculate_overtopping_discharge_q_eq24
  DeRidder2024.calculate_dimensionless_overtopping_discharge_eq26
  DeRidder2024.calculate_overtopping_discharge_q_eq26 DeRidder2026.check_validity_range
  DeRidder2026.period_HF DeRidder2026.calculate_gamma_beta
  DeRidder2026.calculate_dimensionless_crest_freeboard_discharge_q_eq28
  DeRidder2026.calculate_crest_freeboard_discharge_q_eq28
  DeRidder2026.calculate_crest_freeboard_discharge_q_eq32
  DeRidder2026.calculate_dimensionless_overtopping_discharge_eq28
  DeRidder2026.calculate_overtopping_discharge_q_eq28
  DeRidder2026.calculate_dimensionless_overtopping_discharge_eq32
  DeRidder2026.calculate_overtopping_discharge_q_eq32 DeRidder2026.theta_default : scalars.

Theorem C61_dangremond_permeable : forall Hsi Tpi h Rc B cot_alpha C1 (do_validity_check : bool),
  elementwise_with [h] [Hsi; Tpi; Rc; B; cot_alpha; C1]
    (ArrDAngremond1996.calculate_wave_transmission_Kt_permeable Hsi Tpi h Rc B cot_alpha C1 do_validity_check)
    (fun at_ => value (DAngremond1996.calculate_wave_transmission_Kt_permeable (at_ Hsi) (at_ Tpi) (at_ h) (at_ Rc) (at_ B) (at_ cot_alpha) (at_ C1) do_validity_check)).
Proof.
  intros. array_tac.
Qed.

Theorem C61_dangremond_impermeable : forall Hsi Tpi h Rc B cot_alpha C1,
  elementwise_with [h] [Hsi; Tpi; Rc; B; cot_alpha; C1]
    (ArrDAngremond1996.calculate_wave_transmission_Kt_impermeable Hsi Tpi h Rc B cot_alpha C1)
    (fun at_ => value (DAngremond1996.calculate_wave_transmission_Kt_impermeable (at_ Hsi) (at_ Tpi) (at_ h) (at_ Rc) (at_ B) (at_ cot_alpha) (at_ C1))).
Proof.
  intros. array_tac.
Qed.

Theorem C61_dimensionless_setup_impermeable : forall Hm0 Tmm10 Rc,
  elementwise [Hm0; Tmm10; Rc]
    (ArrVanGent2024Setup.calculate_dimensionless_structure_induced_setup_impermeable Hm0 Tmm10 Rc)
    (fun at_ => value (VanGent2024Setup.calculate_dimensionless_structure_induced_setup_impermeable (at_ Hm0) (at_ Tmm10) (at_ Rc))).
Proof.
  intros. array_tac.
Qed.

Theorem C61_setup_delta_impermeable : forall Hm0 Tmm10 Rc,
  elementwise [Hm0; Tmm10; Rc]
    (ArrVanGent2024Setup.calculate_structure_induced_setup_delta_impermeable Hm0 Tmm10 Rc)
    (fun at_ => value (VanGent2024Setup.calculate_structure_induced_setup_delta_impermeable (at_ Hm0) (at_ Tmm10) (at_ Rc))).
Proof.
  intros. array_tac.
Qed.

Theorem C61_dimensionless_setup_permeable : forall Hm0 Tmm10 Rc hc,
  elementwise [Hm0; Tmm10; Rc; hc]
    (ArrVanGent2024Setup.calculate_dimensionless_structure_induced_setup_permeable Hm0 Tmm10 Rc hc)
    (fun at_ => value (VanGent2024Setup.calculate_dimensionless_structure_induced_setup_permeable (at_ Hm0) (at_ Tmm10) (at_ Rc) (at_ hc))).
Proof.
  intros. array_tac.
Qed.

Theorem C61_setup_delta_permeable : forall Hm0 Tmm10 Rc hc,
  elementwise [Hm0; Tmm10; Rc; hc]
    (ArrVanGent2024Setup.calculate_structure_induced_setup_delta_permeable Hm0 Tmm10 Rc hc)
    (fun at_ => value (VanGent2024Setup.calculate_structure_induced_setup_delta_permeable (at_ Hm0) (at_ Tmm10) (at_ Rc) (at_ hc))).
Proof.
  intros. array_tac.
Qed.

Theorem C61_runup_zXp : forall H Tmm10 gamma cot_alpha c0 c1,
  elementwise [H; Tmm10; gamma; cot_alpha; c0; c1]
    (ArrVanGent2001.calculate_wave_runup_height_zXp H Tmm10 gamma cot_alpha c0 c1)
    (fun at_ => Ok (VanGent2001.calculate_wave_runup_height_zXp (at_ H) (at_ Tmm10) (at_ gamma) (at_ cot_alpha) (at_ c0) (at_ c1))).
Proof.
  intros. array_tac.
Qed.

Theorem C61_runup_z1p : forall Hs Tmm10 gamma cot_alpha c0 c1,
  elementwise [Hs; Tmm10; gamma; cot_alpha; c0; c1]
    (ArrVanGent2001.calculate_wave_runup_height_z1p Hs Tmm10 gamma cot_alpha c0 c1)
    (fun at_ => Ok (VanGent2001.calculate_wave_runup_height_z1p (at_ Hs) (at_ Tmm10) (at_ gamma) (at_ cot_alpha) (at_ c0) (at_ c1))).
Proof.
  intros. array_tac.
Qed.

Theorem C61_runup_z10p : forall Hs Tmm10 gamma cot_alpha c0 c1,
  elementwise [Hs; Tmm10; gamma; cot_alpha; c0; c1]
    (ArrVanGent2001.calculate_wave_runup_height_z10p Hs Tmm10 gamma cot_alpha c0 c1)
    (fun at_ => Ok (VanGent2001.calculate_wave_runup_height_z10p (at_ Hs) (at_ Tmm10) (at_ gamma) (at_ cot_alpha) (at_ c0) (at_ c1))).
Proof.
  intros. array_tac.
Qed.

Theorem C61_runup_invert : forall Hs_i0 z1p Tmm10 gamma cot_alpha c0 c1,
  elementwise [Hs_i0; z1p; Tmm10; gamma; cot_alpha; c0; c1]
    (ArrVanGent2001.invert_for_Hs Hs_i0 z1p Tmm10 gamma cot_alpha c0 c1)
    (fun at_ => Ok (VanGent2001.invert_for_Hs (at_ Hs_i0) (at_ z1p) (at_ Tmm10) (at_ gamma) (at_ cot_alpha) (at_ c0) (at_ c1))).
Proof.
  intros. array_tac.
Qed.

Theorem C61_velocity : forall Hs zXp Rc Bc gamma_f gamma_f_Crest cu1 cu2 g,
  elementwise [Hs; zXp; Rc; Bc; gamma_f; gamma_f_Crest; cu1; cu2; g]
    (ArrVanGent2002Velocity.calculate_maximum_wave_overtopping_velocity_uXp Hs zXp Rc Bc gamma_f gamma_f_Crest cu1 cu2 g)
    (fun at_ => Ok (VanGent2002Velocity.calculate_maximum_wave_overtopping_velocity_uXp (at_ Hs) (at_ zXp) (at_ Rc) (at_ Bc) (at_ gamma_f) (at_ gamma_f_Crest) (at_ cu1) (at_ cu2) (at_ g))).
Proof.
  intros. array_tac.
Qed.

Theorem C61_velocity_invert : forall Hs uXp Rc Bc gamma_f gamma_f_Crest cu1 cu2 g,
  elementwise [Hs; uXp; Rc; Bc; gamma_f; gamma_f_Crest; cu1; cu2; g]
    (ArrVanGent2002Velocity.invert_for_zXp Hs uXp Rc Bc gamma_f gamma_f_Crest cu1 cu2 g)
    (fun at_ => Ok (VanGent2002Velocity.invert_for_zXp (at_ Hs) (at_ uXp) (at_ Rc) (at_ Bc) (at_ gamma_f) (at_ gamma_f_Crest) (at_ cu1) (at_ cu2) (at_ g))).
Proof.
  intros. array_tac.
Qed.

Theorem C61_deridder2024_dimless_Rc_eq24 : forall Hm0 smm10_HF gamma_f q g,
  elementwise [Hm0; smm10_HF; gamma_f; q; g]
    (ArrDeRidder2024.calculate_dimensionless_crest_freeboard_discharge_q_eq24 Hm0 smm10_HF gamma_f q g)
    (fun at_ => value (DeRidder2024.calculate_dimensionless_crest_freeboard_discharge_q_eq24 (at_ Hm0) (at_ smm10_HF) (at_ gamma_f) (at_ q) (at_ g))).
Proof.
  intros. array_tac.
Qed.

Theorem C61_deridder2024_Rc_eq24 : forall Hm0 smm10_HF gamma_f q g,
  elementwise [Hm0; smm10_HF; gamma_f; q]
    (ArrDeRidder2024.calculate_crest_freeboard_discharge_q_eq24 Hm0 smm10_HF gamma_f q g)
    (fun at_ => value (DeRidder2024.calculate_crest_freeboard_discharge_q_eq24 (at_ Hm0) (at_ smm10_HF) (at_ gamma_f) (at_ q) (at_ g))).
Proof.
  intros. array_tac.
Qed.

Theorem C61_deridder2024_Rc_eq26 : forall Hm0 smm10_HF Hm0_LF gamma_f q g,
  elementwise [Hm0; smm10_HF; Hm0_LF; gamma_f; q; g]
    (ArrDeRidder2024.calculate_crest_freeboard_discharge_q_eq26 Hm0 smm10_HF Hm0_LF gamma_f q g)
    (fun at_ => value (DeRidder2024.calculate_crest_freeboard_discharge_q_eq26 (at_ Hm0) (at_ smm10_HF) (at_ Hm0_LF) (at_ gamma_f) (at_ q) (at_ g))).
Proof.
  intros. array_tac.
Qed.

Theorem C61_deridder2024_dimless_q_eq24 : forall Hm0 smm10_HF gamma_f Rc,
  elementwise [Hm0; smm10_HF; gamma_f; Rc]
    (ArrDeRidder2024.calculate_dimensionless_overtopping_discharge_eq24 Hm0 smm10_HF gamma_f Rc)
    (fun at_ => value (DeRidder2024.calculate_dimensionless_overtopping_discharge_eq24 (at_ Hm0) (at_ smm10_HF) (at_ gamma_f) (at_ Rc))).
Proof.
  intros. array_tac.
Qed.

Theorem C61_deridder2024_q_eq24 : forall Hm0 smm10_HF gamma_f Rc g,
  elementwise [Hm0; smm10_HF; gamma_f; Rc; g]
    (ArrDeRidder2024.calculate_overtopping_discharge_q_eq24 Hm0 smm10_HF gamma_f Rc g)
    (fun at_ => value (DeRidder2024.calculate_overtopping_discharge_q_eq24 (at_ Hm0) (at_ smm10_HF) (at_ gamma_f) (at_ Rc) (at_ g))).
Proof.
  intros. array_tac.
Qed.

Theorem C61_deridder2024_dimless_q_eq26 : forall Hm0 smm10_HF Hm0_LF gamma_f Rc,
  elementwise [Hm0; smm10_HF; Hm0_LF; gamma_f; Rc]
    (ArrDeRidder2024.calculate_dimensionless_overtopping_discharge_eq26 Hm0 smm10_HF Hm0_LF gamma_f Rc)
    (fun at_ => value (DeRidder2024.calculate_dimensionless_overtopping_discharge_eq26 (at_ Hm0) (at_ smm10_HF) (at_ Hm0_LF) (at_ gamma_f) (at_ Rc))).
Proof.
  intros. array_tac.
Qed.

Theorem C61_deridder2024_q_eq26 : forall Hm0 smm10_HF Hm0_LF gamma_f Rc g,
  elementwise [Hm0; smm10_HF; Hm0_LF; gamma_f; Rc; g]
    (ArrDeRidder2024.calculate_overtopping_discharge_q_eq26 Hm0 smm10_HF Hm0_LF gamma_f Rc g)
    (fun at_ => value (DeRidder2024.calculate_overtopping_discharge_q_eq26 (at_ Hm0) (at_ smm10_HF) (at_ Hm0_LF) (at_ gamma_f) (at_ Rc) (at_ g))).
Proof.
  intros. array_tac.
Qed.

Theorem C61_deridder2026_gamma_beta : forall theta,
  elementwise [theta]
    (ArrDeRidder2026.calculate_gamma_beta theta)
    (fun at_ => Ok (DeRidder2026.calculate_gamma_beta (at_ theta))).
Proof.
  intros. array_tac.
Qed.

Theorem C61_deridder2026_dimless_Rc_eq28 : forall Hm0 smm10_HF gamma_f q g gamma_beta,
  elementwise [Hm0; smm10_HF; gamma_f; q; g; gamma_beta]
    (ArrDeRidder2026.calculate_dimensionless_crest_freeboard_discharge_q_eq28 Hm0 smm10_HF gamma_f q g gamma_beta)
    (fun at_ => Ok (DeRidder2026.calculate_dimensionless_crest_freeboard_discharge_q_eq28 (at_ Hm0) (at_ smm10_HF) (at_ gamma_f) (at_ q) (at_ g) (at_ gamma_beta))).
Proof.
  intros. array_tac.
Qed.

Theorem C61_deridder2026_Rc_eq28 : forall Hm0 smm10_HF gamma_f q g theta,
  elementwise [Hm0; smm10_HF; gamma_f; q; g; theta]
    (ArrDeRidder2026.calculate_crest_freeboard_discharge_q_eq28 Hm0 smm10_HF gamma_f q g theta)
    (fun at_ => Ok (DeRidder2026.calculate_crest_freeboard_discharge_q_eq28 (at_ Hm0) (at_ smm10_HF) (at_ gamma_f) (at_ q) (at_ g) (at_ theta))).
Proof.
  intros. array_tac.
Qed.

Theorem C61_deridder2026_Rc_eq32 : forall Hm0_HF smm10_HF Hm0_LF gamma_f q g theta,
  elementwise [Hm0_HF; smm10_HF; Hm0_LF; gamma_f; q; g; theta]
    (ArrDeRidder2026.calculate_crest_freeboard_discharge_q_eq32 Hm0_HF smm10_HF Hm0_LF gamma_f q g theta)
    (fun at_ => Ok (DeRidder2026.calculate_crest_freeboard_discharge_q_eq32 (at_ Hm0_HF) (at_ smm10_HF) (at_ Hm0_LF) (at_ gamma_f) (at_ q) (at_ g) (at_ theta))).
Proof.
  intros. array_tac.
Qed.

Theorem C61_deridder2026_dimless_q_eq28 : forall Hm0 smm10_HF gamma_f Rc theta,
  elementwise [Hm0; smm10_HF; gamma_f; Rc; theta]
    (ArrDeRidder2026.calculate_dimensionless_overtopping_discharge_eq28 Hm0 smm10_HF gamma_f Rc theta)
    (fun at_ => value (DeRidder2026.calculate_dimensionless_overtopping_discharge_eq28 (at_ Hm0) (at_ smm10_HF) (at_ gamma_f) (at_ Rc) (at_ theta))).
Proof.
  intros. array_tac.
Qed.

Theorem C61_deridder2026_q_eq28 : forall Hm0 smm10_HF gamma_f Rc g theta,
  elementwise [Hm0; smm10_HF; gamma_f; Rc; g; theta]
    (ArrDeRidder2026.calculate_overtopping_discharge_q_eq28 Hm0 smm10_HF gamma_f Rc g theta)
    (fun at_ => value (DeRidder2026.calculate_overtopping_discharge_q_eq28 (at_ Hm0) (at_ smm10_HF) (at_ gamma_f) (at_ Rc) (at_ g) (at_ theta))).
Proof.
  intros. array_tac.
Qed.

Theorem C61_deridder2026_dimless_q_eq32 : forall Hm0_HF smm10_HF Hm0_LF gamma_f Rc theta,
  elementwise [Hm0_HF; smm10_HF; Hm0_LF; gamma_f; Rc; theta]
    (ArrDeRidder2026.calculate_dimensionless_overtopping_discharge_eq32 Hm0_HF smm10_HF Hm0_LF gamma_f Rc theta)
    (fun at_ => value (DeRidder2026.calculate_dimensionless_overtopping_discharge_eq32 (at_ Hm0_HF) (at_ smm10_HF) (at_ Hm0_LF) (at_ gamma_f) (at_ Rc) (at_ theta))).
Proof.
  intros. array_tac.
Qed.

Theorem C61_deridder2026_q_eq32 : forall Hm0_HF smm10_HF Hm0_LF gamma_f Rc g theta,
  elementwise [Hm0_HF; smm10_HF; Hm0_LF; gamma_f; Rc; g; theta]
    (ArrDeRidder2026.calculate_overtopping_discharge_q_eq32 Hm0_HF smm10_HF Hm0_LF gamma_f Rc g theta)
    (fun at_ => value (DeRidder2026.calculate_overtopping_discharge_q_eq32 (at_ Hm0_HF) (at_ smm10_HF) (at_ Hm0_LF) (at_ gamma_f) (at_ Rc) (at_ g) (at_ theta))).
Proof.
  intros. array_tac.
Qed.

