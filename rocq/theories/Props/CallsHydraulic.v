(** Property C67: how calls with arrays end and what they report. *)
From Coq Require Import Reals Lra Lia List Bool Arith String.
From Verif.Lib Require Import Num Monad Arr ArrFlags ArrLoop RTac NTac.
From Verif.Spec Require Import Arrays ArrayWarnings ArrayCalls.
From Verif.Model Require Import CoreUtility ArrCore.
From Verif.Proofs Require Import Core CheckTac Arrays ArrayWarnings ArrayCalls.
From Verif.Model Require ArrDAngremond1996 ArrDeRidder2024 ArrDeRidder2026 ArrVanGent2001 ArrVanGent2002Velocity ArrVanGent2024Setup CorePhysics DAngremond1996 DeRidder2024 DeRidder2026 VanGent2001 VanGent2002Velocity VanGent2024Setup.
Import ListNotations.
Open Scope nat_scope.

#[local] Hint Unfold
  ArrDAngremond1996.check_validity ArrDAngremond1996.calculate_wave_transmission_Kt_permeable
  ArrDAngremond1996.calculate_wave_transmission_Kt_impermeable
  ArrVanGent2024Setup.check_validity_range
  ArrVanGent2024Setup.calculate_dimensionless_structure_induced_setup_impermeable
  ArrVanGent2024Setup.calculate_structure_induced_setup_delta_impermeable
  ArrVanGent2024Setup.calculate_dimensionless_structure_induced_setup_permeable
  ArrVanGent2024Setup.calculate_structure_induced_setup_delta_permeable
  ArrVanGent2001.calculate_wave_runup_height_zXp ArrVanGent2001.calculate_wave_runup_height_z1p
  ArrVanGent2001.isnan_truth ArrVanGent2001.calculate_wave_runup_height_z2p
  ArrVanGent2001.calculate_wave_runup_height_z10p ArrVanGent2001.invert_for_Hs
  ArrVanGent2002Velocity.calculate_maximum_wave_overtopping_velocity_uXp
  ArrVanGent2002Velocity.invert_for_zXp ArrDeRidder2024.check_validity_range
  ArrDeRidder2024.period_HF ArrDeRidder2024.calculate_dimensionless_crest_freeboard_discharge_q_eq24
  ArrDeRidder2024.calculate_crest_freeboard_discharge_q_eq24
  ArrDeRidder2024.calculate_crest_freeboard_discharge_q_eq26
  ArrDeRidder2024.calculate_dimensionless_overtopping_discharge_eq24
  ArrDeRidder2024.calculate_overtopping_discharge_q_eq24
  ArrDeRidder2024.calculate_dimensionless_overtopping_discharge_eq26
  ArrDeRidder2024.calculate_overtopping_discharge_q_eq26 ArrDeRidder2026.check_validity_range
  ArrDeRidder2026.period_HF ArrDeRidder2026.calculate_gamma_beta
  ArrDeRidder2026.calculate_dimensionless_crest_freeboard_discharge_q_eq28
  ArrDeRidder2026.calculate_crest_freeboard_discharge_q_eq28
  ArrDeRidder2026.calculate_crest_freeboard_discharge_q_eq32
  ArrDeRidder2026.calculate_dimensionless_overtopping_discharge_eq28
  ArrDeRidder2026.calculate_overtopping_discharge_q_eq28
  ArrDeRidder2026.calculate_dimensionless_overtopping_discharge_eq32
  ArrDeRidder2026.calculate_overtopping_discharge_q_eq32 : arrays.
#[local] Hint Unfold
  DAngremond1996.check_validity DAngremond1996.calculate_wave_transmission_Kt_permeable
  DAngremond1996.C1_permeable DAngremond1996.calculate_wave_transmission_Kt_impermeable
  DAngremond1996.C1_impermeable VanGent2024Setup.check_validity_range
  VanGent2024Setup.calculate_dimensionless_structure_induced_setup_impermeable
  VanGent2024Setup.calculate_structure_induced_setup_delta_impermeable
  VanGent2024Setup.calculate_dimensionless_structure_induced_setup_permeable
  VanGent2024Setup.calculate_structure_induced_setup_delta_permeable
  VanGent2001.calculate_wave_runup_height_zXp VanGent2001.calculate_wave_runup_height_z1p
  VanGent2001.z1p_c0 VanGent2001.z1p_c1 VanGent2001.calculate_wave_runup_height_z2p
  VanGent2001.z2p_c0 VanGent2001.z2p_c1 VanGent2001.calculate_wave_runup_height_z10p
  VanGent2001.z10p_c0 VanGent2001.z10p_c1 VanGent2001.invert_for_Hs VanGent2001.invert_c0
  VanGent2001.invert_c1 VanGent2002Velocity.calculate_maximum_wave_overtopping_velocity_uXp
  VanGent2002Velocity.invert_for_zXp VanGent2002Velocity.cu1_default VanGent2002Velocity.cu2_default
  DeRidder2024.check_validity_range DeRidder2024.period_HF
  DeRidder2024.calculate_dimensionless_crest_freeboard_discharge_q_eq24
  DeRidder2024.calculate_crest_freeboard_discharge_q_eq24
  DeRidder2024.calculate_crest_freeboard_discharge_q_eq26
  DeRidder2024.calculate_dimensionless_overtopping_discharge_eq24
  DeRidder2024.calculate_overtopping_discharge_q_eq24
  DeRidder2024.calculate_dimensionless_overtopping_discharge_eq26
  DeRidder2024.calculate_overtopping_discharge_q_eq26 DeRidder2026.check_validity_range
  DeRidder2026.period_HF DeRidder2026.calculate_gamma_beta
  DeRidder2026.calculate_dimensionless_crest_freeboard_discharge_q_eq28
  DeRidder2026.calculate_crest_freeboard_discharge_q_eq28
  DeRidder2026.calculate_crest_freeboard_discharge_q_eq32
  DeRidder2026.calculate_dimensionless_overtopping_discharge_eq28
  DeRidder2026.calculate_overtopping_discharge_q_eq28
  DeRidder2026.calculate_dimensionless_overtopping_discharge_eq32
  DeRidder2026.calculate_overtopping_discharge_q_eq32 DeRidder2026.theta_default : scalars.

Theorem C67_dangremond_permeable : forall Hsi Tpi h Rc B cot_alpha C1 (do_validity_check : bool),
  reports_call [Hsi; Tpi; h; Rc; B; cot_alpha; C1] []
    [fun at_ => outcome (DAngremond1996.calculate_wave_transmission_Kt_permeable (at_ Hsi) (at_ Tpi) (at_ h) (at_ Rc) (at_ B) (at_ cot_alpha) (at_ C1) do_validity_check);
     fun at_ => CorePhysics.calculate_wave_steepness_s (at_ Hsi) (at_ Tpi) CorePhysics.g_default;
     fun at_ => (at_ Hsi / at_ h)%num;
     fun at_ => (at_ Rc / at_ Hsi)%num]
    (ArrDAngremond1996.calculate_wave_transmission_Kt_permeable Hsi Tpi h Rc B cot_alpha C1 do_validity_check)
    (fun at_ => DAngremond1996.calculate_wave_transmission_Kt_permeable (at_ Hsi) (at_ Tpi) (at_ h) (at_ Rc) (at_ B) (at_ cot_alpha) (at_ C1) do_validity_check).
Proof. intros. call_tac. Qed.

Theorem C67_dangremond_impermeable : forall Hsi Tpi h Rc B cot_alpha C1,
  reports_call [Hsi; Tpi; h; Rc; B; cot_alpha; C1] []
    [fun at_ => outcome (DAngremond1996.calculate_wave_transmission_Kt_impermeable (at_ Hsi) (at_ Tpi) (at_ h) (at_ Rc) (at_ B) (at_ cot_alpha) (at_ C1));
     fun at_ => CorePhysics.calculate_wave_steepness_s (at_ Hsi) (at_ Tpi) CorePhysics.g_default;
     fun at_ => (at_ Hsi / at_ h)%num;
     fun at_ => (at_ Rc / at_ Hsi)%num]
    (ArrDAngremond1996.calculate_wave_transmission_Kt_impermeable Hsi Tpi h Rc B cot_alpha C1)
    (fun at_ => DAngremond1996.calculate_wave_transmission_Kt_impermeable (at_ Hsi) (at_ Tpi) (at_ h) (at_ Rc) (at_ B) (at_ cot_alpha) (at_ C1)).
Proof. intros. call_tac. Qed.

Theorem C67_dimensionless_setup_impermeable : forall Hm0 Tmm10 Rc,
  reports_call [Hm0; Tmm10; Rc] [Hm0; Tmm10; Rc] []
    (ArrVanGent2024Setup.calculate_dimensionless_structure_induced_setup_impermeable Hm0 Tmm10 Rc)
    (fun at_ => VanGent2024Setup.calculate_dimensionless_structure_induced_setup_impermeable (at_ Hm0) (at_ Tmm10) (at_ Rc)).
Proof. intros. call_tac. Qed.

Theorem C67_setup_delta_impermeable : forall Hm0 Tmm10 Rc,
  reports_call [Hm0; Tmm10; Rc] [Hm0; Tmm10; Rc] []
    (ArrVanGent2024Setup.calculate_structure_induced_setup_delta_impermeable Hm0 Tmm10 Rc)
    (fun at_ => VanGent2024Setup.calculate_structure_induced_setup_delta_impermeable (at_ Hm0) (at_ Tmm10) (at_ Rc)).
Proof. intros. call_tac. Qed.

Theorem C67_dimensionless_setup_permeable : forall Hm0 Tmm10 Rc hc,
  reports_call [Hm0; Tmm10; Rc; hc] [Hm0; Tmm10; Rc; hc] []
    (ArrVanGent2024Setup.calculate_dimensionless_structure_induced_setup_permeable Hm0 Tmm10 Rc hc)
    (fun at_ => VanGent2024Setup.calculate_dimensionless_structure_induced_setup_permeable (at_ Hm0) (at_ Tmm10) (at_ Rc) (at_ hc)).
Proof. intros. call_tac. Qed.

Theorem C67_setup_delta_permeable : forall Hm0 Tmm10 Rc hc,
  reports_call [Hm0; Tmm10; Rc; hc] [Hm0; Tmm10; Rc; hc] []
    (ArrVanGent2024Setup.calculate_structure_induced_setup_delta_permeable Hm0 Tmm10 Rc hc)
    (fun at_ => VanGent2024Setup.calculate_structure_induced_setup_delta_permeable (at_ Hm0) (at_ Tmm10) (at_ Rc) (at_ hc)).
Proof. intros. call_tac. Qed.

Theorem C67_deridder2024_dimless_Rc_eq24 : forall Hm0 smm10_HF gamma_f q g,
  reports_call [Hm0; smm10_HF; gamma_f; q; g] [Hm0]
    [fun at_ => (outcome (DeRidder2024.calculate_dimensionless_crest_freeboard_discharge_q_eq24 (at_ Hm0) (at_ smm10_HF) (at_ gamma_f) (at_ q) (at_ g)) * at_ Hm0)%num]
    (ArrDeRidder2024.calculate_dimensionless_crest_freeboard_discharge_q_eq24 Hm0 smm10_HF gamma_f q g)
    (fun at_ => DeRidder2024.calculate_dimensionless_crest_freeboard_discharge_q_eq24 (at_ Hm0) (at_ smm10_HF) (at_ gamma_f) (at_ q) (at_ g)).
Proof. intros. call_tac. Qed.

Theorem C67_deridder2024_Rc_eq24 : forall Hm0 smm10_HF gamma_f q g,
  reports_call [Hm0; smm10_HF; gamma_f; q; g] [Hm0]
    [fun at_ => outcome (DeRidder2024.calculate_crest_freeboard_discharge_q_eq24 (at_ Hm0) (at_ smm10_HF) (at_ gamma_f) (at_ q) (at_ g))]
    (ArrDeRidder2024.calculate_crest_freeboard_discharge_q_eq24 Hm0 smm10_HF gamma_f q g)
    (fun at_ => DeRidder2024.calculate_crest_freeboard_discharge_q_eq24 (at_ Hm0) (at_ smm10_HF) (at_ gamma_f) (at_ q) (at_ g)).
Proof. intros. call_tac. Qed.

Theorem C67_deridder2024_Rc_eq26 : forall Hm0 smm10_HF Hm0_LF gamma_f q g,
  reports_call [Hm0; smm10_HF; Hm0_LF; gamma_f; q; g] [Hm0; Hm0_LF]
    [fun at_ => outcome (DeRidder2024.calculate_crest_freeboard_discharge_q_eq26 (at_ Hm0) (at_ smm10_HF) (at_ Hm0_LF) (at_ gamma_f) (at_ q) (at_ g))]
    (ArrDeRidder2024.calculate_crest_freeboard_discharge_q_eq26 Hm0 smm10_HF Hm0_LF gamma_f q g)
    (fun at_ => DeRidder2024.calculate_crest_freeboard_discharge_q_eq26 (at_ Hm0) (at_ smm10_HF) (at_ Hm0_LF) (at_ gamma_f) (at_ q) (at_ g)).
Proof. intros. call_tac. Qed.

Theorem C67_deridder2024_dimless_q_eq24 : forall Hm0 smm10_HF gamma_f Rc,
  reports_call [Hm0; smm10_HF; gamma_f; Rc] [Hm0; Rc] []
    (ArrDeRidder2024.calculate_dimensionless_overtopping_discharge_eq24 Hm0 smm10_HF gamma_f Rc)
    (fun at_ => DeRidder2024.calculate_dimensionless_overtopping_discharge_eq24 (at_ Hm0) (at_ smm10_HF) (at_ gamma_f) (at_ Rc)).
Proof. intros. call_tac. Qed.

Theorem C67_deridder2024_q_eq24 : forall Hm0 smm10_HF gamma_f Rc g,
  reports_call [Hm0; smm10_HF; gamma_f; Rc; g] [Hm0; Rc] []
    (ArrDeRidder2024.calculate_overtopping_discharge_q_eq24 Hm0 smm10_HF gamma_f Rc g)
    (fun at_ => DeRidder2024.calculate_overtopping_discharge_q_eq24 (at_ Hm0) (at_ smm10_HF) (at_ gamma_f) (at_ Rc) (at_ g)).
Proof. intros. call_tac. Qed.

Theorem C67_deridder2024_dimless_q_eq26 : forall Hm0 smm10_HF Hm0_LF gamma_f Rc,
  reports_call [Hm0; smm10_HF; Hm0_LF; gamma_f; Rc] [Hm0; Hm0_LF; Rc] []
    (ArrDeRidder2024.calculate_dimensionless_overtopping_discharge_eq26 Hm0 smm10_HF Hm0_LF gamma_f Rc)
    (fun at_ => DeRidder2024.calculate_dimensionless_overtopping_discharge_eq26 (at_ Hm0) (at_ smm10_HF) (at_ Hm0_LF) (at_ gamma_f) (at_ Rc)).
Proof. intros. call_tac. Qed.

Theorem C67_deridder2024_q_eq26 : forall Hm0 smm10_HF Hm0_LF gamma_f Rc g,
  reports_call [Hm0; smm10_HF; Hm0_LF; gamma_f; Rc; g] [Hm0; Hm0_LF; Rc] []
    (ArrDeRidder2024.calculate_overtopping_discharge_q_eq26 Hm0 smm10_HF Hm0_LF gamma_f Rc g)
    (fun at_ => DeRidder2024.calculate_overtopping_discharge_q_eq26 (at_ Hm0) (at_ smm10_HF) (at_ Hm0_LF) (at_ gamma_f) (at_ Rc) (at_ g)).
Proof. intros. call_tac. Qed.

Theorem C67_deridder2026_dimless_q_eq28 : forall Hm0 smm10_HF gamma_f Rc theta,
  reports_call [Hm0; smm10_HF; gamma_f; Rc; theta] [Hm0; Rc; theta] []
    (ArrDeRidder2026.calculate_dimensionless_overtopping_discharge_eq28 Hm0 smm10_HF gamma_f Rc theta)
    (fun at_ => DeRidder2026.calculate_dimensionless_overtopping_discharge_eq28 (at_ Hm0) (at_ smm10_HF) (at_ gamma_f) (at_ Rc) (at_ theta)).
Proof. intros. call_tac. Qed.

Theorem C67_deridder2026_q_eq28 : forall Hm0 smm10_HF gamma_f Rc g theta,
  reports_call [Hm0; smm10_HF; gamma_f; Rc; g; theta] [Hm0; Rc; theta] []
    (ArrDeRidder2026.calculate_overtopping_discharge_q_eq28 Hm0 smm10_HF gamma_f Rc g theta)
    (fun at_ => DeRidder2026.calculate_overtopping_discharge_q_eq28 (at_ Hm0) (at_ smm10_HF) (at_ gamma_f) (at_ Rc) (at_ g) (at_ theta)).
Proof. intros. call_tac. Qed.

Theorem C67_deridder2026_dimless_q_eq32 : forall Hm0_HF smm10_HF Hm0_LF gamma_f Rc theta,
  reports_call [Hm0_HF; smm10_HF; Hm0_LF; gamma_f; Rc; theta] [Hm0_HF; Hm0_LF; Rc; theta] []
    (ArrDeRidder2026.calculate_dimensionless_overtopping_discharge_eq32 Hm0_HF smm10_HF Hm0_LF gamma_f Rc theta)
    (fun at_ => DeRidder2026.calculate_dimensionless_overtopping_discharge_eq32 (at_ Hm0_HF) (at_ smm10_HF) (at_ Hm0_LF) (at_ gamma_f) (at_ Rc) (at_ theta)).
Proof. intros. call_tac. Qed.

Theorem C67_deridder2026_q_eq32 : forall Hm0_HF smm10_HF Hm0_LF gamma_f Rc g theta,
  reports_call [Hm0_HF; smm10_HF; Hm0_LF; gamma_f; Rc; g; theta] [Hm0_HF; Hm0_LF; Rc; theta] []
    (ArrDeRidder2026.calculate_overtopping_discharge_q_eq32 Hm0_HF smm10_HF Hm0_LF gamma_f Rc g theta)
    (fun at_ => DeRidder2026.calculate_overtopping_discharge_q_eq32 (at_ Hm0_HF) (at_ smm10_HF) (at_ Hm0_LF) (at_ gamma_f) (at_ Rc) (at_ g) (at_ theta)).
Proof. intros. call_tac. Qed.
