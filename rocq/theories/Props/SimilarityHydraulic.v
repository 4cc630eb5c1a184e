(** C76: run-up, overtopping, transmission and set-up on another scale *)
From Coq Require Import Reals Lra Lia Bool ZArith String List.
From Verif.Lib Require Import Num Monad RTac NTac.
From Verif.Spec Require Import Similarity Waves.
From Verif.Model Require Import CoreUtility CorePhysics.
From Verif.Model Require VanGent2001 RunupTAW2002 RunupEurotop2018 OvertoppingTAW2002 OvertoppingEurotop2007 OvertoppingEurotop2018 VanGent2021Caisson VanGent2025
  DeRidder2024 DeRidder2026 DAngremond1996 Briganti2003 Goda1967 VanGent2024Setup CrestWall2019.
From Verif.Proofs Require Import Core Similarity SimilarityLoops.
Open Scope R_scope.

(** Run-up *)
Theorem C76_vangent2001 l : 0 < l -> 
  (forall H Tmm10 gamma cot_alpha c0 c1, VanGent2001.calculate_wave_runup_height_zXp (distance l H) (time l Tmm10) gamma cot_alpha c0 c1 = distance l (VanGent2001.calculate_wave_runup_height_zXp H Tmm10 gamma cot_alpha c0 c1)) /\
  (forall Hs Tmm10 gamma cot_alpha c0 c1, VanGent2001.calculate_wave_runup_height_z1p (distance l Hs) (time l Tmm10) gamma cot_alpha c0 c1 = distance l (VanGent2001.calculate_wave_runup_height_z1p Hs Tmm10 gamma cot_alpha c0 c1)) /\
  (forall Hs Tmm10 gamma cot_alpha c0 c1, VanGent2001.calculate_wave_runup_height_z10p (distance l Hs) (time l Tmm10) gamma cot_alpha c0 c1 = distance l (VanGent2001.calculate_wave_runup_height_z10p Hs Tmm10 gamma cot_alpha c0 c1)) /\
  (forall Hs_i0 z1p Tmm10 gamma cot_alpha c0 c1, VanGent2001.invert_for_Hs (distance l Hs_i0) (distance l z1p) (time l Tmm10) gamma cot_alpha c0 c1 = distance l (VanGent2001.invert_for_Hs Hs_i0 z1p Tmm10 gamma cot_alpha c0 c1)) /\
  (forall Tmm10 gamma cot_alpha Hm0 Hs c0 c1, similar (distance l)
     (VanGent2001.calculate_wave_runup_height_z2p (time l Tmm10) gamma cot_alpha (distance l Hm0) (distance l Hs) c0 c1)
     (VanGent2001.calculate_wave_runup_height_z2p Tmm10 gamma cot_alpha Hm0 Hs c0 c1)).
Proof.
  intros L.
  split; [intros; pose proof Rlt_0_1; start l 1; pure|].
  split; [intros; pose proof Rlt_0_1; start l 1; pure|].
  split; [intros; pose proof Rlt_0_1; start l 1; pure|].
  split; [intros; pose proof Rlt_0_1; start l 1; pure|].
  intros; pose proof Rlt_0_1; apply sim_similar; start l 1; sims.
Qed.

(** Transmission *)
Theorem C76_dangremond1996 l : 0 < l -> 
  (forall Hsi Tpi h Rc B cot_alpha C1 (do_validity_check : bool), similar same
     (DAngremond1996.calculate_wave_transmission_Kt_permeable (distance l Hsi) (time l Tpi) (distance l h) (distance l Rc) (distance l B) cot_alpha C1 do_validity_check)
     (DAngremond1996.calculate_wave_transmission_Kt_permeable Hsi Tpi h Rc B cot_alpha C1 do_validity_check)) /\
  (forall Hsi Tpi h Rc B cot_alpha C1, similar same
     (DAngremond1996.calculate_wave_transmission_Kt_impermeable (distance l Hsi) (time l Tpi) (distance l h) (distance l Rc) (distance l B) cot_alpha C1)
     (DAngremond1996.calculate_wave_transmission_Kt_impermeable Hsi Tpi h Rc B cot_alpha C1)).
Proof.
  intros L.
  split; [intros; pose proof Rlt_0_1; apply sim_similar; start l 1; sims|].
  intros; pose proof Rlt_0_1; apply sim_similar; start l 1; sims.
Qed.

Theorem C76_briganti2003 l : 0 < l -> 
  (forall Hsi Tpi Rc B cot_alpha, similar same
     (Briganti2003.calculate_wave_transmission_Kt (distance l Hsi) (time l Tpi) (distance l Rc) (distance l B) cot_alpha)
     (Briganti2003.calculate_wave_transmission_Kt Hsi Tpi Rc B cot_alpha)).
Proof.
  intros L.
  intros; pose proof Rlt_0_1; apply sim_similar; start l 1; sims.
Qed.

Theorem C76_goda1967 l : 0 < l -> 
  (forall Hsi Rc alpha_1 beta_1, Goda1967.calculate_wave_transmission_Kt (distance l Hsi) (distance l Rc) alpha_1 beta_1 = Goda1967.calculate_wave_transmission_Kt Hsi Rc alpha_1 beta_1).
Proof.
  intros L.
  intros; pose proof Rlt_0_1; start l 1; unfold Goda1967.calculate_wave_transmission_Kt; replace (sc l 1 1 0 Rc / sc l 1 1 0 Hsi)%num with (Rc / Hsi)%num by (symmetry; plain); reflexivity.
Qed.

Theorem C76_vangent2024_setup l : 0 < l -> 
  (forall Hm0 Tmm10 Rc, similar same
     (VanGent2024Setup.calculate_dimensionless_structure_induced_setup_impermeable (distance l Hm0) (time l Tmm10) (distance l Rc))
     (VanGent2024Setup.calculate_dimensionless_structure_induced_setup_impermeable Hm0 Tmm10 Rc)) /\
  (forall Hm0 Tmm10 Rc, similar (distance l)
     (VanGent2024Setup.calculate_structure_induced_setup_delta_impermeable (distance l Hm0) (time l Tmm10) (distance l Rc))
     (VanGent2024Setup.calculate_structure_induced_setup_delta_impermeable Hm0 Tmm10 Rc)) /\
  (forall Hm0 Tmm10 Rc hc, similar same
     (VanGent2024Setup.calculate_dimensionless_structure_induced_setup_permeable (distance l Hm0) (time l Tmm10) (distance l Rc) (distance l hc))
     (VanGent2024Setup.calculate_dimensionless_structure_induced_setup_permeable Hm0 Tmm10 Rc hc)) /\
  (forall Hm0 Tmm10 Rc hc, similar (distance l)
     (VanGent2024Setup.calculate_structure_induced_setup_delta_permeable (distance l Hm0) (time l Tmm10) (distance l Rc) (distance l hc))
     (VanGent2024Setup.calculate_structure_induced_setup_delta_permeable Hm0 Tmm10 Rc hc)).
Proof.
  intros L.
  split; [intros; pose proof Rlt_0_1; apply sim_similar; start l 1; sims|].
  split; [intros; pose proof Rlt_0_1; apply sim_similar; start l 1; sims|].
  split; [intros; pose proof Rlt_0_1; apply sim_similar; start l 1; sims|].
  intros; pose proof Rlt_0_1; apply sim_similar; start l 1; sims.
Qed.

(** Overtopping *)
Theorem C76_eurotop2007 l : 0 < l -> 
  (forall Hm0 Tmm10 Rc beta gamma_beta gamma_f cot_alpha c2 c3 (use_best_fit : bool), similar same
     (OvertoppingEurotop2007.calculate_dimensionless_overtopping_discharge_q_rubble_mound (distance l Hm0) (time l Tmm10) (distance l Rc) beta gamma_beta gamma_f cot_alpha c2 c3 use_best_fit)
     (OvertoppingEurotop2007.calculate_dimensionless_overtopping_discharge_q_rubble_mound Hm0 Tmm10 Rc beta gamma_beta gamma_f cot_alpha c2 c3 use_best_fit)) /\
  (forall Hm0 Tmm10 Rc beta gamma_beta gamma_f cot_alpha c2 c3 (use_best_fit : bool) g, similar (discharge l)
     (OvertoppingEurotop2007.calculate_overtopping_discharge_q_rubble_mound (distance l Hm0) (time l Tmm10) (distance l Rc) beta gamma_beta gamma_f cot_alpha c2 c3 use_best_fit g)
     (OvertoppingEurotop2007.calculate_overtopping_discharge_q_rubble_mound Hm0 Tmm10 Rc beta gamma_beta gamma_f cot_alpha c2 c3 use_best_fit g)) /\
  (forall Hm0 Tmm10 q beta gamma_beta gamma_f cot_alpha c2 c3 (use_best_fit : bool), similar same
     (OvertoppingEurotop2007.calculate_dimensionless_crest_freeboard_rubble_mound (distance l Hm0) (time l Tmm10) (discharge l q) beta gamma_beta gamma_f cot_alpha c2 c3 use_best_fit)
     (OvertoppingEurotop2007.calculate_dimensionless_crest_freeboard_rubble_mound Hm0 Tmm10 q beta gamma_beta gamma_f cot_alpha c2 c3 use_best_fit)) /\
  (forall Hm0 Tmm10 q beta gamma_beta gamma_f cot_alpha c2 c3 (use_best_fit : bool), similar (distance l)
     (OvertoppingEurotop2007.calculate_crest_freeboard_Rc_rubble_mound (distance l Hm0) (time l Tmm10) (discharge l q) beta gamma_beta gamma_f cot_alpha c2 c3 use_best_fit)
     (OvertoppingEurotop2007.calculate_crest_freeboard_Rc_rubble_mound Hm0 Tmm10 q beta gamma_beta gamma_f cot_alpha c2 c3 use_best_fit)).
Proof.
  intros L.
  split; [intros; pose proof Rlt_0_1; apply sim_similar; start l 1; sims|].
  split; [intros; pose proof Rlt_0_1; apply sim_similar; start l 1; sims|].
  split; [intros; pose proof Rlt_0_1; apply sim_similar; start l 1; sims|].
  intros; pose proof Rlt_0_1; apply sim_similar; start l 1; sims.
Qed.

Theorem C76_vangent2021_caisson l : 0 < l -> 
  (forall Hm0 Rc beta gamma_beta Hm0_swell c c_swell (short_crested_waves : bool) (crossing_seas : bool) (parapet : bool), similar same
     (VanGent2021Caisson.calculate_dimensionless_overtopping_discharge_q (distance l Hm0) (distance l Rc) beta gamma_beta (distance l Hm0_swell) c c_swell short_crested_waves crossing_seas parapet)
     (VanGent2021Caisson.calculate_dimensionless_overtopping_discharge_q Hm0 Rc beta gamma_beta Hm0_swell c c_swell short_crested_waves crossing_seas parapet)) /\
  (forall Hm0 Rc beta gamma_beta Hm0_swell c c_swell (short_crested_waves : bool) (crossing_seas : bool) (parapet : bool) g, similar (discharge l)
     (VanGent2021Caisson.calculate_overtopping_discharge_q (distance l Hm0) (distance l Rc) beta gamma_beta (distance l Hm0_swell) c c_swell short_crested_waves crossing_seas parapet g)
     (VanGent2021Caisson.calculate_overtopping_discharge_q Hm0 Rc beta gamma_beta Hm0_swell c c_swell short_crested_waves crossing_seas parapet g)) /\
  (forall Hm0 q beta gamma_beta Hm0_swell c c_swell (short_crested_waves : bool) (crossing_seas : bool) (parapet : bool) g, similar same
     (VanGent2021Caisson.calculate_dimensionless_crest_freeboard (distance l Hm0) (discharge l q) beta gamma_beta (distance l Hm0_swell) c c_swell short_crested_waves crossing_seas parapet g)
     (VanGent2021Caisson.calculate_dimensionless_crest_freeboard Hm0 q beta gamma_beta Hm0_swell c c_swell short_crested_waves crossing_seas parapet g)) /\
  (forall Hm0 q beta gamma_beta Hm0_swell c c_swell (short_crested_waves : bool) (crossing_seas : bool) (parapet : bool) g, similar (distance l)
     (VanGent2021Caisson.calculate_crest_freeboard_Rc (distance l Hm0) (discharge l q) beta gamma_beta (distance l Hm0_swell) c c_swell short_crested_waves crossing_seas parapet g)
     (VanGent2021Caisson.calculate_crest_freeboard_Rc Hm0 q beta gamma_beta Hm0_swell c c_swell short_crested_waves crossing_seas parapet g)).
Proof.
  intros L.
  split; [intros; pose proof Rlt_0_1; apply sim_similar; start l 1; sims|].
  split; [intros; pose proof Rlt_0_1; apply sim_similar; start l 1; sims|].
  split; [intros; pose proof Rlt_0_1; apply sim_similar; start l 1; sims|].
  intros; pose proof Rlt_0_1; apply sim_similar; start l 1; sims.
Qed.

Theorem C76_deridder2024 l : 0 < l -> 
  (forall Hm0 smm10_HF gamma_f q g, similar same
     (DeRidder2024.calculate_dimensionless_crest_freeboard_discharge_q_eq24 (distance l Hm0) smm10_HF gamma_f (discharge l q) g)
     (DeRidder2024.calculate_dimensionless_crest_freeboard_discharge_q_eq24 Hm0 smm10_HF gamma_f q g)) /\
  (forall Hm0 smm10_HF gamma_f q g, similar (distance l)
     (DeRidder2024.calculate_crest_freeboard_discharge_q_eq24 (distance l Hm0) smm10_HF gamma_f (discharge l q) g)
     (DeRidder2024.calculate_crest_freeboard_discharge_q_eq24 Hm0 smm10_HF gamma_f q g)) /\
  (forall Hm0 smm10_HF Hm0_LF gamma_f q g, similar (distance l)
     (DeRidder2024.calculate_crest_freeboard_discharge_q_eq26 (distance l Hm0) smm10_HF (distance l Hm0_LF) gamma_f (discharge l q) g)
     (DeRidder2024.calculate_crest_freeboard_discharge_q_eq26 Hm0 smm10_HF Hm0_LF gamma_f q g)) /\
  (forall Hm0 smm10_HF gamma_f Rc, similar same
     (DeRidder2024.calculate_dimensionless_overtopping_discharge_eq24 (distance l Hm0) smm10_HF gamma_f (distance l Rc))
     (DeRidder2024.calculate_dimensionless_overtopping_discharge_eq24 Hm0 smm10_HF gamma_f Rc)) /\
  (forall Hm0 smm10_HF gamma_f Rc g, similar (discharge l)
     (DeRidder2024.calculate_overtopping_discharge_q_eq24 (distance l Hm0) smm10_HF gamma_f (distance l Rc) g)
     (DeRidder2024.calculate_overtopping_discharge_q_eq24 Hm0 smm10_HF gamma_f Rc g)) /\
  (forall Hm0 smm10_HF Hm0_LF gamma_f Rc, similar same
     (DeRidder2024.calculate_dimensionless_overtopping_discharge_eq26 (distance l Hm0) smm10_HF (distance l Hm0_LF) gamma_f (distance l Rc))
     (DeRidder2024.calculate_dimensionless_overtopping_discharge_eq26 Hm0 smm10_HF Hm0_LF gamma_f Rc)) /\
  (forall Hm0 smm10_HF Hm0_LF gamma_f Rc g, similar (discharge l)
     (DeRidder2024.calculate_overtopping_discharge_q_eq26 (distance l Hm0) smm10_HF (distance l Hm0_LF) gamma_f (distance l Rc) g)
     (DeRidder2024.calculate_overtopping_discharge_q_eq26 Hm0 smm10_HF Hm0_LF gamma_f Rc g)).
Proof.
  intros L.
  split; [intros; pose proof Rlt_0_1; apply sim_similar; start l 1; sims|].
  split; [intros; pose proof Rlt_0_1; apply sim_similar; start l 1; sims|].
  split; [intros; pose proof Rlt_0_1; apply sim_similar; start l 1; sims|].
  split; [intros; pose proof Rlt_0_1; apply sim_similar; start l 1; sims|].
  split; [intros; pose proof Rlt_0_1; apply sim_similar; start l 1; sims|].
  split; [intros; pose proof Rlt_0_1; apply sim_similar; start l 1; sims|].
  intros; pose proof Rlt_0_1; apply sim_similar; start l 1; sims.
Qed.

Theorem C76_deridder2026 l : 0 < l -> 
  (forall Hm0 smm10_HF gamma_f q g gamma_beta, DeRidder2026.calculate_dimensionless_crest_freeboard_discharge_q_eq28 (distance l Hm0) smm10_HF gamma_f (discharge l q) g gamma_beta = DeRidder2026.calculate_dimensionless_crest_freeboard_discharge_q_eq28 Hm0 smm10_HF gamma_f q g gamma_beta) /\
  (forall Hm0 smm10_HF gamma_f q g theta, DeRidder2026.calculate_crest_freeboard_discharge_q_eq28 (distance l Hm0) smm10_HF gamma_f (discharge l q) g theta = distance l (DeRidder2026.calculate_crest_freeboard_discharge_q_eq28 Hm0 smm10_HF gamma_f q g theta)) /\
  (forall Hm0_HF smm10_HF Hm0_LF gamma_f q g theta, DeRidder2026.calculate_crest_freeboard_discharge_q_eq32 (distance l Hm0_HF) smm10_HF (distance l Hm0_LF) gamma_f (discharge l q) g theta = distance l (DeRidder2026.calculate_crest_freeboard_discharge_q_eq32 Hm0_HF smm10_HF Hm0_LF gamma_f q g theta)) /\
  (forall Hm0 smm10_HF gamma_f Rc theta, similar same
     (DeRidder2026.calculate_dimensionless_overtopping_discharge_eq28 (distance l Hm0) smm10_HF gamma_f (distance l Rc) theta)
     (DeRidder2026.calculate_dimensionless_overtopping_discharge_eq28 Hm0 smm10_HF gamma_f Rc theta)) /\
  (forall Hm0 smm10_HF gamma_f Rc g theta, similar (discharge l)
     (DeRidder2026.calculate_overtopping_discharge_q_eq28 (distance l Hm0) smm10_HF gamma_f (distance l Rc) g theta)
     (DeRidder2026.calculate_overtopping_discharge_q_eq28 Hm0 smm10_HF gamma_f Rc g theta)) /\
  (forall Hm0_HF smm10_HF Hm0_LF gamma_f Rc theta, similar same
     (DeRidder2026.calculate_dimensionless_overtopping_discharge_eq32 (distance l Hm0_HF) smm10_HF (distance l Hm0_LF) gamma_f (distance l Rc) theta)
     (DeRidder2026.calculate_dimensionless_overtopping_discharge_eq32 Hm0_HF smm10_HF Hm0_LF gamma_f Rc theta)) /\
  (forall Hm0_HF smm10_HF Hm0_LF gamma_f Rc g theta, similar (discharge l)
     (DeRidder2026.calculate_overtopping_discharge_q_eq32 (distance l Hm0_HF) smm10_HF (distance l Hm0_LF) gamma_f (distance l Rc) g theta)
     (DeRidder2026.calculate_overtopping_discharge_q_eq32 Hm0_HF smm10_HF Hm0_LF gamma_f Rc g theta)).
Proof.
  intros L.
  split; [intros; pose proof Rlt_0_1; start l 1; pure|].
  split; [intros; pose proof Rlt_0_1; start l 1; pure|].
  split; [intros; pose proof Rlt_0_1; start l 1; pure|].
  split; [intros; pose proof Rlt_0_1; apply sim_similar; start l 1; sims|].
  split; [intros; pose proof Rlt_0_1; apply sim_similar; start l 1; sims|].
  split; [intros; pose proof Rlt_0_1; apply sim_similar; start l 1; sims|].
  intros; pose proof Rlt_0_1; apply sim_similar; start l 1; sims.
Qed.

Theorem C76_vangent2025 l : 0 < l -> 
  (forall Dn50 Hm0 smm10, VanGent2025.calculate_influence_friction_gamma_f (distance l Dn50) (distance l Hm0) smm10 = VanGent2025.calculate_influence_friction_gamma_f Dn50 Hm0 smm10) /\
  (forall Hm0 smm10 Ac B_berm BL, VanGent2025.calculate_influence_berm_gamma_b (distance l Hm0) smm10 (distance l Ac) (distance l B_berm) (distance l BL) = VanGent2025.calculate_influence_berm_gamma_b Hm0 smm10 Ac B_berm BL) /\
  (forall cot_alpha Rc Ac, VanGent2025.calculate_influence_crest_wall_gamma_v cot_alpha (distance l Rc) (distance l Ac) = VanGent2025.calculate_influence_crest_wall_gamma_v cot_alpha Rc Ac) /\
  (forall Rc Ac Hm0 q_diml, VanGent2025.calculate_influence_wind_gamma_w (distance l Rc) (distance l Ac) (distance l Hm0) q_diml = VanGent2025.calculate_influence_wind_gamma_w Rc Ac Hm0 q_diml) /\
  (forall Hm0 Hm0_swell Tmm10 Rc Ac cot_alpha beta B_berm db Dn50 gamma_f gamma_b gamma_v gamma_beta (design_calculation : bool) (include_influence_wind : bool), similar same
     (VanGent2025.calculate_dimensionless_overtopping_discharge_q (distance l Hm0) (distance l Hm0_swell) (time l Tmm10) (distance l Rc) (distance l Ac) cot_alpha beta (distance l B_berm) (distance l db) (distance l Dn50) gamma_f gamma_b gamma_v gamma_beta design_calculation include_influence_wind)
     (VanGent2025.calculate_dimensionless_overtopping_discharge_q Hm0 Hm0_swell Tmm10 Rc Ac cot_alpha beta B_berm db Dn50 gamma_f gamma_b gamma_v gamma_beta design_calculation include_influence_wind)) /\
  (forall Hm0 Hm0_swell Tmm10 Rc Ac cot_alpha beta B_berm db Dn50 gamma_f gamma_b gamma_v gamma_beta g (design_calculation : bool) (include_influence_wind : bool), similar (discharge l & same)
     (VanGent2025.calculate_overtopping_discharge_q (distance l Hm0) (distance l Hm0_swell) (time l Tmm10) (distance l Rc) (distance l Ac) cot_alpha beta (distance l B_berm) (distance l db) (distance l Dn50) gamma_f gamma_b gamma_v gamma_beta g design_calculation include_influence_wind)
     (VanGent2025.calculate_overtopping_discharge_q Hm0 Hm0_swell Tmm10 Rc Ac cot_alpha beta B_berm db Dn50 gamma_f gamma_b gamma_v gamma_beta g design_calculation include_influence_wind)) /\
  (forall Hm0 Hm0_swell Tmm10 q Ac cot_alpha beta B_berm db Dn50 gamma_f gamma_b gamma_v gamma_beta g (design_calculation : bool) (include_influence_wind : bool) (max_iter : nat) tolerance, similar same
     (VanGent2025.calculate_dimensionless_crest_freeboard (distance l Hm0) (distance l Hm0_swell) (time l Tmm10) (discharge l q) (distance l Ac) cot_alpha beta (distance l B_berm) (distance l db) (distance l Dn50) gamma_f gamma_b gamma_v gamma_beta g design_calculation include_influence_wind max_iter tolerance)
     (VanGent2025.calculate_dimensionless_crest_freeboard Hm0 Hm0_swell Tmm10 q Ac cot_alpha beta B_berm db Dn50 gamma_f gamma_b gamma_v gamma_beta g design_calculation include_influence_wind max_iter tolerance)) /\
  (forall Hm0 Hm0_swell Tmm10 q Ac cot_alpha beta B_berm db Dn50 gamma_f gamma_b gamma_v gamma_beta (design_calculation : bool) (include_influence_wind : bool), similar (distance l & same)
     (VanGent2025.calculate_crest_freeboard_Rc (distance l Hm0) (distance l Hm0_swell) (time l Tmm10) (discharge l q) (distance l Ac) cot_alpha beta (distance l B_berm) (distance l db) (distance l Dn50) gamma_f gamma_b gamma_v gamma_beta design_calculation include_influence_wind)
     (VanGent2025.calculate_crest_freeboard_Rc Hm0 Hm0_swell Tmm10 q Ac cot_alpha beta B_berm db Dn50 gamma_f gamma_b gamma_v gamma_beta design_calculation include_influence_wind)).
Proof.
  intros L.
  split; [intros; pose proof Rlt_0_1; start l 1; pure|].
  split; [intros; pose proof Rlt_0_1; start l 1; pure|].
  split; [intros; pose proof Rlt_0_1; start l 1; pure|].
  split; [intros; pose proof Rlt_0_1; start l 1; pure|].
  split; [intros; pose proof Rlt_0_1; apply sim_similar; start l 1; sims|].
  split; [intros; pose proof Rlt_0_1; apply sim_similar; start l 1; sims|].
  split; [intros; pose proof Rlt_0_1; apply sim_similar; start l 1; sims|].
  intros; pose proof Rlt_0_1; apply sim_similar; start l 1; sims.
Qed.

(** Slopes without a berm between two slopes: a single slope is given. *)
Theorem C76_runup_taw2002 l : 0 < l -> forall Hm0 Tmm10 beta gamma_beta gamma_b gamma_f B_berm db cot_alpha cot_alpha_down cot_alpha_up c1 c2 c3 c4 (use_best_fit : bool), straight cot_alpha_down cot_alpha_up ->
  similar same
    (RunupTAW2002.calculate_dimensionless_wave_runup_height_z2p (distance l Hm0) (time l Tmm10) beta gamma_beta gamma_b gamma_f (distance l B_berm) (distance l db) cot_alpha cot_alpha_down cot_alpha_up c1 c2 c3 c4 use_best_fit)
    (RunupTAW2002.calculate_dimensionless_wave_runup_height_z2p Hm0 Tmm10 beta gamma_beta gamma_b gamma_f B_berm db cot_alpha cot_alpha_down cot_alpha_up c1 c2 c3 c4 use_best_fit) /\
  similar (distance l & same)
    (RunupTAW2002.calculate_wave_runup_height_z2p (distance l Hm0) (time l Tmm10) beta gamma_beta gamma_b gamma_f (distance l B_berm) (distance l db) cot_alpha cot_alpha_down cot_alpha_up c1 c2 c3 c4 use_best_fit)
    (RunupTAW2002.calculate_wave_runup_height_z2p Hm0 Tmm10 beta gamma_beta gamma_b gamma_f B_berm db cot_alpha cot_alpha_down cot_alpha_up c1 c2 c3 c4 use_best_fit).
Proof.
  intros L; intros; pose proof Rlt_0_1. split; apply sim_similar; start l 1; sims.
Qed.
(** The iteration procedures, with a tolerance on the same scale. *)
Theorem C76_runup_taw2002_iteration l : 0 < l ->
  (forall Hm0 Tmm10 cot_alpha_down cot_alpha_up B_berm db gamma_f gamma_beta c1 c2 c3 c4 (use_best_fit : bool) tolerance (max_iter : nat), similar (distance l)
    (RunupTAW2002.iteration_procedure_z2p (distance l Hm0) (time l Tmm10) cot_alpha_down cot_alpha_up (distance l B_berm) (distance l db) gamma_f gamma_beta c1 c2 c3 c4 use_best_fit (distance l tolerance) max_iter)
    (RunupTAW2002.iteration_procedure_z2p Hm0 Tmm10 cot_alpha_down cot_alpha_up B_berm db gamma_f gamma_beta c1 c2 c3 c4 use_best_fit tolerance max_iter)) /\
  (forall Hm0 Tmm10 cot_alpha_average B_berm L_berm db gamma_beta c1 c2 c3 c4 (use_best_fit : bool) gamma_f, similar same
    (RunupTAW2002.iteration_procedure_gamma_b (distance l Hm0) (time l Tmm10) cot_alpha_average (distance l B_berm) (distance l L_berm) (distance l db) gamma_beta c1 c2 c3 c4 use_best_fit gamma_f)
    (RunupTAW2002.iteration_procedure_gamma_b Hm0 Tmm10 cot_alpha_average B_berm L_berm db gamma_beta c1 c2 c3 c4 use_best_fit gamma_f)).
Proof.
  intros L. pose proof Rlt_0_1. split; intros; apply sim_similar; start l 1; sims.
Qed.

Theorem C76_runup_eurotop2018 l : 0 < l -> 
  (forall Hm0 Tmm10 beta gamma_beta gamma_b gamma_f B_berm db cot_alpha cot_alpha_down cot_alpha_up c1 c2 c3 c4 (use_best_fit : bool), straight cot_alpha_down cot_alpha_up -> similar same
     (RunupEurotop2018.calculate_dimensionless_wave_runup_height_z2p (distance l Hm0) (time l Tmm10) beta gamma_beta gamma_b gamma_f (distance l B_berm) (distance l db) cot_alpha cot_alpha_down cot_alpha_up c1 c2 c3 c4 use_best_fit)
     (RunupEurotop2018.calculate_dimensionless_wave_runup_height_z2p Hm0 Tmm10 beta gamma_beta gamma_b gamma_f B_berm db cot_alpha cot_alpha_down cot_alpha_up c1 c2 c3 c4 use_best_fit)) /\
  (forall Hm0 Tmm10 beta gamma_beta gamma_b gamma_f B_berm db cot_alpha cot_alpha_down cot_alpha_up c1 c2 c3 c4 (use_best_fit : bool), straight cot_alpha_down cot_alpha_up -> similar (distance l & same)
     (RunupEurotop2018.calculate_wave_runup_height_z2p (distance l Hm0) (time l Tmm10) beta gamma_beta gamma_b gamma_f (distance l B_berm) (distance l db) cot_alpha cot_alpha_down cot_alpha_up c1 c2 c3 c4 use_best_fit)
     (RunupEurotop2018.calculate_wave_runup_height_z2p Hm0 Tmm10 beta gamma_beta gamma_b gamma_f B_berm db cot_alpha cot_alpha_down cot_alpha_up c1 c2 c3 c4 use_best_fit)).
Proof.
  intros L.
  split; [intros; pose proof Rlt_0_1; apply sim_similar; start l 1; sims|].
  intros; pose proof Rlt_0_1; apply sim_similar; start l 1; sims.
Qed.

Theorem C76_runup_eurotop2018_iteration l : 0 < l -> 
  (forall Hm0 Tmm10 cot_alpha_down cot_alpha_up B_berm db gamma_f gamma_beta c1 c2 c3 c4 (use_best_fit : bool) tolerance (max_iter : nat), similar (distance l)
     (RunupEurotop2018.iteration_procedure_z2p (distance l Hm0) (time l Tmm10) cot_alpha_down cot_alpha_up (distance l B_berm) (distance l db) gamma_f gamma_beta c1 c2 c3 c4 use_best_fit (distance l tolerance) max_iter)
     (RunupEurotop2018.iteration_procedure_z2p Hm0 Tmm10 cot_alpha_down cot_alpha_up B_berm db gamma_f gamma_beta c1 c2 c3 c4 use_best_fit tolerance max_iter)) /\
  (forall Hm0 Tmm10 cot_alpha_average B_berm L_berm db gamma_beta c1 c2 c3 c4 (use_best_fit : bool) gamma_f, similar same
     (RunupEurotop2018.iteration_procedure_gamma_b (distance l Hm0) (time l Tmm10) cot_alpha_average (distance l B_berm) (distance l L_berm) (distance l db) gamma_beta c1 c2 c3 c4 use_best_fit gamma_f)
     (RunupEurotop2018.iteration_procedure_gamma_b Hm0 Tmm10 cot_alpha_average B_berm L_berm db gamma_beta c1 c2 c3 c4 use_best_fit gamma_f)).
Proof.
  intros L.
  split; [intros; pose proof Rlt_0_1; apply sim_similar; start l 1; sims|].
  intros; pose proof Rlt_0_1; apply sim_similar; start l 1; sims.
Qed.

Theorem C76_overtopping_taw2002 l : 0 < l -> 
  (forall Hm0 Tmm10 Rc cot_alpha cot_alpha_down cot_alpha_up beta B_berm db gamma_beta gamma_b gamma_f gamma_v sigma (use_best_fit : bool), straight cot_alpha_down cot_alpha_up -> similar same
     (OvertoppingTAW2002.calculate_dimensionless_overtopping_discharge_q (distance l Hm0) (time l Tmm10) (distance l Rc) cot_alpha cot_alpha_down cot_alpha_up beta (distance l B_berm) (distance l db) gamma_beta gamma_b gamma_f gamma_v sigma use_best_fit)
     (OvertoppingTAW2002.calculate_dimensionless_overtopping_discharge_q Hm0 Tmm10 Rc cot_alpha cot_alpha_down cot_alpha_up beta B_berm db gamma_beta gamma_b gamma_f gamma_v sigma use_best_fit)) /\
  (forall Hm0 Tmm10 Rc cot_alpha cot_alpha_down cot_alpha_up beta B_berm db gamma_beta gamma_b gamma_f gamma_v sigma g (use_best_fit : bool), straight cot_alpha_down cot_alpha_up -> similar (discharge l & same)
     (OvertoppingTAW2002.calculate_overtopping_discharge_q (distance l Hm0) (time l Tmm10) (distance l Rc) cot_alpha cot_alpha_down cot_alpha_up beta (distance l B_berm) (distance l db) gamma_beta gamma_b gamma_f gamma_v sigma g use_best_fit)
     (OvertoppingTAW2002.calculate_overtopping_discharge_q Hm0 Tmm10 Rc cot_alpha cot_alpha_down cot_alpha_up beta B_berm db gamma_beta gamma_b gamma_f gamma_v sigma g use_best_fit)) /\
  (forall Hm0 Tmm10 q cot_alpha cot_alpha_down cot_alpha_up beta B_berm db gamma_beta gamma_b gamma_f gamma_v sigma g (use_best_fit : bool), straight cot_alpha_down cot_alpha_up -> similar same
     (OvertoppingTAW2002.calculate_dimensionless_crest_freeboard (distance l Hm0) (time l Tmm10) (discharge l q) cot_alpha cot_alpha_down cot_alpha_up beta (distance l B_berm) (distance l db) gamma_beta gamma_b gamma_f gamma_v sigma g use_best_fit)
     (OvertoppingTAW2002.calculate_dimensionless_crest_freeboard Hm0 Tmm10 q cot_alpha cot_alpha_down cot_alpha_up beta B_berm db gamma_beta gamma_b gamma_f gamma_v sigma g use_best_fit)) /\
  (forall Hm0 Tmm10 q cot_alpha cot_alpha_down cot_alpha_up beta B_berm db gamma_beta gamma_b gamma_f gamma_v sigma g (use_best_fit : bool), straight cot_alpha_down cot_alpha_up -> similar (distance l & same)
     (OvertoppingTAW2002.calculate_crest_freeboard_Rc (distance l Hm0) (time l Tmm10) (discharge l q) cot_alpha cot_alpha_down cot_alpha_up beta (distance l B_berm) (distance l db) gamma_beta gamma_b gamma_f gamma_v sigma g use_best_fit)
     (OvertoppingTAW2002.calculate_crest_freeboard_Rc Hm0 Tmm10 q cot_alpha cot_alpha_down cot_alpha_up beta B_berm db gamma_beta gamma_b gamma_f gamma_v sigma g use_best_fit)).
Proof.
  intros L.
  split; [intros; pose proof Rlt_0_1; apply sim_similar; start l 1; sims|].
  split; [intros; pose proof Rlt_0_1; apply sim_similar; start l 1; sims|].
  split; [intros; pose proof Rlt_0_1; apply sim_similar; start l 1; sims|].
  intros; pose proof Rlt_0_1; apply sim_similar; start l 1; sims.
Qed.

Theorem C76_overtopping_eurotop2018 l : 0 < l -> 
  (forall Hm0 Tmm10 Rc beta gamma_beta gamma_b gamma_f gamma_v gamma_star B_berm db cot_alpha cot_alpha_down cot_alpha_up c1 c2 c3 c4 (use_best_fit : bool), straight cot_alpha_down cot_alpha_up -> similar same
     (OvertoppingEurotop2018.calculate_dimensionless_overtopping_discharge_q (distance l Hm0) (time l Tmm10) (distance l Rc) beta gamma_beta gamma_b gamma_f gamma_v gamma_star (distance l B_berm) (distance l db) cot_alpha cot_alpha_down cot_alpha_up c1 c2 c3 c4 use_best_fit)
     (OvertoppingEurotop2018.calculate_dimensionless_overtopping_discharge_q Hm0 Tmm10 Rc beta gamma_beta gamma_b gamma_f gamma_v gamma_star B_berm db cot_alpha cot_alpha_down cot_alpha_up c1 c2 c3 c4 use_best_fit)) /\
  (forall Hm0 Tmm10 Rc beta gamma_beta gamma_b gamma_f gamma_v gamma_star B_berm db cot_alpha cot_alpha_down cot_alpha_up c1 c2 c3 c4 (use_best_fit : bool) g, straight cot_alpha_down cot_alpha_up -> similar (discharge l & same)
     (OvertoppingEurotop2018.calculate_overtopping_discharge_q (distance l Hm0) (time l Tmm10) (distance l Rc) beta gamma_beta gamma_b gamma_f gamma_v gamma_star (distance l B_berm) (distance l db) cot_alpha cot_alpha_down cot_alpha_up c1 c2 c3 c4 use_best_fit g)
     (OvertoppingEurotop2018.calculate_overtopping_discharge_q Hm0 Tmm10 Rc beta gamma_beta gamma_b gamma_f gamma_v gamma_star B_berm db cot_alpha cot_alpha_down cot_alpha_up c1 c2 c3 c4 use_best_fit g)) /\
  (forall Hm0 Tmm10 q beta gamma_beta gamma_b gamma_f gamma_v gamma_star B_berm db cot_alpha cot_alpha_down cot_alpha_up c1 c2 c3 c4 (use_best_fit : bool) g, straight cot_alpha_down cot_alpha_up -> similar same
     (OvertoppingEurotop2018.calculate_dimensionless_crest_freeboard (distance l Hm0) (time l Tmm10) (discharge l q) beta gamma_beta gamma_b gamma_f gamma_v gamma_star (distance l B_berm) (distance l db) cot_alpha cot_alpha_down cot_alpha_up c1 c2 c3 c4 use_best_fit g)
     (OvertoppingEurotop2018.calculate_dimensionless_crest_freeboard Hm0 Tmm10 q beta gamma_beta gamma_b gamma_f gamma_v gamma_star B_berm db cot_alpha cot_alpha_down cot_alpha_up c1 c2 c3 c4 use_best_fit g)) /\
  (forall Hm0 Tmm10 q beta gamma_beta gamma_b gamma_f gamma_v gamma_star B_berm db cot_alpha cot_alpha_down cot_alpha_up c1 c2 c3 c4 (use_best_fit : bool) g, straight cot_alpha_down cot_alpha_up -> similar (distance l & same)
     (OvertoppingEurotop2018.calculate_crest_freeboard_Rc (distance l Hm0) (time l Tmm10) (discharge l q) beta gamma_beta gamma_b gamma_f gamma_v gamma_star (distance l B_berm) (distance l db) cot_alpha cot_alpha_down cot_alpha_up c1 c2 c3 c4 use_best_fit g)
     (OvertoppingEurotop2018.calculate_crest_freeboard_Rc Hm0 Tmm10 q beta gamma_beta gamma_b gamma_f gamma_v gamma_star B_berm db cot_alpha cot_alpha_down cot_alpha_up c1 c2 c3 c4 use_best_fit g)).
Proof.
  intros L.
  split; [intros; pose proof Rlt_0_1; apply sim_similar; start l 1; sims|].
  split; [intros; pose proof Rlt_0_1; apply sim_similar; start l 1; sims|].
  split; [intros; pose proof Rlt_0_1; apply sim_similar; start l 1; sims|].
  intros; pose proof Rlt_0_1; apply sim_similar; start l 1; sims.
Qed.

Theorem C76_overtopping_eurotop2018_rubble_mound l : 0 < l -> 
  (forall Hm0 Tmm10 Rc beta gamma_beta gamma_f B_berm db cot_alpha cot_alpha_down cot_alpha_up c2 c3 (use_best_fit : bool), straight cot_alpha_down cot_alpha_up -> similar same
     (OvertoppingEurotop2018.calculate_dimensionless_overtopping_discharge_q_rubble_mound (distance l Hm0) (time l Tmm10) (distance l Rc) beta gamma_beta gamma_f (distance l B_berm) (distance l db) cot_alpha cot_alpha_down cot_alpha_up c2 c3 use_best_fit)
     (OvertoppingEurotop2018.calculate_dimensionless_overtopping_discharge_q_rubble_mound Hm0 Tmm10 Rc beta gamma_beta gamma_f B_berm db cot_alpha cot_alpha_down cot_alpha_up c2 c3 use_best_fit)) /\
  (forall Hm0 Tmm10 Rc beta gamma_beta gamma_f B_berm db cot_alpha cot_alpha_down cot_alpha_up c2 c3 (use_best_fit : bool) g, straight cot_alpha_down cot_alpha_up -> similar (discharge l)
     (OvertoppingEurotop2018.calculate_overtopping_discharge_q_rubble_mound (distance l Hm0) (time l Tmm10) (distance l Rc) beta gamma_beta gamma_f (distance l B_berm) (distance l db) cot_alpha cot_alpha_down cot_alpha_up c2 c3 use_best_fit g)
     (OvertoppingEurotop2018.calculate_overtopping_discharge_q_rubble_mound Hm0 Tmm10 Rc beta gamma_beta gamma_f B_berm db cot_alpha cot_alpha_down cot_alpha_up c2 c3 use_best_fit g)) /\
  (forall Hm0 Tmm10 q beta gamma_beta gamma_f B_berm db cot_alpha cot_alpha_down cot_alpha_up c2 c3 (use_best_fit : bool) g, straight cot_alpha_down cot_alpha_up -> similar same
     (OvertoppingEurotop2018.calculate_dimensionless_crest_freeboard_rubble_mound (distance l Hm0) (time l Tmm10) (discharge l q) beta gamma_beta gamma_f (distance l B_berm) (distance l db) cot_alpha cot_alpha_down cot_alpha_up c2 c3 use_best_fit g)
     (OvertoppingEurotop2018.calculate_dimensionless_crest_freeboard_rubble_mound Hm0 Tmm10 q beta gamma_beta gamma_f B_berm db cot_alpha cot_alpha_down cot_alpha_up c2 c3 use_best_fit g)) /\
  (forall Hm0 Tmm10 q beta gamma_beta gamma_f B_berm db cot_alpha cot_alpha_down cot_alpha_up c2 c3 (use_best_fit : bool) g, straight cot_alpha_down cot_alpha_up -> similar (distance l)
     (OvertoppingEurotop2018.calculate_crest_freeboard_Rc_rubble_mound (distance l Hm0) (time l Tmm10) (discharge l q) beta gamma_beta gamma_f (distance l B_berm) (distance l db) cot_alpha cot_alpha_down cot_alpha_up c2 c3 use_best_fit g)
     (OvertoppingEurotop2018.calculate_crest_freeboard_Rc_rubble_mound Hm0 Tmm10 q beta gamma_beta gamma_f B_berm db cot_alpha cot_alpha_down cot_alpha_up c2 c3 use_best_fit g)).
Proof.
  intros L.
  split; [intros; pose proof Rlt_0_1; apply sim_similar; start l 1; sims|].
  split; [intros; pose proof Rlt_0_1; apply sim_similar; start l 1; sims|].
  split; [intros; pose proof Rlt_0_1; apply sim_similar; start l 1; sims|].
  intros; pose proof Rlt_0_1; apply sim_similar; start l 1; sims.
Qed.

(** A run-up of 1.8125 m, and the same on a scale of 1 to 50 *)
Example C76_vangent2001_example :
  VanGent2001.calculate_wave_runup_height_zXp #1 (Fin (sqrt (2 * PI / (9.81 * 0.04)))) #1 #4 #1.45 #5.1 = #1.8125 /\
  VanGent2001.calculate_wave_runup_height_zXp #0.02 (time 0.02 (Fin (sqrt (2 * PI / (9.81 * 0.04))))) #1 #4 #1.45 #5.1 = #0.03625.
Proof.
  assert (A : VanGent2001.calculate_wave_runup_height_zXp #1 (Fin (sqrt (2 * PI / (9.81 * 0.04)))) #1 #4 #1.45 #5.1 = #1.8125).
  { pose proof PI_RGT_0 as P. unfold VanGent2001.calculate_wave_runup_height_zXp. cbv zeta. assert (0 < 2 * PI / (9.81 * 0.04)) by lra. rewrite iribarren_fin; try lra; [|apply sqrt_lt_R0; assumption].
    replace (Waves.iribarren Waves.g0 1 (sqrt (2 * PI / (9.81 * 0.04))) (1 / 4)) with 1.25.
    2:{ unfold Waves.iribarren, Waves.steepness, Waves.g0. rewrite pow2_sqrt by lra. replace (2 * PI * 1 / (9.81 * (2 * PI / (9.81 * 0.04)))) with (0.2 * 0.2) by (dec; field; lra). rewrite sqrt_square by lra. dec. field. }
    replace (#0.5 * #5.1 / #1.45)%num with (Fin (0.5 * 5.1 / 1.45)) by (nfin; try lra; reflexivity). cbn [nlt]. rewrite Rltb_true by lra. nfin. f_equal. lra. }
  split; [exact A|]. pose proof (proj1 (C76_vangent2001 0.02 ltac:(lra)) #1 (Fin (sqrt (2 * PI / (9.81 * 0.04)))) #1 #4 #1.45 #5.1) as S.
  rewrite A in S. cbn [distance scaled] in S. replace (Fin (0.02 * 1)) with #0.02 in S by (f_equal; lra). rewrite S. f_equal. lra.
Qed.
