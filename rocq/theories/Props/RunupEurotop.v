(** Property C17: run-up of EurOtop (2018). *)
From Coq Require Import Reals Lra List Bool String.
From Verif.Lib Require Import Num Monad RTac NTac.
From Verif.Spec Require Import Waves Ranges Reports Taw.
From Verif.Model Require Import CoreUtility CorePhysics RunupEurotop2018.
From Verif.Model Require RunupTAW2002.
From Verif.Proofs Require Import Core CheckTac Warns Reports Taw.
From Verif.Props Require Import RunupTAW.
Import ListNotations.
Open Scope R_scope.

(** The factor for oblique waves has no say in the result, nor in the warnings. *)
Theorem C17_gamma_beta_ignored : forall (H T beta gbeta gbeta' gb gf B db cot cd cu c1 c2 c3 c4 : num) bf,
  calculate_wave_runup_height_z2p H T beta gbeta gb gf B db cot cd cu c1 c2 c3 c4 bf
  = calculate_wave_runup_height_z2p H T beta gbeta' gb gf B db cot cd cu c1 c2 c3 c4 bf
  /\ calculate_dimensionless_wave_runup_height_z2p H T beta gbeta gb gf B db cot cd cu c1 c2 c3 c4 bf
  = calculate_dimensionless_wave_runup_height_z2p H T beta gbeta' gb gf B db cot cd cu c1 c2 c3 c4 bf.
Proof. intros. split; reflexivity. Qed.

(** Without an angle the function fails, whatever the factor. *)
Theorem C17_no_angle : forall (H T gbeta gb gf B db cot cd cu c1 c2 c3 c4 : num) bf,
  calculate_wave_runup_height_z2p H T NaN gbeta gb gf B db cot cd cu c1 c2 c3 c4 bf = raise ValueError.
Proof.
  intros. unfold calculate_wave_runup_height_z2p, calculate_dimensionless_wave_runup_height_z2p.
  destruct (check_best_fit c1 c2 c3 c4 bf) as [[[a b] c] d].
  unfold RunupTAW2002.calculate_dimensionless_wave_runup_height_z2p, RunupTAW2002.dimensionless_body.
  destruct (RunupTAW2002.best_fit_coefficients false a b c d) as [[[a' b'] c'] d'].
  assert (N : calculate_influence_oblique_waves_gamma_beta NaN gf gamma_f_crit_default c_gamma_beta_smooth_default c_gamma_beta_rough_default max_angle_default = NaN).
  { unfold calculate_influence_oblique_waves_gamma_beta, RunupTAW2002.calculate_influence_oblique_waves_gamma_beta.
    cbn [nlt ngt nabs]. destruct (ngt gf gamma_f_crit_default); reflexivity. }
  rewrite N. reflexivity.
Qed.

Lemma oblique18_fin smooth gf b :
  calculate_influence_oblique_waves_gamma_beta (Fin b) (Fin gf) gamma_f_crit_default (Fin smooth) c_gamma_beta_rough_default max_angle_default
  = Fin (eurotop_oblique smooth gf b).
Proof.
  unfold calculate_influence_oblique_waves_gamma_beta, eurotop_oblique, gamma_f_crit_default, c_gamma_beta_rough_default. nfin.
  change max_angle_default with RunupTAW2002.max_angle_default.
  destruct (Rltb_spec 0.6 gf), (Rlt_dec 0.6 gf); try lra; apply oblique_fin.
Qed.

(** The factor for oblique waves: even, 1 at right angles, constant beyond 80
    degrees, and smaller for a rough slope. *)
Theorem C17_oblique : forall gf b,
  calculate_influence_oblique_waves_gamma_beta (Fin b) (Fin gf) gamma_f_crit_default c_gamma_beta_smooth_default c_gamma_beta_rough_default max_angle_default
  = Fin (eurotop_oblique 0.0022 gf b)
  /\ eurotop_oblique 0.0022 gf 0 = 1 /\ eurotop_oblique 0.0022 gf (- b) = eurotop_oblique 0.0022 gf b
  /\ (0.6 < gf -> 0.824 <= eurotop_oblique 0.0022 gf b <= 1) /\ (gf <= 0.6 -> 0.496 <= eurotop_oblique 0.0022 gf b <= 1)
  /\ (80 <= Rabs b -> eurotop_oblique 0.0022 gf b = if Rlt_dec 0.6 gf then 0.824 else 0.496).
Proof.
  intros gf b. split; [apply oblique18_fin|]. unfold eurotop_oblique, taw_oblique. rewrite Rabs_Ropp, Rabs_R0, Rmin_left by lra.
  pose proof (Rabs_pos b). pose proof (Rmin_r (Rabs b) 80). assert (0 <= Rmin (Rabs b) 80) by (apply Rmin_glb; lra).
  split; [lra|]. split; [reflexivity|]. destruct (Rlt_dec 0.6 gf); repeat split; intros; try lra; rewrite Rmin_right by lra; lra.
Qed.

(** The run-up on a simple slope: the published formula with the factor for the
    angle. *)
Theorem C17_runup : forall H T b gb gf cot c1 c2 c3 c4 (gbeta' B db cu : num) (bf : bool), 0 < H -> 0 < T -> 0 < cot ->
  let xi := iribarren g0 H T (1 / cot) in
  let gbeta := eurotop_oblique 0.0022 gf b in
  exists reached,
  value (calculate_wave_runup_height_z2p (Fin H) (Fin T) (Fin b) gbeta' (Fin gb) (Fin gf) B db (Fin cot) NaN cu (Fin c1) (Fin c2) (Fin c3) (Fin c4) bf)
  = Ok (Fin (H * (if bf then taw_runup 1.65 4 1.5 1 gb gf gbeta xi else taw_runup c1 c2 c3 c4 gb gf gbeta xi)), reached).
Proof.
  intros H T b gb gf cot c1 c2 c3 c4 gbeta' B db cu bf HH HT HC xi gbeta.
  unfold calculate_wave_runup_height_z2p, calculate_dimensionless_wave_runup_height_z2p.
  unfold c_gamma_beta_smooth_default. rewrite oblique18_fin. fold gbeta.
  destruct bf; cbn [check_best_fit]; mval; unfold RunupTAW2002.calculate_dimensionless_wave_runup_height_z2p;
    rewrite (simple_value _ H T gbeta) by (try assumption; left; reflexivity); mval; nfin; eexists; do 3 f_equal; apply Rmult_comm.
Qed.

(** A simple slope needs a berm factor here too. *)
Theorem C17_berm_factor_needed : forall (H T gbeta gf B db cu c1 c2 c3 c4 : num) b cot bf, (exists f, gf = Fin f) -> 
  value (calculate_wave_runup_height_z2p H T (Fin b) gbeta NaN gf B db (Fin cot) NaN cu c1 c2 c3 c4 bf) = Err ValueError.
Proof.
  intros H T gbeta gf B db cu c1 c2 c3 c4 b cot bf (f & ->). unfold calculate_wave_runup_height_z2p, calculate_dimensionless_wave_runup_height_z2p.
  unfold c_gamma_beta_smooth_default. rewrite oblique18_fin.
  destruct (check_best_fit c1 c2 c3 c4 bf) as [[[a' b'] c'] d']. mval.
  unfold RunupTAW2002.calculate_dimensionless_wave_runup_height_z2p, RunupTAW2002.dimensionless_body.
  cbn [RunupTAW2002.best_fit_coefficients]. rewrite beta_known, simple_slope, !bind_ret_l. cbn [isnan].
  unfold RunupTAW2002.calculate_berm_length. cbn. reflexivity.
Qed.

(** The warnings are those of the TAW (2002) ranges, for the factor used. *)
Theorem C58_eurotop_runup : forall (H T gbeta' gb B db cot cu c1 c2 c3 c4 : num) b gf bf,
  gb <> NaN -> cot <> NaN ->
  reported (taw_runup_ranges H T (Fin gf) gb (Fin (eurotop_oblique 0.0022 gf b)) cot)
    (warns (calculate_dimensionless_wave_runup_height_z2p H T (Fin b) gbeta' gb (Fin gf) B db cot NaN cu c1 c2 c3 c4 bf)).
Proof.
  intros H T gbeta' gb B db cot cu c1 c2 c3 c4 b gf bf Nb Nc. unfold calculate_dimensionless_wave_runup_height_z2p.
  unfold c_gamma_beta_smooth_default. rewrite oblique18_fin.
  destruct (check_best_fit c1 c2 c3 c4 bf) as [[[a' b'] c'] d']. apply C58_taw_runup; congruence.
Qed.

(** Waves of 2 m with a steepness of 4% on a smooth slope of 1:5, under 30 degrees,
    with the default coefficients. *)
Example C17_example : exists T reached, 0 < T /\
  value (calculate_wave_runup_height_z2p #2 (Fin T) #30 #0.5 #1 #1 #0 #0 #5 NaN NaN c1_default c2_default c3_default c4_default false)
  = Ok (Fin (2 * (1.75 * 0.934)), reached).
Proof.
  pose proof g0_pos as G0. pose proof PI_RGT_0 as PI0. set (T := sqrt (2 * PI * 2 / (g0 * 0.04))).
  assert (HT : 0 < T) by (apply sqrt_lt_R0; rpos).
  assert (X : iribarren g0 2 T (1 / 5) = 1).
  { unfold iribarren, T. rewrite period_of by lra. replace (sqrt 0.04) with 0.2 by (replace 0.04 with (0.2 ^ 2) by lra; rewrite sqrt_pow2; lra). lra. }
  destruct (C17_runup 2 T 30 1 1 5 1.75 4.3 1.5 1.07 #0.5 #0 #0 NaN false ltac:(lra) HT ltac:(lra)) as (r & E).
  exists T, r. split; [exact HT|]. unfold c1_default, c2_default, c3_default, c4_default. rewrite E. do 4 f_equal. rewrite X.
  assert (G : eurotop_oblique 0.0022 1 30 = 0.934).
  { unfold eurotop_oblique, taw_oblique. destruct (Rlt_dec 0.6 1); [|lra]. rewrite Rabs_pos_eq by lra. rewrite Rmin_left by lra. lra. }
  rewrite G. unfold taw_runup, taw_roughness. destruct (Rle_dec 1.8 (1 * 1)); [lra|]. cbv zeta.
  unfold taw_slope_runup, taw_max_runup. rewrite sqrt_1. rewrite Rmin_left by lra. lra.
Qed.
