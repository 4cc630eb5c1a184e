(** Property C19: overtopping of rubble mounds, EurOtop (2007). *)
From Coq Require Import Reals Lra List Bool String.
From Verif.Lib Require Import Num Monad RTac NTac.
From Verif.Spec Require Import Waves Taw Overtopping.
From Verif.Model Require Import CoreUtility CorePhysics OvertoppingEurotop2007.
From Verif.Model Require RunupTAW2002 OvertoppingTAW2002.
From Verif.Proofs Require Import Core CheckTac Warns Taw Overtopping.
From Verif.Props Require Import RunupTAW OvertoppingTAW.
Import ListNotations.
Open Scope R_scope.

(** The factor for the angle is that of the run-up. *)
Definition runup_angle_factor (beta : num) (x : R) : Prop := exists b, beta = Fin b /\ x = taw_oblique 0.0022 b.

Section Mound.
Variables (H T cot gf gbeta c2 c3 k2 k3 : R) (beta gbeta' : num) (bf : bool).
Hypotheses (HH : 0 < H) (HT : 0 < T) (HC : 0 < cot) (Hgf : 0 < gf <= 1) (Hgbeta : 0 < gbeta) (H2 : 0 < k2) (H3 : 0 < k3).
Hypothesis (Hcoef : eurotop07_coefficients c2 c3 bf k2 k3).
Hypothesis (HB : known_or (runup_angle_factor beta) gbeta' gbeta).

Let xi := iribarren g0 H T (1 / cot).
Let f := taw_roughness gf 1 xi.
Let B2 := f * gbeta / k3.

Lemma mound_f_pos : 0 < f.
Proof. apply roughness_pos; try assumption; [lra|]. apply iribarren_pos; try assumption; [apply g0_pos|rpos]. Qed.
Lemma mound_B_pos : 0 < B2.
Proof. pose proof mound_f_pos. unfold B2. rpos. Qed.

Lemma mound_factors : influence_factors (Fin H) (Fin T) beta gbeta' (Fin gf) (Fin cot) = ret (Fin gbeta, Fin f).
Proof.
  unfold influence_factors. rewrite iribarren_fin by lra. fold xi. rewrite roughness_fin. fold f.
  destruct HB as [x|x (b & -> & ->)].
  - rewrite beta_known, bind_ret_l. reflexivity.
  - rewrite beta_given, bind_ret_l. unfold RunupTAW2002.c_gamma_beta_default. rewrite oblique_fin. reflexivity.
Qed.

Lemma mound_coefs : check_best_fit (Fin c2) (Fin c3) bf = (Fin k2, Fin k3).
Proof. destruct Hcoef; reflexivity. Qed.

Lemma mound_discharge Rc g : 0 < g ->
  value (calculate_overtopping_discharge_q_rubble_mound (Fin H) (Fin T) (Fin Rc) beta gbeta' (Fin gf) (Fin cot) (Fin c2) (Fin c3) bf (Fin g))
  = Ok (Fin (regime k2 B2 (Rc / H) * q_unit g H)).
Proof.
  intros Hg. pose proof mound_f_pos as F.
  unfold calculate_overtopping_discharge_q_rubble_mound, calculate_dimensionless_overtopping_discharge_q_rubble_mound.
  rewrite mound_coefs, mound_factors, ?bind_ret_l. unfold OvertoppingTAW2002.q_diml_max_equation, OvertoppingTAW2002.cor3_default.
  rewrite q_unit_fin by assumption. assert (f * gbeta <> 0) by (apply Rgt_not_eq; rpos). nfin. mval. do 3 f_equal. unfold regime, B2. f_equal. f_equal. field. repeat split; lra.
Qed.

Lemma mound_freeboard q : 0 < q ->
  value (calculate_crest_freeboard_Rc_rubble_mound (Fin H) (Fin T) (Fin q) beta gbeta' (Fin gf) (Fin cot) (Fin c2) (Fin c3) bf)
  = Ok (Fin (solve_regime k2 B2 (q / q_unit g0 H) * H)).
Proof.
  intros Hq. pose proof mound_f_pos as F. pose proof g0_pos as G0. pose proof (q_unit_pos g0 H G0 HH) as U.
  unfold calculate_crest_freeboard_Rc_rubble_mound, calculate_dimensionless_crest_freeboard_rubble_mound.
  rewrite mound_coefs, mound_factors, ?bind_ret_l. unfold OvertoppingTAW2002.Rc_diml_max_equation, OvertoppingTAW2002.cor3_default, g_default. fold g0.
  rewrite q_unit_fin by assumption. nfin. mval. do 3 f_equal. unfold solve_regime, B2.
  replace (ln k2 - ln (q / q_unit g0 H)) with (- ln (1 / k2 * q / q_unit g0 H)).
  - field. lra.
  - assert (0 < q / q_unit g0 H) by rpos. rewrite <- (ln_div k2) by assumption.
    assert (0 < 1 / k2 * q / q_unit g0 H) by rpos. rewrite <- ln_Rinv by assumption. f_equal. field. repeat split; lra.
Qed.
End Mound.

(** The discharge is the published maximum with the roughness adjusted for the
    Iribarren number (no berm). *)
Theorem C19_discharge : forall H T Rc cot gf gbeta c2 c3 k2 k3 g (beta gbeta' : num) bf,
  0 < H -> 0 < T -> 0 < cot -> 0 < g -> 0 < gf <= 1 -> 0 < gbeta -> 0 < k2 -> 0 < k3 -> eurotop07_coefficients c2 c3 bf k2 k3 ->
  known_or (runup_angle_factor beta) gbeta' gbeta ->
  value (calculate_overtopping_discharge_q_rubble_mound (Fin H) (Fin T) (Fin Rc) beta gbeta' (Fin gf) (Fin cot) (Fin c2) (Fin c3) bf (Fin g))
  = Ok (Fin (k2 * exp (- (k3 * (Rc / H) / (taw_roughness gf 1 (iribarren g0 H T (1 / cot)) * gbeta))) * q_unit g H)).
Proof.
  intros H T Rc cot gf gbeta c2 c3 k2 k3 g beta gbeta' bf HH HT HC Hg Hgf Hgbeta H2 H3 Hc HB.
  rewrite (mound_discharge H T cot gf gbeta c2 c3 k2 k3) by assumption.
  pose proof (mound_f_pos H T cot gf HH HT HC Hgf). unfold regime. do 5 f_equal. field. repeat split; lra.
Qed.

(** Discharge and freeboard are exact inverses at standard gravity. *)
Theorem C19_round_trip : forall H T Rc q cot gf gbeta c2 c3 k2 k3 (beta gbeta' : num) bf,
  0 < H -> 0 < T -> 0 < cot -> 0 < gf <= 1 -> 0 < gbeta -> 0 < k2 -> 0 < k3 -> 0 < q -> eurotop07_coefficients c2 c3 bf k2 k3 ->
  known_or (runup_angle_factor beta) gbeta' gbeta ->
  (value (calculate_overtopping_discharge_q_rubble_mound (Fin H) (Fin T) (Fin Rc) beta gbeta' (Fin gf) (Fin cot) (Fin c2) (Fin c3) bf g_default) = Ok (Fin q)
   <-> value (calculate_crest_freeboard_Rc_rubble_mound (Fin H) (Fin T) (Fin q) beta gbeta' (Fin gf) (Fin cot) (Fin c2) (Fin c3) bf) = Ok (Fin Rc)).
Proof.
  intros H T Rc q cot gf gbeta c2 c3 k2 k3 beta gbeta' bf HH HT HC Hgf Hgbeta H2 H3 Hq Hc HB.
  pose proof g0_pos as G0. pose proof (q_unit_pos g0 H G0 HH) as U. unfold g_default. fold g0.
  rewrite (mound_discharge H T cot gf gbeta c2 c3 k2 k3), (mound_freeboard H T cot gf gbeta c2 c3 k2 k3) by assumption.
  pose proof (mound_B_pos H T cot gf gbeta k3 HH HT HC Hgf Hgbeta H3) as PB.
  set (B2 := taw_roughness gf 1 (iribarren g0 H T (1 / cot)) * gbeta / k3) in *.
  assert (PQ : 0 < q / q_unit g0 H) by rpos.
  pose proof (regime_eq k2 B2 (Rc / H) (q / q_unit g0 H) H2 PB PQ) as R.
  rewrite !fin_ok_iff. rewrite div_eq in R by lra.
  split; intros E.
  - symmetry in E. apply R in E. rewrite <- E. field. lra.
  - symmetry. apply R. rewrite <- E. field. lra.
Qed.

(** The freeboard function takes no gravity: for any other one passed to the
    discharge function the freeboard is off by a fixed multiple of Hm0. *)
Theorem C19_other_gravity : forall H T Rc cot gf gbeta c2 c3 k2 k3 g (beta gbeta' : num) bf,
  0 < H -> 0 < T -> 0 < cot -> 0 < g -> 0 < gf <= 1 -> 0 < gbeta -> 0 < k2 -> 0 < k3 -> eurotop07_coefficients c2 c3 bf k2 k3 ->
  known_or (runup_angle_factor beta) gbeta' gbeta ->
  exists q, value (calculate_overtopping_discharge_q_rubble_mound (Fin H) (Fin T) (Fin Rc) beta gbeta' (Fin gf) (Fin cot) (Fin c2) (Fin c3) bf (Fin g)) = Ok (Fin q)
  /\ value (calculate_crest_freeboard_Rc_rubble_mound (Fin H) (Fin T) (Fin q) beta gbeta' (Fin gf) (Fin cot) (Fin c2) (Fin c3) bf)
     = Ok (Fin (Rc - H * (taw_roughness gf 1 (iribarren g0 H T (1 / cot)) * gbeta / k3) * (ln (g / 9.81) / 2))).
Proof.
  intros H T Rc cot gf gbeta c2 c3 k2 k3 g beta gbeta' bf HH HT HC Hg Hgf Hgbeta H2 H3 Hc HB.
  pose proof g0_pos as G0. pose proof (q_unit_pos g0 H G0 HH) as U0. pose proof (q_unit_pos g H Hg HH) as U.
  pose proof (mound_B_pos H T cot gf gbeta k3 HH HT HC Hgf Hgbeta H3) as PB.
  eexists. split; [apply (mound_discharge H T cot gf gbeta c2 c3 k2 k3); assumption|].
  set (B2 := taw_roughness gf 1 (iribarren g0 H T (1 / cot)) * gbeta / k3) in *.
  pose proof (regime_pos k2 B2 (Rc / H) H2) as PR.
  rewrite (mound_freeboard H T cot gf gbeta c2 c3 k2 k3) by (assumption || rpos). fold B2. do 2 f_equal.
  unfold solve_regime. rewrite ln_div by (assumption || rpos). rewrite ln_mult by assumption. rewrite ln_regime by assumption.
  rewrite (q_unit_gravity g g0 H) by assumption. fold g0. field. split; [|lra]. intros E. unfold B2 in E. lra.
Qed.

(** Positive, and smaller for a higher crest. *)
Theorem C19_positive_decreasing : forall H T Rc Rc' cot gf gbeta c2 c3 k2 k3 g (beta gbeta' : num) bf,
  0 < H -> 0 < T -> 0 < cot -> 0 < g -> 0 < gf <= 1 -> 0 < gbeta -> 0 < k2 -> 0 < k3 -> eurotop07_coefficients c2 c3 bf k2 k3 ->
  known_or (runup_angle_factor beta) gbeta' gbeta -> Rc < Rc' ->
  exists q q', value (calculate_overtopping_discharge_q_rubble_mound (Fin H) (Fin T) (Fin Rc) beta gbeta' (Fin gf) (Fin cot) (Fin c2) (Fin c3) bf (Fin g)) = Ok (Fin q)
  /\ value (calculate_overtopping_discharge_q_rubble_mound (Fin H) (Fin T) (Fin Rc') beta gbeta' (Fin gf) (Fin cot) (Fin c2) (Fin c3) bf (Fin g)) = Ok (Fin q')
  /\ 0 < q' < q.
Proof.
  intros H T Rc Rc' cot gf gbeta c2 c3 k2 k3 g beta gbeta' bf HH HT HC Hg Hgf Hgbeta H2 H3 Hc HB L.
  pose proof (q_unit_pos g H Hg HH) as U. pose proof (mound_B_pos H T cot gf gbeta k3 HH HT HC Hgf Hgbeta H3) as PB.
  do 2 eexists. split; [apply (mound_discharge H T cot gf gbeta c2 c3 k2 k3); assumption|].
  split; [apply (mound_discharge H T cot gf gbeta c2 c3 k2 k3); assumption|].
  split; [apply Rmult_lt_0_compat; [apply regime_pos|]; assumption|].
  apply Rmult_lt_compat_r; [assumption|]. apply regime_decreasing; try assumption.
  apply Rmult_lt_compat_r; [apply Rinv_0_lt_compat|]; assumption.
Qed.

(** Froude scaling. *)
Theorem C19_froude : forall l H T Rc cot gf gbeta c2 c3 k2 k3 g (beta gbeta' : num) bf,
  0 < l -> 0 < H -> 0 < T -> 0 < cot -> 0 < g -> 0 < gf <= 1 -> 0 < gbeta -> 0 < k2 -> 0 < k3 -> eurotop07_coefficients c2 c3 bf k2 k3 ->
  known_or (runup_angle_factor beta) gbeta' gbeta ->
  exists q, value (calculate_overtopping_discharge_q_rubble_mound (Fin H) (Fin T) (Fin Rc) beta gbeta' (Fin gf) (Fin cot) (Fin c2) (Fin c3) bf (Fin g)) = Ok (Fin q)
  /\ value (calculate_overtopping_discharge_q_rubble_mound (Fin (l * H)) (Fin (sqrt l * T)) (Fin (l * Rc)) beta gbeta' (Fin gf) (Fin cot) (Fin c2) (Fin c3) bf (Fin g))
     = Ok (Fin (Rpower l 1.5 * q)).
Proof.
  intros l H T Rc cot gf gbeta c2 c3 k2 k3 g beta gbeta' bf Hl HH HT HC Hg Hgf Hgbeta H2 H3 Hc HB.
  assert (Hl' : 0 < sqrt l) by (apply sqrt_lt_R0; assumption).
  eexists. split; [apply (mound_discharge H T cot gf gbeta c2 c3 k2 k3); assumption|].
  rewrite (mound_discharge (l * H) (sqrt l * T) cot gf gbeta c2 c3 k2 k3) by (assumption || rpos).
  assert (X : iribarren g0 (l * H) (sqrt l * T) (1 / cot) = iribarren g0 H T (1 / cot)).
  { unfold iribarren. rewrite steepness_froude by (try assumption; apply g0_pos). reflexivity. }
  rewrite X, q_unit_scale by assumption. replace (l * Rc / (l * H)) with (Rc / H) by (field; split; lra). do 2 f_equal. ring.
Qed.

(** Neither angle nor factor: an error; both: the factor counts. *)
Theorem C19_angle : forall (H T x beta gbeta gf cot c2 c3 g : num) bf,
  calculate_overtopping_discharge_q_rubble_mound H T x NaN NaN gf cot c2 c3 bf g = raise ValueError
  /\ calculate_crest_freeboard_Rc_rubble_mound H T x NaN NaN gf cot c2 c3 bf = raise ValueError
  /\ (gbeta <> NaN ->
      calculate_overtopping_discharge_q_rubble_mound H T x beta gbeta gf cot c2 c3 bf g
      = calculate_overtopping_discharge_q_rubble_mound H T x NaN gbeta gf cot c2 c3 bf g
      /\ calculate_crest_freeboard_Rc_rubble_mound H T x beta gbeta gf cot c2 c3 bf
      = calculate_crest_freeboard_Rc_rubble_mound H T x NaN gbeta gf cot c2 c3 bf).
Proof.
  intros. split; [destruct bf; reflexivity|]. split; [destruct bf; reflexivity|]. intros N.
  assert (I : influence_factors H T beta gbeta gf cot = influence_factors H T NaN gbeta gf cot).
  { unfold influence_factors. assert (forall b, RunupTAW2002.check_calculate_gamma_beta b gbeta = ret false) as G by (intros b; destruct b, gbeta; try reflexivity; congruence).
    rewrite !G, !bind_ret_l. reflexivity. }
  unfold calculate_overtopping_discharge_q_rubble_mound, calculate_crest_freeboard_Rc_rubble_mound, calculate_dimensionless_overtopping_discharge_q_rubble_mound, calculate_dimensionless_crest_freeboard_rubble_mound.
  rewrite I. split; reflexivity.
Qed.

(** Waves of 2 m with a steepness of 4% on a rough slope of 1:5 (ksi 1), under 45
    degrees, with a freeboard of 1 m and the defaults. *)
Example C19_example : exists T, 0 < T
  /\ value (calculate_overtopping_discharge_q_rubble_mound #2 (Fin T) #1 #45 NaN #0.5 #5 c2_default c3_default false g_default)
     = Ok (Fin (0.2 * exp (- (2.3 * 0.5 / (0.5 * 0.901))) * sqrt (9.81 * 2 ^ 3)))
  /\ value (calculate_crest_freeboard_Rc_rubble_mound #2 (Fin T) (Fin (0.2 * exp (- (2.3 * 0.5 / (0.5 * 0.901))) * sqrt (9.81 * 2 ^ 3))) #45 NaN #0.5 #5 c2_default c3_default false)
     = Ok #1.
Proof.
  pose proof g0_pos as G0. pose proof PI_RGT_0 as PI0. set (T := sqrt (2 * PI * 2 / (g0 * 0.04))).
  assert (HT : 0 < T) by (apply sqrt_lt_R0; rpos).
  assert (X : iribarren g0 2 T (1 / 5) = 1).
  { unfold iribarren, T. rewrite period_of by lra. replace (sqrt 0.04) with 0.2 by (replace 0.04 with (0.2 ^ 2) by lra; rewrite sqrt_pow2; lra). lra. }
  assert (KA : known_or (runup_angle_factor #45) NaN 0.901).
  { constructor. exists 45. split; [reflexivity|]. unfold taw_oblique. rewrite Rabs_pos_eq, Rmin_left by lra. lra. }
  exists T. split; [exact HT|].
  assert (V : value (calculate_overtopping_discharge_q_rubble_mound #2 (Fin T) #1 #45 NaN #0.5 #5 c2_default c3_default false g_default)
     = Ok (Fin (0.2 * exp (- (2.3 * 0.5 / (0.5 * 0.901))) * sqrt (9.81 * 2 ^ 3)))).
  { unfold c2_default, c3_default, g_default. fold g0.
    rewrite (C19_discharge 2 T 1 5 0.5 0.901 0.2 2.3 0.2 2.3 g0) by (assumption || lra || constructor).
    rewrite X. assert (F : taw_roughness 0.5 1 1 = 0.5) by (unfold taw_roughness; destruct (Rle_dec 1.8 (1 * 1)); lra).
    rewrite F. replace (1 / 2) with 0.5 by lra. reflexivity. }
  split; [exact V|]. unfold c2_default, c3_default in *.
  apply (C19_round_trip 2 T 1 _ 5 0.5 0.901 0.2 2.3 0.2 2.3); try (assumption || lra || constructor).
  assert (0 < sqrt (9.81 * 2 ^ 3)) by (apply sqrt_lt_R0; lra). pose proof (exp_pos (- (2.3 * 0.5 / (0.5 * 0.901)))). rpos.
Qed.
