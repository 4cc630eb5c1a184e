(** Property C24: overtopping of De Ridder et al. (2026), with oblique waves. *)
From Coq Require Import Reals Lra List Bool String.
From Verif.Lib Require Import Num Monad RTac NTac.
From Verif.Spec Require Import Waves Ranges Overtopping.
From Verif.Model Require Import CoreUtility CorePhysics Numpy DeRidder2026.
From Verif.Proofs Require Import Core CheckTac Warns Overtopping.
Import ListNotations.
Open Scope R_scope.

Lemma checks_dr26 a b c d e f g h i : value (check_validity_range a b c d e f g h i) = Ok tt.
Proof. unfold check_validity_range. mchecks. reflexivity. Qed.

Notation q28 := calculate_overtopping_discharge_q_eq28.
Notation q32 := calculate_overtopping_discharge_q_eq32.
Notation Rc28 := calculate_crest_freeboard_discharge_q_eq28.
Notation Rc32 := calculate_crest_freeboard_discharge_q_eq32.

(** The angle factor is the published one, is even, 1 for perpendicular waves,
    at least 0.35 (at 90 degrees), and decreases up to 90 degrees. *)
Theorem C24_angle_factor :
  (forall theta, calculate_gamma_beta (Fin theta) = Fin (deridder26_gamma theta)
     /\ calculate_gamma_beta (Fin (- theta)) = calculate_gamma_beta (Fin theta)
     /\ 0.35 <= deridder26_gamma theta <= 1)
  /\ calculate_gamma_beta #0 = #1
  /\ calculate_gamma_beta #90 = #0.35
  /\ (forall t1 t2, 0 <= t1 -> t1 < t2 -> t2 <= 90 -> deridder26_gamma t2 < deridder26_gamma t1).
Proof.
  assert (V : forall theta, calculate_gamma_beta (Fin theta) = Fin (deridder26_gamma theta)).
  { intros theta. unfold calculate_gamma_beta, deg2rad, deridder26_gamma. nfin. f_equal.
    replace (cos (Rabs theta * (PI / 180))) with (cos (theta * PI / 180)); [lra|].
    unfold Rabs. destruct (Rcase_abs theta).
    - rewrite <- cos_neg. f_equal. field.
    - f_equal. field. }
  assert (E : forall theta, deridder26_gamma (- theta) = deridder26_gamma theta).
  { intros theta. unfold deridder26_gamma. replace (- theta * PI / 180) with (- (theta * PI / 180)) by field.
    rewrite cos_neg. reflexivity. }
  repeat split.
  - apply V.
  - rewrite !V, E. reflexivity.
  - unfold deridder26_gamma. pose proof (pow2_ge_0 (cos (theta * PI / 180))). lra.
  - unfold deridder26_gamma. pose proof (COS_bound (theta * PI / 180)).
    assert (cos (theta * PI / 180) ^ 2 <= 1) by nra. lra.
  - rewrite V. f_equal. unfold deridder26_gamma. replace (0 * PI / 180) with 0 by field. rewrite cos_0. lra.
  - rewrite V. f_equal. unfold deridder26_gamma. replace (90 * PI / 180) with (PI / 2) by field. rewrite cos_PI2. lra.
  - intros t1 t2 H1 H12 H2. unfold deridder26_gamma. pose proof PI_RGT_0.
    assert (A : cos (t2 * PI / 180) < cos (t1 * PI / 180)).
    { apply cos_decreasing_1; nra. }
    assert (0 <= cos (t2 * PI / 180)) by (apply cos_ge_0; nra).
    assert (cos (t2 * PI / 180) ^ 2 < cos (t1 * PI / 180) ^ 2) by nra. lra.
Qed.

Lemma gamma_fin theta : calculate_gamma_beta (Fin theta) = Fin (deridder26_gamma theta).
Proof. apply C24_angle_factor. Qed.

Lemma gamma_pos theta : 0 < deridder26_gamma theta.
Proof. destruct (proj1 C24_angle_factor theta) as (_ & _ & ?). lra. Qed.

Section Values.
Variables (g H s gf theta : R).
Hypotheses (Hg : 0 < g) (HH : 0 < H) (Hs : 0 < s) (Hgf : 0 < gf).
Let gb := deridder26_gamma theta.

Lemma q28_value Rc :
  value (q28 (Fin H) (Fin s) (Fin gf) (Fin Rc) (Fin g) (Fin theta))
  = Ok (Fin (0.16 * exp (- (6.93 * Rpower s 0.36 * (Rc / (H * gf * gb)))) * q_unit g H)).
Proof.
  unfold q28, calculate_dimensionless_overtopping_discharge_eq28. rewrite gamma_fin. fold gb. mval. rewrite checks_dr26. mval.
  assert (0 < gb) by apply gamma_pos. assert (0 < H * gf * gb) by rpos.
  rewrite q_unit_fin by assumption. nfin. do 4 f_equal. f_equal. ring.
Qed.

Lemma q32_value HLF Rc :
  value (q32 (Fin H) (Fin s) (Fin HLF) (Fin gf) (Fin Rc) (Fin g) (Fin theta))
  = Ok (Fin (0.05 * exp (- (10.4 * sqrt s * ((Rc - 0.97 * HLF) / (H * gf * gb)))) * q_unit g H)).
Proof.
  unfold q32, calculate_dimensionless_overtopping_discharge_eq32. rewrite gamma_fin. fold gb. mval. rewrite checks_dr26. mval.
  assert (0 < gb) by apply gamma_pos. assert (0 < gf * gb) by rpos.
  rewrite q_unit_fin by assumption. nfin. do 4 f_equal. f_equal.
  rewrite sqrt_Rpower by assumption. replace 0.50 with (/ 2) by lra. replace 10.40 with 10.4 by lra.
  field. repeat split; lra.
Qed.

Lemma Rc28_value q : 0 < q ->
  Rc28 (Fin H) (Fin s) (Fin gf) (Fin q) (Fin g) (Fin theta)
  = Fin (- (ln (q / q_unit g H) - ln 0.16) / (6.93 * Rpower s 0.36) * gf * gb * H).
Proof.
  intros Hq. pose proof (q_unit_pos g H Hg HH).
  unfold Rc28, calculate_dimensionless_crest_freeboard_discharge_q_eq28. cbv zeta. rewrite gamma_fin. fold gb.
  rewrite q_unit_fin by auto. assert (0 < q / q_unit g H) by (apply Rdiv_lt_0_compat; assumption).
  pose proof (Rpower_pos s 0.36). nfin. reflexivity.
Qed.

Lemma Rc32_value HLF q : 0 < q ->
  Rc32 (Fin H) (Fin s) (Fin HLF) (Fin gf) (Fin q) (Fin g) (Fin theta)
  = Fin (- (ln (q / q_unit g H) - ln 0.05) / (10.4 * sqrt s) * gf * gb * H + 0.97 * HLF).
Proof.
  intros Hq. pose proof (q_unit_pos g H Hg HH).
  unfold Rc32. cbv zeta. rewrite gamma_fin. fold gb.
  rewrite q_unit_fin by auto. assert (0 < q / q_unit g H) by (apply Rdiv_lt_0_compat; assumption).
  assert (0 < gb) by apply gamma_pos. assert (0 < gf * gb) by rpos.
  pose proof (Rpower_pos s 0.50). assert (0 < 10.40 * Rpower s 0.50 * (1 / (gf * gb))) by rpos.
  nfin. do 2 f_equal. rewrite sqrt_Rpower by assumption. replace 0.50 with (/ 2) in * by lra. replace 10.40 with 10.4 by lra.
  field. repeat split; lra.
Qed.
End Values.

Lemma scaled_pos A k u : 0 < A -> 0 < u -> 0 < A * exp k * u.
Proof. intros. pose proof (exp_pos k). repeat apply Rmult_lt_0_compat; assumption. Qed.

(** Discharge and freeboard functions compute the published relations at every
    gravity, for every angle. *)
Theorem C24_agree_with_relations : forall g H s HLF gf theta, 0 < g -> 0 < H -> 0 < s -> 0 < gf ->
  let gb := deridder26_gamma theta in
  (forall Rc q, value (q28 (Fin H) (Fin s) (Fin gf) (Fin Rc) (Fin g) (Fin theta)) = Ok (Fin q)
     <-> deridder26_eq28 g H s gf gb Rc q) /\
  (forall Rc q, 0 < q -> (Rc28 (Fin H) (Fin s) (Fin gf) (Fin q) (Fin g) (Fin theta) = Fin Rc
     <-> deridder26_eq28 g H s gf gb Rc q)) /\
  (forall Rc q, value (q32 (Fin H) (Fin s) (Fin HLF) (Fin gf) (Fin Rc) (Fin g) (Fin theta)) = Ok (Fin q)
     <-> deridder26_eq32 g H s HLF gf gb Rc q) /\
  (forall Rc q, 0 < q -> (Rc32 (Fin H) (Fin s) (Fin HLF) (Fin gf) (Fin q) (Fin g) (Fin theta) = Fin Rc
     <-> deridder26_eq32 g H s HLF gf gb Rc q)).
Proof.
  intros g H s HLF gf theta Hg HH Hs Hgf gb.
  assert (Hgb : 0 < gb) by apply gamma_pos. pose proof (q_unit_pos g H Hg HH).
  pose proof (Rpower_pos s 0.36). pose proof (sqrt_lt_R0 s Hs).
  assert (F : forall x y, Fin x = Fin y <-> x = y) by (split; congruence).
  split; [|split; [|split]]; intros Rc q; try intros Hq.
  - rewrite q28_value, fin_ok_iff by assumption. fold gb. unfold deridder26_eq28. rewrite div_eq by lra. split; congruence.
  - rewrite Rc28_value by assumption. fold gb. rewrite F. unfold deridder26_eq28.
    rewrite exp_relation by first [apply Rdiv_lt_0_compat; assumption | lra].
    set (L := - (ln (q / q_unit g H) - ln 0.16)). split; intros E; rewrite <- E; field; repeat split; lra.
  - rewrite q32_value, fin_ok_iff by assumption. fold gb. unfold deridder26_eq32. rewrite div_eq by lra. split; congruence.
  - rewrite Rc32_value by assumption. fold gb. rewrite F. unfold deridder26_eq32.
    rewrite exp_relation by first [apply Rdiv_lt_0_compat; assumption | lra].
    set (L := - (ln (q / q_unit g H) - ln 0.05)). split; intros E; rewrite <- E; field; repeat split; lra.
Qed.

(** Hence they are exact inverses of each other, in both directions. *)
Theorem C24_round_trip : forall g H s HLF gf theta, 0 < g -> 0 < H -> 0 < s -> 0 < gf ->
  (forall Rc, exists q, 0 < q
     /\ value (q28 (Fin H) (Fin s) (Fin gf) (Fin Rc) (Fin g) (Fin theta)) = Ok (Fin q)
     /\ Rc28 (Fin H) (Fin s) (Fin gf) (Fin q) (Fin g) (Fin theta) = Fin Rc) /\
  (forall q, 0 < q -> exists Rc, Rc28 (Fin H) (Fin s) (Fin gf) (Fin q) (Fin g) (Fin theta) = Fin Rc
     /\ value (q28 (Fin H) (Fin s) (Fin gf) (Fin Rc) (Fin g) (Fin theta)) = Ok (Fin q)) /\
  (forall Rc, exists q, 0 < q
     /\ value (q32 (Fin H) (Fin s) (Fin HLF) (Fin gf) (Fin Rc) (Fin g) (Fin theta)) = Ok (Fin q)
     /\ Rc32 (Fin H) (Fin s) (Fin HLF) (Fin gf) (Fin q) (Fin g) (Fin theta) = Fin Rc) /\
  (forall q, 0 < q -> exists Rc, Rc32 (Fin H) (Fin s) (Fin HLF) (Fin gf) (Fin q) (Fin g) (Fin theta) = Fin Rc
     /\ value (q32 (Fin H) (Fin s) (Fin HLF) (Fin gf) (Fin Rc) (Fin g) (Fin theta)) = Ok (Fin q)).
Proof.
  intros g H s HLF gf theta Hg HH Hs Hgf.
  destruct (C24_agree_with_relations g H s HLF gf theta Hg HH Hs Hgf) as (A & B & C & D).
  pose proof (q_unit_pos g H Hg HH). split; [|split; [|split]].
  - intros Rc. eexists. split; [|split; [apply q28_value; assumption|]].
    + apply scaled_pos; [lra|assumption].
    + apply B; [apply scaled_pos; [lra|assumption]|]. apply A. apply q28_value; assumption.
  - intros q Hq. eexists. split; [apply Rc28_value; assumption|]. apply A. apply B; [assumption|]. apply Rc28_value; assumption.
  - intros Rc. eexists. split; [|split; [apply q32_value; assumption|]].
    + apply scaled_pos; [lra|assumption].
    + apply D; [apply scaled_pos; [lra|assumption]|]. apply C. apply q32_value; assumption.
  - intros q Hq. eexists. split; [apply Rc32_value; assumption|]. apply C. apply D; [assumption|]. apply Rc32_value; assumption.
Qed.

(** More oblique waves: less overtopping over a crest above the water line
    (raised by the long waves in eq. 32), and a lower crest suffices. *)
Theorem C24_oblique_waves_overtop_less : forall g H s HLF gf t1 t2 Rc,
  0 < g -> 0 < H -> 0 < s -> 0 < gf -> 0 <= t1 -> t1 < t2 -> t2 <= 90 ->
  (0 < Rc -> exists q1 q2, value (q28 (Fin H) (Fin s) (Fin gf) (Fin Rc) (Fin g) (Fin t1)) = Ok (Fin q1)
     /\ value (q28 (Fin H) (Fin s) (Fin gf) (Fin Rc) (Fin g) (Fin t2)) = Ok (Fin q2) /\ q2 < q1) /\
  (0.97 * HLF < Rc -> exists q1 q2, value (q32 (Fin H) (Fin s) (Fin HLF) (Fin gf) (Fin Rc) (Fin g) (Fin t1)) = Ok (Fin q1)
     /\ value (q32 (Fin H) (Fin s) (Fin HLF) (Fin gf) (Fin Rc) (Fin g) (Fin t2)) = Ok (Fin q2) /\ q2 < q1).
Proof.
  intros g H s HLF gf t1 t2 Rc Hg HH Hs Hgf H1 H12 H2.
  assert (Hb : deridder26_gamma t2 < deridder26_gamma t1) by (apply C24_angle_factor; assumption).
  pose proof (gamma_pos t1). pose proof (gamma_pos t2). pose proof (q_unit_pos g H Hg HH).
  assert (X : forall A k x, 0 < A -> 0 < k -> 0 < x ->
    A * exp (- (k * (x / (H * gf * deridder26_gamma t2)))) * q_unit g H
    < A * exp (- (k * (x / (H * gf * deridder26_gamma t1)))) * q_unit g H).
  { intros A k x HA Hk Hx. apply Rmult_lt_compat_r; [assumption|]. apply Rmult_lt_compat_l; [assumption|].
    apply exp_increasing, Ropp_lt_contravar, Rmult_lt_compat_l; [assumption|].
    apply Rmult_lt_compat_l; [assumption|]. apply Rinv_lt_contravar; [rpos|]. apply Rmult_lt_compat_l; [rpos|assumption]. }
  pose proof (Rpower_pos s 0.36). pose proof (sqrt_lt_R0 s Hs).
  split; intros HR; eexists; eexists; (split; [apply q28_value || apply q32_value; assumption|]);
    (split; [apply q28_value || apply q32_value; assumption|]); apply X; lra.
Qed.

(** Lengths scaled by [l]: the discharge scales by [l^1.5]. *)
Theorem C24_froude_scaling : forall l g H s HLF gf theta Rc, 0 < l -> 0 < g -> 0 < H -> 0 < s -> 0 < gf ->
  (exists q, value (q28 (Fin H) (Fin s) (Fin gf) (Fin Rc) (Fin g) (Fin theta)) = Ok (Fin q)
    /\ value (q28 (Fin (l * H)) (Fin s) (Fin gf) (Fin (l * Rc)) (Fin g) (Fin theta)) = Ok (Fin (Rpower l 1.5 * q))) /\
  (exists q, value (q32 (Fin H) (Fin s) (Fin HLF) (Fin gf) (Fin Rc) (Fin g) (Fin theta)) = Ok (Fin q)
    /\ value (q32 (Fin (l * H)) (Fin s) (Fin (l * HLF)) (Fin gf) (Fin (l * Rc)) (Fin g) (Fin theta)) = Ok (Fin (Rpower l 1.5 * q))).
Proof.
  intros l g H s HLF gf theta Rc Hl Hg HH Hs Hgf. pose proof (gamma_pos theta). split.
  - eexists. split; [apply q28_value; assumption|]. rewrite q28_value by (try assumption; rpos).
    rewrite q_unit_scale by assumption.
    replace (l * Rc / (l * H * gf * deridder26_gamma theta)) with (Rc / (H * gf * deridder26_gamma theta)) by (field; repeat split; lra).
    do 2 f_equal. ring.
  - eexists. split; [apply q32_value; assumption|]. rewrite q32_value by (try assumption; rpos).
    rewrite q_unit_scale by assumption.
    replace ((l * Rc - 0.97 * (l * HLF)) / (l * H * gf * deridder26_gamma theta)) with ((Rc - 0.97 * HLF) / (H * gf * deridder26_gamma theta)) by (field; repeat split; lra).
    do 2 f_equal. ring.
Qed.

(** Warnings of the discharge functions: the freeboard and the angle, and for
    eq. 32 the long waves, relative to the height of the short waves.  The
    freeboard functions cannot warn: their results are plain numbers. *)
Theorem C24_warnings : forall g H s HLF gf theta Rc, 0 < g -> 0 < H -> 0 < s -> 0 < gf ->
  flagged [ Range "Rc/Hm0" "De Ridder et al. (2026)" (Rc / H) 0.98 1.94;
            Range "theta" "De Ridder et al. (2026)" theta 0 56 ]
    (warns (q28 (Fin H) (Fin s) (Fin gf) (Fin Rc) (Fin g) (Fin theta))) /\
  flagged [ Range "Rc/Hm0" "De Ridder et al. (2026)" (Rc / H) 0.98 1.94;
            Range "Hm0_LF/Hm0" "De Ridder et al. (2026)" (HLF / H) 0.15 0.55;
            Range "theta" "De Ridder et al. (2026)" theta 0 56 ]
    (warns (q32 (Fin H) (Fin s) (Fin HLF) (Fin gf) (Fin Rc) (Fin g) (Fin theta))).
Proof.
  intros g H s HLF gf theta Rc Hg HH Hs Hgf.
  unfold q28, q32, calculate_dimensionless_overtopping_discharge_eq28, calculate_dimensionless_overtopping_discharge_eq32, check_validity_range.
  cbv zeta. split; flags.
Qed.

(** Waves along the structure (90 degrees), everything else one. *)
Example C24_example : forall g, 0 < g ->
  value (q28 (Fin 1) (Fin 1) (Fin 1) (Fin (0.35 / 6.93)) (Fin g) #90) = Ok (Fin (0.16 * exp (- (1)) * sqrt g)).
Proof.
  intros g Hg. rewrite q28_value by lra. rewrite Rpower_1_base. unfold q_unit.
  replace (g * 1 ^ 3) with g by ring.
  assert (E : Fin (deridder26_gamma 90) = #0.35) by (rewrite <- gamma_fin; apply C24_angle_factor).
  injection E as ->. do 5 f_equal. lra.
Qed.
