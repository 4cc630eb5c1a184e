(** Property C23: overtopping of De Ridder et al. (2024). *)
From Coq Require Import Reals Lra List Bool String.
From Verif.Lib Require Import Num Monad RTac NTac.
From Verif.Spec Require Import Waves Ranges Overtopping.
From Verif.Model Require Import CoreUtility CorePhysics DeRidder2024.
From Verif.Proofs Require Import Core CheckTac Warns Overtopping.
Import ListNotations.
Open Scope R_scope.

Lemma checks_dr a b c d e f g h i j : value (check_validity_range a b c d e f g h i j) = Ok tt.
Proof. unfold check_validity_range. mchecks. reflexivity. Qed.

Notation q24 := calculate_overtopping_discharge_q_eq24.
Notation q26 := calculate_overtopping_discharge_q_eq26.
Notation Rc24 := calculate_crest_freeboard_discharge_q_eq24.
Notation Rc26 := calculate_crest_freeboard_discharge_q_eq26.

Lemma three_pos a b c : 0 < a -> 0 < b -> 0 < c -> 0 < a * b * c.
Proof. intros. repeat apply Rmult_lt_0_compat; assumption. Qed.

Section Values.
Variables (H s gf : R).
Hypotheses (HH : 0 < H) (Hs : 0 < s) (Hgf : 0 < gf).

Lemma q24_value g Rc : 0 < g ->
  value (q24 (Fin H) (Fin s) (Fin gf) (Fin Rc) (Fin g))
  = Ok (Fin (0.74 * exp (- (8.51 * Rpower s 0.32 * (Rc / (H * gf)))) * q_unit g H)).
Proof.
  intros Hg. unfold q24, calculate_dimensionless_overtopping_discharge_eq24. mval. rewrite checks_dr. mval.
  rewrite q_unit_fin by assumption. nfin. do 4 f_equal. f_equal. ring.
Qed.

Lemma q26_value g HLF Rc : 0 < g ->
  value (q26 (Fin H) (Fin s) (Fin HLF) (Fin gf) (Fin Rc) (Fin g))
  = Ok (Fin (0.5 * exp (- (7.91 * Rpower s 0.3 * ((Rc - 0.21 * HLF) / (H * gf)))) * q_unit g H)).
Proof.
  intros Hg. unfold q26, calculate_dimensionless_overtopping_discharge_eq26. mval. rewrite checks_dr. mval.
  rewrite q_unit_fin by assumption. nfin. do 3 f_equal.
  replace (- (7.91) * ((Rc - 0.21 * HLF) / (H * gf)) * Rpower s 0.30)
    with (- (7.91 * Rpower s 0.3 * ((Rc - 0.21 * HLF) / (H * gf)))); [lra|].
  replace 0.30 with 0.3 by lra. ring.
Qed.

Lemma Rc24_value g q : 0 < q ->
  value (Rc24 (Fin H) (Fin s) (Fin gf) (Fin q) (Fin g))
  = Ok (Fin (- (ln (q / q_unit g0 H) - ln 0.74) / (8.51 * Rpower s 0.32) * gf * H)).
Proof.
  intros Hq. pose proof (q_unit_pos g0 H g0_pos HH).
  unfold Rc24, calculate_dimensionless_crest_freeboard_discharge_q_eq24, g_default. fold g0. cbv zeta.
  rewrite q_unit_fin by auto. assert (0 < q / q_unit g0 H) by (apply Rdiv_lt_0_compat; assumption).
  pose proof (Rpower_pos s 0.32). nfin. mval. rewrite checks_dr. mval. nfin. reflexivity.
Qed.

Lemma Rc26_value g HLF q : 0 < g -> 0 < q ->
  value (Rc26 (Fin H) (Fin s) (Fin HLF) (Fin gf) (Fin q) (Fin g))
  = Ok (Fin (- (ln (q / q_unit g H) - ln 0.5) / (7.91 * Rpower s 0.3) * (gf * H) + 0.21 * HLF)).
Proof.
  intros Hg Hq. pose proof (q_unit_pos g H Hg HH).
  unfold Rc26. cbv zeta.
  rewrite q_unit_fin by auto. assert (0 < q / q_unit g H) by (apply Rdiv_lt_0_compat; assumption).
  replace (#0.30)%num with (#0.3)%num by (f_equal; lra). replace (#0.50)%num with (#0.5)%num by (f_equal; lra).
  pose proof (Rpower_pos s 0.3). nfin. mval. rewrite checks_dr. mval. reflexivity.
Qed.
End Values.

(** Both functions of eq. 24 compute the published relation: the discharge for
    the gravity it is given, the freeboard always for standard gravity. *)
Theorem C23_eq24_agree_with_relation : forall H s gf, 0 < H -> 0 < s -> 0 < gf ->
  (forall g Rc q, 0 < g ->
     (value (q24 (Fin H) (Fin s) (Fin gf) (Fin Rc) (Fin g)) = Ok (Fin q)
      <-> deridder24_eq24 g H s gf Rc q)) /\
  (forall g Rc q, 0 < q ->
     (value (Rc24 (Fin H) (Fin s) (Fin gf) (Fin q) g) = Ok (Fin Rc)
      <-> deridder24_eq24 g0 H s gf Rc q)).
Proof.
  intros H s gf HH Hs Hgf. pose proof (Rpower_pos s 0.32) as HP. split.
  - intros g Rc q Hg. pose proof (q_unit_pos g H Hg HH). rewrite q24_value by assumption.
    rewrite fin_ok_iff. unfold deridder24_eq24. rewrite div_eq by lra. split; congruence.
  - intros g Rc q Hq. pose proof (q_unit_pos g0 H g0_pos HH).
    change (Rc24 (Fin H) (Fin s) (Fin gf) (Fin q) g) with (Rc24 (Fin H) (Fin s) (Fin gf) (Fin q) (Fin g0)).
    rewrite Rc24_value by assumption.
    rewrite fin_ok_iff. unfold deridder24_eq24.
    rewrite exp_relation by (try (apply Rdiv_lt_0_compat; assumption); lra).
    set (L := - (ln (q / q_unit g0 H) - ln 0.74)). split.
    + intros <-. field. repeat split; lra.
    + intros <-. field. repeat split; lra.
Qed.

Theorem C23_eq26_agree_with_relation : forall g H s HLF gf, 0 < g -> 0 < H -> 0 < s -> 0 < gf ->
  (forall Rc q,
     value (q26 (Fin H) (Fin s) (Fin HLF) (Fin gf) (Fin Rc) (Fin g)) = Ok (Fin q)
      <-> deridder24_eq26 g H s HLF gf Rc q) /\
  (forall Rc q, 0 < q ->
     (value (Rc26 (Fin H) (Fin s) (Fin HLF) (Fin gf) (Fin q) (Fin g)) = Ok (Fin Rc)
      <-> deridder24_eq26 g H s HLF gf Rc q)).
Proof.
  intros g H s HLF gf Hg HH Hs Hgf. pose proof (Rpower_pos s 0.3) as HP.
  pose proof (q_unit_pos g H Hg HH). split.
  - intros Rc q. rewrite q26_value by assumption.
    rewrite fin_ok_iff. unfold deridder24_eq26. rewrite div_eq by lra. split; congruence.
  - intros Rc q Hq. rewrite Rc26_value by assumption.
    rewrite fin_ok_iff. unfold deridder24_eq26.
    rewrite exp_relation by (try (apply Rdiv_lt_0_compat; assumption); lra).
    set (L := - (ln (q / q_unit g H) - ln 0.5)). split.
    + intros <-. field. repeat split; lra.
    + intros E. rewrite <- E. field. repeat split; lra.
Qed.

(** Hence exact inverses at standard gravity (eq. 24) or any gravity (eq. 26). *)
Theorem C23_round_trip : forall g H s HLF gf Rc, 0 < g -> 0 < H -> 0 < s -> 0 < gf ->
  (exists q, value (q24 (Fin H) (Fin s) (Fin gf) (Fin Rc) (Fin g0)) = Ok (Fin q)
     /\ value (Rc24 (Fin H) (Fin s) (Fin gf) (Fin q) (Fin g0)) = Ok (Fin Rc)) /\
  (exists q, value (q26 (Fin H) (Fin s) (Fin HLF) (Fin gf) (Fin Rc) (Fin g)) = Ok (Fin q)
     /\ value (Rc26 (Fin H) (Fin s) (Fin HLF) (Fin gf) (Fin q) (Fin g)) = Ok (Fin Rc)).
Proof.
  intros g H s HLF gf Rc Hg HH Hs Hgf. split.
  - destruct (C23_eq24_agree_with_relation H s gf HH Hs Hgf) as [A B].
    eexists. split; [apply q24_value; auto|]. pose proof (q_unit_pos g0 H g0_pos HH).
    apply B; [apply three_pos; [lra|apply exp_pos|assumption]|].
    apply (A g0); auto. apply q24_value; auto.
  - destruct (C23_eq26_agree_with_relation g H s HLF gf Hg HH Hs Hgf) as [A B].
    eexists. split; [apply q26_value; auto|]. pose proof (q_unit_pos g H Hg HH).
    apply B; [apply three_pos; [lra|apply exp_pos|assumption]|].
    apply A. apply q26_value; auto.
Qed.

(** At another gravity the freeboard of eq. 24 is off by an amount that does
    not depend on the freeboard, and is zero only at standard gravity. *)
Theorem C23_eq24_gravity_error : forall g H s gf Rc, 0 < g -> 0 < H -> 0 < s -> 0 < gf ->
  exists q, value (q24 (Fin H) (Fin s) (Fin gf) (Fin Rc) (Fin g)) = Ok (Fin q)
  /\ value (Rc24 (Fin H) (Fin s) (Fin gf) (Fin q) (Fin g))
     = Ok (Fin (Rc - ln (g / g0) / (2 * 8.51 * Rpower s 0.32) * gf * H)).
Proof.
  intros g H s gf Rc Hg HH Hs Hgf. eexists. split; [apply q24_value; auto|].
  pose proof (q_unit_pos g H Hg HH). pose proof (q_unit_pos g0 H g0_pos HH). pose proof (Rpower_pos s 0.32) as HP.
  rewrite Rc24_value by first [assumption | apply three_pos; [lra|apply exp_pos|assumption]].
  do 2 f_equal. set (e := exp _).
  assert (He : 0 < e) by apply exp_pos.
  replace (0.74 * e * q_unit g H / q_unit g0 H) with (0.74 * e * (q_unit g H / q_unit g0 H)) by (field; lra).
  rewrite (ln_mult (0.74 * e)), (ln_mult 0.74 e), ln_div
    by first [assumption | apply Rdiv_lt_0_compat; assumption | lra].
  rewrite (q_unit_gravity g g0) by auto. unfold e. rewrite ln_exp. field. repeat split; lra.
Qed.

Theorem C23_eq24_round_trip_any_gravity_refuted : exists g H s gf Rc q Rc',
  0 < g /\ 0 < H /\ 0 < s /\ 0 < gf
  /\ value (q24 (Fin H) (Fin s) (Fin gf) (Fin Rc) (Fin g)) = Ok (Fin q)
  /\ value (Rc24 (Fin H) (Fin s) (Fin gf) (Fin q) (Fin g)) = Ok (Fin Rc')
  /\ Rc' <> Rc.
Proof.
  destruct (C23_eq24_gravity_error 9.8 1 1 1 1) as (q & E1 & E2); try lra.
  exists 9.8, 1, 1, 1, 1, q. eexists. repeat split; try lra; try eassumption.
  rewrite Rpower_1_base. assert (ln (9.8 / g0) < 0); [|lra].
  rewrite <- ln_1. apply ln_increasing; unfold g0; lra.
Qed.

(** The discharge decreases with the freeboard and is bounded by its value for
    a crest at the (raised) water level. *)
Theorem C23_decreasing_in_freeboard : forall g H s HLF gf Rc1 Rc2,
  0 < g -> 0 < H -> 0 < s -> 0 < gf -> Rc1 < Rc2 ->
  (exists q1 q2, value (q24 (Fin H) (Fin s) (Fin gf) (Fin Rc1) (Fin g)) = Ok (Fin q1)
     /\ value (q24 (Fin H) (Fin s) (Fin gf) (Fin Rc2) (Fin g)) = Ok (Fin q2)
     /\ 0 < q2 < q1 /\ (0 <= Rc1 -> q1 <= 0.74 * q_unit g H)) /\
  (exists q1 q2, value (q26 (Fin H) (Fin s) (Fin HLF) (Fin gf) (Fin Rc1) (Fin g)) = Ok (Fin q1)
     /\ value (q26 (Fin H) (Fin s) (Fin HLF) (Fin gf) (Fin Rc2) (Fin g)) = Ok (Fin q2)
     /\ 0 < q2 < q1 /\ (0.21 * HLF <= Rc1 -> q1 <= 0.5 * q_unit g H)).
Proof.
  assert (X : forall A k a b u, 0 < A -> 0 < u -> 0 < k -> a < b ->
            0 < A * exp (- (k * b)) * u < A * exp (- (k * a)) * u
            /\ (0 <= a -> A * exp (- (k * a)) * u <= A * u)).
  { intros A k a b u HA Hu Hk Hab.
    assert (exp (- (k * b)) < exp (- (k * a))) by (apply exp_increasing; apply Ropp_lt_contravar, Rmult_lt_compat_l; assumption).
    pose proof (exp_pos (- (k * b))). repeat split.
    - repeat apply Rmult_lt_0_compat; assumption.
    - apply Rmult_lt_compat_r; [assumption|]. apply Rmult_lt_compat_l; assumption.
    - intros Ha. apply Rmult_le_compat_r; [lra|]. rewrite <- (Rmult_1_r A) at 2. apply Rmult_le_compat_l; [lra|].
      rewrite <- exp_0. assert (0 <= k * a) by (apply Rmult_le_pos; lra).
      destruct (Rle_lt_or_eq_dec (- (k * a)) 0) as [L|L]; [lra|left; apply exp_increasing; assumption|right; rewrite L; reflexivity]. }
  intros g H s HLF gf Rc1 Rc2 Hg HH Hs Hgf HR.
  assert (HHg : 0 < H * gf) by rpos. pose proof (q_unit_pos g H Hg HH).
  split; eexists; eexists; (split; [apply q24_value || apply q26_value; assumption|]);
    (split; [apply q24_value || apply q26_value; assumption|]).
  - pose proof (Rpower_pos s 0.32). destruct (X 0.74 (8.51 * Rpower s 0.32) (Rc1 / (H * gf)) (Rc2 / (H * gf)) (q_unit g H)) as [P Q]; try lra.
    { apply Rmult_lt_compat_r; [rpos|assumption]. }
    split; [exact P|]. intros. apply Q. apply Rmult_le_pos; [assumption|left; rpos].
  - pose proof (Rpower_pos s 0.3). destruct (X 0.5 (7.91 * Rpower s 0.3) ((Rc1 - 0.21 * HLF) / (H * gf)) ((Rc2 - 0.21 * HLF) / (H * gf)) (q_unit g H)) as [P Q]; try lra.
    { apply Rmult_lt_compat_r; [rpos|lra]. }
    split; [exact P|]. intros. apply Q. apply Rmult_le_pos; [lra|left; rpos].
Qed.

(** Lengths scaled by [l]: the discharge scales by [l^1.5]. *)
Theorem C23_froude_scaling : forall l g H s HLF gf Rc, 0 < l -> 0 < g -> 0 < H -> 0 < s -> 0 < gf ->
  (exists q, value (q24 (Fin H) (Fin s) (Fin gf) (Fin Rc) (Fin g)) = Ok (Fin q)
    /\ value (q24 (Fin (l * H)) (Fin s) (Fin gf) (Fin (l * Rc)) (Fin g)) = Ok (Fin (Rpower l 1.5 * q))) /\
  (exists q, value (q26 (Fin H) (Fin s) (Fin HLF) (Fin gf) (Fin Rc) (Fin g)) = Ok (Fin q)
    /\ value (q26 (Fin (l * H)) (Fin s) (Fin (l * HLF)) (Fin gf) (Fin (l * Rc)) (Fin g)) = Ok (Fin (Rpower l 1.5 * q))).
Proof.
  intros l g H s HLF gf Rc Hl Hg HH Hs Hgf. split.
  - eexists. split; [apply q24_value; assumption|]. rewrite q24_value by (try assumption; rpos).
    rewrite q_unit_scale by assumption. replace (l * Rc / (l * H * gf)) with (Rc / (H * gf)) by (field; repeat split; lra).
    do 2 f_equal. ring.
  - eexists. split; [apply q26_value; assumption|]. rewrite q26_value by (try assumption; rpos).
    rewrite q_unit_scale by assumption.
    replace ((l * Rc - 0.21 * (l * HLF)) / (l * H * gf)) with ((Rc - 0.21 * HLF) / (H * gf)) by (field; repeat split; lra).
    do 2 f_equal. ring.
Qed.

(** No allowed discharge: an infinite freeboard; a negative one: no number. *)
Theorem C23_no_discharge : forall g H s gf, 0 < H -> 0 < s -> 0 < gf ->
  value (Rc24 (Fin H) (Fin s) (Fin gf) (Fin 0) g) = Ok PInf
  /\ forall q, q < 0 -> value (Rc24 (Fin H) (Fin s) (Fin gf) (Fin q) g) = Ok NaN.
Proof.
  intros g H s gf HH Hs Hgf. pose proof (q_unit_pos g0 H g0_pos HH). pose proof (Rpower_pos s 0.32).
  unfold Rc24, calculate_dimensionless_crest_freeboard_discharge_q_eq24, g_default. fold g0. cbv zeta.
  rewrite q_unit_fin by auto. split.
  - nfin. replace (0 / q_unit g0 H) with 0 by (field; lra).
    replace (nlog #0)%num with NInf by (simpl; rewrite Rltb_false, Reqb_true by lra; reflexivity).
    change (NInf - #(ln 0.74))%num with NInf. change (- NInf)%num with PInf.
    rewrite ndiv_pinf_pos, nmul_pinf_pos by rpos. mval. rewrite checks_dr. mval.
    rewrite nmul_pinf_pos by assumption. reflexivity.
  - intros q Hq. nfin.
    assert (q / q_unit g0 H < 0) by (apply Rmult_lt_reg_r with (q_unit g0 H); [assumption|]; unfold Rdiv; rewrite Rmult_assoc, Rinv_l by lra; lra).
    replace (nlog #(q / q_unit g0 H))%num with NaN by (simpl; rewrite Rltb_false, Reqb_false by lra; reflexivity).
    nnan. mval. rewrite checks_dr. mval. nnan. reflexivity.
Qed.

(** Warnings: the two functions of eq. 24 look at the relative freeboard only,
    those of eq. 26 at the long waves as well; the short-wave steepness, for
    which a range is published, is never judged. *)
Theorem C23_warnings : forall g H s HLF gf Rc, 0 < g -> 0 < H -> 0 < s -> 0 < gf ->
  flagged [ Range "Rc/Hm0" "De Ridder et al. (2024)" (Rc / H) 0.80 3.72 ]
    (warns (q24 (Fin H) (Fin s) (Fin gf) (Fin Rc) (Fin g))) /\
  flagged [ Range "Rc/Hm0" "De Ridder et al. (2024)" (Rc / H) 0.80 3.72;
            Range "Hm0_LF/Hm0" "De Ridder et al. (2024)" (HLF / H) 0.10 0.81 ]
    (warns (q26 (Fin H) (Fin s) (Fin HLF) (Fin gf) (Fin Rc) (Fin g))).
Proof.
  intros g H s HLF gf Rc Hg HH Hs Hgf.
  unfold q24, q26, calculate_dimensionless_overtopping_discharge_eq24, calculate_dimensionless_overtopping_discharge_eq26, check_validity_range.
  split; flags.
Qed.

Theorem C23_freeboard_warnings : forall g H s HLF gf q R24 R26, 0 < g -> 0 < H -> 0 < s -> 0 < gf -> 0 < q ->
  deridder24_eq24 g0 H s gf R24 q -> deridder24_eq26 g H s HLF gf R26 q ->
  flagged [ Range "Rc/Hm0" "De Ridder et al. (2024)" (R24 / H) 0.80 3.72 ]
    (warns (Rc24 (Fin H) (Fin s) (Fin gf) (Fin q) (Fin g))) /\
  flagged [ Range "Rc/Hm0" "De Ridder et al. (2024)" (R26 / H) 0.80 3.72;
            Range "Hm0_LF/Hm0" "De Ridder et al. (2024)" (HLF / H) 0.10 0.81 ]
    (warns (Rc26 (Fin H) (Fin s) (Fin HLF) (Fin gf) (Fin q) (Fin g))).
Proof.
  intros g H s HLF gf q R24 R26 Hg HH Hs Hgf Hq E24 E26.
  apply (proj2 (C23_eq24_agree_with_relation H s gf HH Hs Hgf) (Fin g)) in E24; [|assumption].
  apply (proj2 (C23_eq26_agree_with_relation g H s HLF gf Hg HH Hs Hgf)) in E26; [|assumption].
  rewrite Rc24_value in E24 by assumption. rewrite Rc26_value in E26 by assumption.
  apply fin_ok_iff in E24, E26. subst R24 R26.
  pose proof (q_unit_pos g0 H g0_pos HH). pose proof (q_unit_pos g H Hg HH).
  pose proof (Rpower_pos s 0.32). pose proof (Rpower_pos s 0.3).
  assert (0 < q / q_unit g0 H) by (apply Rdiv_lt_0_compat; assumption).
  assert (0 < q / q_unit g H) by (apply Rdiv_lt_0_compat; assumption).
  unfold Rc24, Rc26, calculate_dimensionless_crest_freeboard_discharge_q_eq24, g_default. fold g0. cbv zeta.
  replace (#0.30)%num with (#0.3)%num by (f_equal; lra). replace (#0.50)%num with (#0.5)%num by (f_equal; lra).
  rewrite !q_unit_fin by auto. nfin. unfold check_validity_range. split; flags.
Qed.


(** One metre of waves with unit steepness: e-folding freeboard. *)
Example C23_example : forall g, 0 < g ->
  value (q24 (Fin 1) (Fin 1) (Fin 1) (Fin (1 / 8.51)) (Fin g)) = Ok (Fin (0.74 * exp (-1) * sqrt g)).
Proof.
  intros g Hg. rewrite q24_value by lra. rewrite Rpower_1_base. unfold q_unit.
  replace (g * 1 ^ 3) with g by ring. do 5 f_equal. lra.
Qed.
