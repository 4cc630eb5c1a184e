(** Discharges that fall off with the power 1.3 of the freeboard. *)
From Coq Require Import Reals Lra.
From Verif.Lib Require Import Num Monad RTac NTac.
From Verif.Spec Require Import Taw.
From Verif.Proofs Require Import Overtopping.
Open Scope R_scope.

Lemma not_an_int a z : IZR z < a < IZR z + 1 -> is_int a = false.
Proof. intros. unfold is_int. rewrite (Int_part_spec a z) by lra. apply Reqb_false. lra. Qed.

Definition root13 (y : R) : R := if Rlt_dec 0 y then Rpower y (1 / 1.3) else 0.

Lemma pow13_pos x : 0 < x -> pow13 x = Rpower x 1.3.
Proof. intros. unfold pow13. destruct (Rlt_dec 0 x); [reflexivity|lra]. Qed.
Lemma pow13_0 : pow13 0 = 0. Proof. unfold pow13. destruct (Rlt_dec 0 0); [lra|reflexivity]. Qed.
Lemma pow13_nonneg x : 0 <= pow13 x.
Proof. unfold pow13. destruct (Rlt_dec 0 x); [left; apply Rpower_pos|lra]. Qed.
Lemma root13_nonneg x : 0 <= root13 x.
Proof. unfold root13. destruct (Rlt_dec 0 x); [left; apply Rpower_pos|lra]. Qed.

Lemma npow_13 x : 0 <= x -> npow (Fin x) #1.3 = Fin (pow13 x).
Proof.
  intros [L| <-].
  - rewrite pow13_pos by assumption. apply npow_fin. assumption.
  - rewrite pow13_0. apply npow_0_pos. lra.
Qed.
Lemma npow_13_neg x : x < 0 -> npow (Fin x) #1.3 = NaN.
Proof. intros. apply npow_neg_nonint; [assumption|apply (not_an_int  _ 1); lra]. Qed.
Lemma npow_root y : 0 <= y -> npow (Fin y) (#1 / #1.3)%num = Fin (root13 y).
Proof.
  intros [L| <-]; nfin; unfold root13; [destruct (Rlt_dec 0 y); [|lra]|destruct (Rlt_dec 0 0); [lra|]].
  - reflexivity.
  - apply npow_0_pos. lra.
Qed.
Lemma npow_root_neg y : y < 0 -> npow (Fin y) (#1 / #1.3)%num = NaN.
Proof. intros. nfin. apply npow_neg_nonint; [assumption|apply (not_an_int _ 0); lra]. Qed.

Lemma root_pow x : 0 <= x -> root13 (pow13 x) = x.
Proof.
  intros [L| <-]; unfold root13.
  - rewrite pow13_pos by assumption. destruct (Rlt_dec 0 (Rpower x 1.3)) as [|N]; [|exfalso; apply N, Rpower_pos].
    rewrite Rpower_mult. replace (1.3 * (1 / 1.3)) with 1 by lra. apply Rpower_1. assumption.
  - rewrite pow13_0. destruct (Rlt_dec 0 0); [lra|reflexivity].
Qed.
Lemma pow_root y : 0 <= y -> pow13 (root13 y) = y.
Proof.
  intros [L| <-]; unfold root13.
  - destruct (Rlt_dec 0 y); [|lra]. rewrite pow13_pos by apply Rpower_pos. rewrite Rpower_mult.
    replace (1 / 1.3 * 1.3) with 1 by lra. apply Rpower_1. assumption.
  - destruct (Rlt_dec 0 0); [lra|]. apply pow13_0.
Qed.
Lemma pow13_increasing x y : 0 <= x -> x < y -> pow13 x < pow13 y.
Proof.
  intros [L| <-] H.
  - rewrite !pow13_pos by lra. apply Rlt_Rpower_l; lra.
  - rewrite pow13_0, pow13_pos by assumption. apply Rpower_pos.
Qed.
Lemma pow13_lt x y : 0 <= x -> 0 <= y -> (pow13 x < pow13 y <-> x < y).
Proof.
  intros Hx Hy. split; [|apply pow13_increasing; assumption]. intros L.
  destruct (Rtotal_order x y) as [|[-> |G]]; [assumption|lra|]. apply (pow13_increasing y x Hy) in G. lra.
Qed.
Lemma pow13_inj x y : 0 <= x -> 0 <= y -> (pow13 x = pow13 y <-> x = y).
Proof.
  intros Hx Hy. split; [|intros ->; reflexivity]. intros E. rewrite <- (root_pow x), <- (root_pow y), E by assumption. reflexivity.
Qed.

Definition weibull (A B x : R) : R := A * exp (- pow13 (x / B)).
Definition solve_weibull (A B Q : R) : R := B * root13 (ln A - ln Q).

Lemma weibull_pos A B x : 0 < A -> 0 < weibull A B x.
Proof. intros. apply Rmult_lt_0_compat; [assumption|apply exp_pos]. Qed.
Lemma ln_weibull A B x : 0 < A -> ln (weibull A B x) = ln A - pow13 (x / B).
Proof. intros. unfold weibull. rewrite ln_mult by (try apply exp_pos; assumption). rewrite ln_exp. lra. Qed.
Lemma weibull_max A B x : 0 < A -> weibull A B x <= A.
Proof.
  intros. unfold weibull. rewrite <- (Rmult_1_r A) at 2. apply Rmult_le_compat_l; [lra|]. rewrite <- exp_0.
  pose proof (pow13_nonneg (x / B)) as [L|L]; [left; apply exp_increasing; lra|right; f_equal; lra].
Qed.

Lemma weibull_lt A B x Q : 0 < A -> 0 < B -> 0 < Q <= A -> 0 <= x -> (Q < weibull A B x <-> x < solve_weibull A B Q).
Proof.
  intros HA HB HQ Hx. rewrite ln_lt_pos by (try apply weibull_pos; lra). rewrite ln_weibull by assumption.
  assert (D : 0 <= ln A - ln Q). { destruct HQ as [HQ [L| ->]]; [apply ln_increasing in L; lra|lra]. }
  unfold solve_weibull. set (d := ln A - ln Q) in *.
  assert (X : 0 <= x / B) by (apply Rmult_le_pos; [assumption|left; apply Rinv_0_lt_compat; assumption]).
  assert (E : x = B * (x / B)) by (field; lra). set (z := x / B) in *.
  rewrite E. transitivity (pow13 z < pow13 (root13 d)).
  - rewrite (pow_root d D). unfold d. lra.
  - rewrite pow13_lt by (assumption || apply root13_nonneg). split; intros L; [apply Rmult_lt_compat_l; lra|apply Rmult_lt_reg_l in L; lra].
Qed.
Lemma weibull_eq A B x Q : 0 < A -> 0 < B -> 0 < Q <= A -> 0 <= x -> (Q = weibull A B x <-> x = solve_weibull A B Q).
Proof.
  intros HA HB HQ Hx.
  assert (D : 0 <= ln A - ln Q). { destruct HQ as [HQ [L| ->]]; [apply ln_increasing in L; lra|lra]. }
  unfold weibull. rewrite exp_relation by lra. unfold solve_weibull.
  set (d := ln A - ln Q) in *.
  assert (X : 0 <= x / B) by (apply Rmult_le_pos; [assumption|left; apply Rinv_0_lt_compat; assumption]).
  transitivity (pow13 (x / B) = pow13 (root13 d)).
  - rewrite (pow_root d D). unfold d. lra.
  - rewrite pow13_inj by (assumption || apply root13_nonneg). split; intros E; [rewrite <- E; field; lra|rewrite E; field; lra].
Qed.
Lemma weibull_le A B x Q : 0 < A -> 0 < B -> 0 < Q <= A -> 0 <= x -> (Q <= weibull A B x <-> x <= solve_weibull A B Q).
Proof. intros. pose proof (weibull_lt A B x Q). pose proof (weibull_eq A B x Q). unfold Rle. tauto. Qed.
Lemma weibull_decreasing A B x y : 0 < A -> 0 < B -> 0 <= x -> x < y -> weibull A B y < weibull A B x.
Proof.
  intros. apply Rmult_lt_compat_l; [assumption|]. apply exp_increasing, Ropp_lt_contravar. apply pow13_increasing.
  - apply Rmult_le_pos; [assumption|left; apply Rinv_0_lt_compat; assumption].
  - apply Rmult_lt_compat_r; [apply Rinv_0_lt_compat|]; assumption.
Qed.

(** The smaller of two. *)
Lemma two_weibulls A1 B1 A2 B2 x Q : 0 < A1 -> 0 < B1 -> 0 < A2 -> 0 < B2 -> 0 < Q <= A1 -> Q <= A2 -> 0 <= x ->
  (Q = Rmin (weibull A1 B1 x) (weibull A2 B2 x) <-> x = Rmin (solve_weibull A1 B1 Q) (solve_weibull A2 B2 Q)).
Proof.
  intros.
  pose proof (weibull_lt A1 B1 x Q ltac:(lra) ltac:(lra) ltac:(lra) ltac:(lra)).
  pose proof (weibull_lt A2 B2 x Q ltac:(lra) ltac:(lra) ltac:(lra) ltac:(lra)).
  pose proof (weibull_eq A1 B1 x Q ltac:(lra) ltac:(lra) ltac:(lra) ltac:(lra)).
  pose proof (weibull_eq A2 B2 x Q ltac:(lra) ltac:(lra) ltac:(lra) ltac:(lra)).
  assert (M : forall u v w : R, w = Rmin u v <-> (w = u /\ (w < v \/ w = v)) \/ (w = v /\ (w < u \/ w = u))).
  { intros u v w. unfold Rmin. destruct (Rle_dec u v); split; intros; intuition lra. }
  rewrite !M. tauto.
Qed.
Lemma two_weibulls_governing A1 B1 A2 B2 x Q : 0 < A1 -> 0 < B1 -> 0 < A2 -> 0 < B2 -> 0 < Q <= A1 -> Q <= A2 -> 0 <= x ->
  Q = Rmin (weibull A1 B1 x) (weibull A2 B2 x) ->
  (weibull A2 B2 x <= weibull A1 B1 x <-> solve_weibull A2 B2 Q <= solve_weibull A1 B1 Q).
Proof.
  intros ? ? ? ? ? ? ? E.
  pose proof (weibull_le A1 B1 x Q ltac:(lra) ltac:(lra) ltac:(lra) ltac:(lra)).
  pose proof (weibull_le A2 B2 x Q ltac:(lra) ltac:(lra) ltac:(lra) ltac:(lra)).
  pose proof (weibull_eq A1 B1 x Q ltac:(lra) ltac:(lra) ltac:(lra) ltac:(lra)).
  pose proof (weibull_eq A2 B2 x Q ltac:(lra) ltac:(lra) ltac:(lra) ltac:(lra)).
  revert E. unfold Rmin. destruct (Rle_dec (weibull A1 B1 x) (weibull A2 B2 x)); intros E; split; intros; intuition lra.
Qed.
