(** Evaluation of the Van Gent (2025) overtopping functions on real arguments. *)
From Coq Require Import Reals Lra List Bool String.
From Verif.Lib Require Import Num Monad RTac NTac.
From Verif.Spec Require Import Waves Ranges Overtopping.
From Verif.Model Require Import CoreUtility CorePhysics Numpy VanGent2025.
From Verif.Proofs Require Import Core CheckTac Warns Overtopping.
Import ListNotations.
Open Scope R_scope.

Lemma checks_v a b c d e f g h i j k l : value (check_validity_range a b c d e f g h i j k l) = Ok tt.
Proof. unfold check_validity_range. mchecks. reflexivity. Qed.

Lemma general_regime cot ksi gam x : 0 < gam -> 0 < ksi ->
  vg25_general cot ksi gam x = regime (6.8 / cot) (gam * ksi / 5) x.
Proof. intros. unfold vg25_general, regime. do 3 f_equal. field. lra. Qed.

Lemma maximum_regime cot ksi gam x : 0 < gam ->
  vg25_maximum cot ksi gam x = regime (0.8 / cot) (gam * Rpower ksi 0.24 / 2.5) x.
Proof.
  intros. unfold vg25_maximum, regime. pose proof (Rpower_pos ksi 0.24). do 3 f_equal.
  apply Rmult_eq_reg_l with (gam * Rpower ksi 0.24); [|apply Rgt_not_eq; rpos]. field. lra.
Qed.

Lemma discharge_pos cot ksi gam x : 0 < cot -> 0 < vg25_discharge cot ksi gam x.
Proof.
  intros. unfold vg25_discharge, vg25_general, vg25_maximum.
  apply Rmin_glb_lt; (apply Rmult_lt_0_compat; [rpos|apply exp_pos]).
Qed.

Lemma Rpower_neg1 x : 0 < x -> Rpower x (- (1)) = / x.
Proof. intros. rewrite Rpower_Ropp, Rpower_1 by assumption. reflexivity. Qed.

Section Given.
Variables (H T cot gf gb gv gbe : R).
Hypotheses (HH : 0 < H) (HT : 0 < T) (Hcot : 0 < cot) (Hgf : 0 < gf) (Hgb : 0 < gb) (Hgv : 0 < gv) (Hgbe : 0 < gbe).
Let ksi := iribarren g0 H T (1 / cot).
Let gam := gf * gb * gv * gbe.

Lemma ksi_pos : 0 < ksi.
Proof. apply iribarren_pos; try assumption; [exact g0_pos|apply Rdiv_lt_0_compat; lra]. Qed.
Lemma gam_pos : 0 < gam.
Proof. unfold gam. rpos. Qed.

Lemma q_general_fin Rc Hsw :
  (#6.8 * npow (Fin cot) (- #1)
   * nexp (- #5 * (Fin Rc - #0.4 * Fin Hsw) / (Fin gf * Fin gb * Fin gv * Fin gbe * Fin ksi * Fin H)))%num
  = Fin (vg25_general cot ksi gam ((Rc - 0.4 * Hsw) / H)).
Proof.
  pose proof ksi_pos. pose proof gam_pos. assert (0 < gam * ksi * H) by rpos. unfold gam in *. nfin.
  unfold vg25_general. rewrite Rpower_neg1 by assumption. f_equal.
  replace (- (5) * (Rc - 0.4 * Hsw) / (gf * gb * gv * gbe * ksi * H))
    with (- (5 * ((Rc - 0.4 * Hsw) / H) / (gf * gb * gv * gbe * ksi))); [reflexivity|].
  field. repeat split; lra.
Qed.

Lemma q_maximum_fin Rc Hsw :
  q_diml_max_equation (Fin H) (Fin Hsw) (Fin ksi) (Fin cot) (Fin Rc) (Fin gf) (Fin gb) (Fin gv) (Fin gbe)
  = Fin (vg25_maximum cot ksi gam ((Rc - 0.4 * Hsw) / H)).
Proof.
  pose proof ksi_pos. pose proof gam_pos. pose proof (Rpower_pos ksi 0.24).
  assert (0 < gam * Rpower ksi 0.24 * H) by rpos. unfold gam in *. unfold q_diml_max_equation. nfin.
  unfold vg25_maximum. rewrite Rpower_neg1 by assumption. f_equal.
  set (k := Rpower ksi 0.24) in *.
  replace (- (2.5) * (Rc - 0.4 * Hsw) / (gf * gb * gv * gbe * k * H))
    with (- (2.5 * ((Rc - 0.4 * Hsw) / H) / (gf * gb * gv * gbe * k))); [reflexivity|].
  field. repeat split; lra.
Qed.

Lemma Rc_general_fin Q Hsw : 0 < Q ->
  Rc_diml_equation (Fin H) (Fin Hsw) (Fin Q) (Fin cot) (Fin ksi) (Fin gf) (Fin gb) (Fin gv) (Fin gbe)
  = Fin (solve_regime (6.8 / cot) (gam * ksi / 5) Q + 0.4 * Hsw / H).
Proof.
  intros HQ. unfold Rc_diml_equation. assert (0 < 1 / 6.8 * cot * Q) by (apply Rmult_lt_0_compat; [apply Rmult_lt_0_compat|]; lra).
  nfin. do 2 f_equal. unfold solve_regime. rewrite (ln_mult (1 / 6.8 * cot) Q), (ln_mult (1 / 6.8) cot), (ln_div 1 6.8), (ln_div 6.8 cot)
    by first [lra | apply Rmult_lt_0_compat; lra]. rewrite ln_1.
  unfold gam. field.
Qed.

Lemma Rc_maximum_fin q Hsw : 0 < q ->
  Rc_diml_max_equation (Fin H) (Fin Hsw) (Fin q) (Fin cot) (Fin ksi) (Fin gf) (Fin gb) (Fin gv) (Fin gbe) g_default
  = Fin (solve_regime (0.8 / cot) (gam * Rpower ksi 0.24 / 2.5) (q / q_unit g0 H) + 0.4 * Hsw / H).
Proof.
  intros Hq. unfold Rc_diml_max_equation, g_default. fold g0. pose proof ksi_pos. pose proof (q_unit_pos g0 H g0_pos HH).
  rewrite q_unit_fin by auto.
  assert (0 < 1 / 0.8 * cot * q) by (apply Rmult_lt_0_compat; [apply Rmult_lt_0_compat|]; lra).
  assert (0 < 1 / 0.8 * cot * q / q_unit g0 H) by (apply Rdiv_lt_0_compat; assumption).
  nfin. do 2 f_equal. unfold solve_regime.
  rewrite (ln_div (1 / 0.8 * cot * q)), (ln_mult (1 / 0.8 * cot) q), (ln_mult (1 / 0.8) cot), (ln_div 1 0.8), (ln_div 0.8 cot), (ln_div q)
    by first [assumption | lra | apply Rmult_lt_0_compat; lra]. rewrite ln_1.
  unfold gam. field. lra.
Qed.
End Given.
