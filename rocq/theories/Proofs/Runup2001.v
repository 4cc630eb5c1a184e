From Coq Require Import Reals Lra Lia List Bool String Psatz.
From Verif.Lib Require Import Num Monad RTac NTac Contraction.
From Verif.Spec Require Import Waves Runup.
From Verif.Model Require Import CoreUtility CorePhysics VanGent2001.
From Verif.Proofs Require Import Core.
Open Scope R_scope.

(** The curve in the variables a = c0 xi and h = c1/2. *)
Definition G (a h : R) : R := if Rlt_dec a h then a else 2 * h - h * h / a.

Lemma curve_G c0 c1 xi : 0 < c0 -> 0 < xi -> vangent_curve c0 c1 xi = G (c0 * xi) (c1 / 2).
Proof.
  intros. unfold vangent_curve, G.
  assert (E : xi < c1 / (2 * c0) <-> c0 * xi < c1 / 2).
  { split; intros L.
    - apply (Rmult_lt_compat_l c0) in L; [|assumption]. replace (c0 * (c1 / (2 * c0))) with (c1 / 2) in L by (field; lra). lra.
    - apply (Rmult_lt_reg_l c0); [assumption|]. replace (c0 * (c1 / (2 * c0))) with (c1 / 2) by (field; lra). lra. }
  destruct (Rlt_dec xi (c1 / (2 * c0))), (Rlt_dec (c0 * xi) (c1 / 2)); try tauto. field. lra.
Qed.

(** The amount by which the hyperbola stays below the line. *)
Lemma G_defect a h : 0 < a -> 2 * h - h * h / a = a - (a - h) * (a - h) / a.
Proof. intros. field. lra. Qed.

Lemma G_le a h : 0 < a -> G a h <= a.
Proof.
  intros. unfold G. destruct (Rlt_dec a h); [lra|]. rewrite G_defect by assumption.
  assert (0 <= (a - h) * (a - h) / a) by (apply Rmult_le_pos; [nra|apply Rlt_le, Rinv_0_lt_compat; assumption]). lra.
Qed.

Lemma G_pos a h : 0 < a -> 0 < h -> 0 < G a h.
Proof.
  intros. unfold G. destruct (Rlt_dec a h); [assumption|].
  assert (h * h / a <= h). { apply (Rmult_le_reg_r a); [assumption|]. unfold Rdiv. rewrite Rmult_assoc, Rinv_l by lra. nra. }
  lra.
Qed.

Lemma G_lt_max a h : 0 < a -> 0 < h -> G a h < 2 * h.
Proof.
  intros. unfold G. destruct (Rlt_dec a h); [lra|]. assert (0 < h * h / a) by rpos. lra.
Qed.

Lemma G_mono a a' h h' : 0 < a -> a <= a' -> 0 < h -> h <= h' -> G a h <= G a' h' /\ (a < a' -> G a h < G a' h').
Proof.
  intros Ha La Hh Lh. assert (Ha' : 0 < a') by lra. pose proof (G_le a h Ha) as Q. unfold G in *.
  destruct (Rlt_dec a h), (Rlt_dec a' h'); try (split; intros; lra).
  - assert (S : (a' - h') * (a' - h') / a' <= a' - h').
    { apply (Rmult_le_reg_r a'); [assumption|]. unfold Rdiv. rewrite Rmult_assoc, Rinv_l by lra. nra. }
    rewrite (G_defect a' h') by assumption. split; intros; lra.
  - assert (S1 : 0 <= (h' - h) * (2 - (h + h') / a')).
    { apply Rmult_le_pos; [lra|]. assert ((h + h') / a' <= 2); [|lra].
      apply (Rmult_le_reg_r a'); [assumption|]. unfold Rdiv. rewrite Rmult_assoc, Rinv_l by lra. lra. }
    assert (S2 : 2 * h' - h' * h' / a' - (2 * h - h * h / a') = (h' - h) * (2 - (h + h') / a')) by (field; lra).
    assert (S3 : / a' <= / a) by (apply Rinv_le_contravar; assumption).
    assert (0 < h * h) by rpos. unfold Rdiv in *. split; intros.
    + assert (h * h * / a' <= h * h * / a) by (apply Rmult_le_compat_l; lra). lra.
    + assert (/ a' < / a) by (apply Rinv_lt_contravar; [apply Rmult_lt_0_compat; assumption|assumption]).
      assert (h * h * / a' < h * h * / a) by (apply Rmult_lt_compat_l; lra). lra.
Qed.

(** Scaling the argument down by t scales the curve down by at most t. *)
Lemma G_scale a h t : 0 < a -> 0 < h -> 0 < t <= 1 -> t * G a h <= G (t * a) h.
Proof.
  intros Ha Hh Ht. assert (0 < t * a) by rpos. pose proof (G_le a h Ha) as Q.
  assert (t * a <= a) by nra.
  unfold G at 2. destruct (Rlt_dec (t * a) h); [apply Rmult_le_compat_l; lra|].
  unfold G. destruct (Rlt_dec a h); [lra|].
  (* 2h - h^2/(ta) - t (2h - h^2/a) = h (1-t) (2 - (h/a)(1+t)/t) *)
  assert (E : 2 * h - h * h / (t * a) - t * (2 * h - h * h / a) = h * (1 - t) * (2 - h / (t * a) * (1 + t))).
  { field. lra. }
  assert (h / (t * a) <= 1). { apply (Rmult_le_reg_r (t * a)); [assumption|]. unfold Rdiv. rewrite Rmult_assoc, Rinv_l by lra. lra. }
  assert (0 < h / (t * a)) by rpos.
  assert (0 <= h * (1 - t) * (2 - h / (t * a) * (1 + t))).
  { apply Rmult_le_pos; [apply Rmult_le_pos; lra|]. assert (h / (t * a) * (1 + t) <= 1 * 2) by (apply Rmult_le_compat; lra). lra. }
  lra.
Qed.

Lemma curve_pos c0 c1 xi : 0 < c0 -> 0 < c1 -> 0 < xi -> 0 < vangent_curve c0 c1 xi.
Proof. intros. rewrite curve_G by assumption. apply G_pos; rpos. Qed.
Lemma curve_lt_c1 c0 c1 xi : 0 < c0 -> 0 < c1 -> 0 < xi -> vangent_curve c0 c1 xi < c1.
Proof. intros. rewrite curve_G by assumption. pose proof (G_lt_max (c0 * xi) (c1 / 2)). assert (0 < c0 * xi) by rpos. lra. Qed.
Lemma curve_increasing c0 c1 x y : 0 < c0 -> 0 < c1 -> 0 < x -> x < y -> vangent_curve c0 c1 x < vangent_curve c0 c1 y.
Proof.
  intros. rewrite !curve_G by lra. assert (0 < c0 * x) by rpos. assert (c0 * x < c0 * y) by (apply Rmult_lt_compat_l; lra).
  apply (G_mono (c0 * x) (c0 * y) (c1 / 2) (c1 / 2)); lra.
Qed.
Lemma curve_coeffs c0 c1 c0' c1' x : 0 < c0 -> c0 < c0' -> 0 < c1 -> c1 <= c1' -> 0 < x ->
  vangent_curve c0 c1 x < vangent_curve c0' c1' x.
Proof.
  intros. rewrite !curve_G by lra. assert (0 < c0 * x) by rpos. assert (c0 * x < c0' * x) by (apply Rmult_lt_compat_r; lra).
  apply (G_mono (c0 * x) (c0' * x) (c1 / 2) (c1' / 2)); lra.
Qed.
Lemma curve_scale c0 c1 xi t : 0 < c0 -> 0 < c1 -> 0 < xi -> 0 < t <= 1 ->
  t * vangent_curve c0 c1 xi <= vangent_curve c0 c1 (t * xi).
Proof.
  intros. assert (0 < t * xi) by rpos. rewrite !curve_G by assumption.
  replace (c0 * (t * xi)) with (t * (c0 * xi)) by ring. apply G_scale; rpos || assumption.
Qed.

(** ** The functions on finite values *)
Lemma zXp_fin H T gamma cot c0 c1 : 0 < H -> 0 < T -> 0 < cot -> 0 < c0 ->
  calculate_wave_runup_height_zXp (Fin H) (Fin T) (Fin gamma) (Fin cot) (Fin c0) (Fin c1)
  = Fin (gamma * H * vangent_curve c0 c1 (iribarren g0 H T (1 / cot))).
Proof.
  intros HH HT Hc H0. unfold calculate_wave_runup_height_zXp. rewrite iribarren_fin by (assumption || lra).
  assert (X : 0 < iribarren g0 H T (1 / cot)) by (apply iribarren_pos; try apply g0_pos; try assumption; rpos).
  set (xi := iribarren g0 H T (1 / cot)) in *. nfin. unfold vangent_curve.
  replace (0.5 * c1 / c0) with (c1 / (2 * c0)) by (rfield; lra). unfold Rltb.
  destruct (Rlt_dec xi (c1 / (2 * c0))); f_equal; [ring|rfield; lra].
Qed.

Lemma invert_fin H z T gamma cot c0 c1 : 0 < H -> 0 < T -> 0 < gamma -> 0 < cot -> 0 < c0 -> 0 < c1 ->
  invert_for_Hs (Fin H) (Fin z) (Fin T) (Fin gamma) (Fin cot) (Fin c0) (Fin c1)
  = Fin (z / (gamma * vangent_curve c0 c1 (iribarren g0 H T (1 / cot)))).
Proof.
  intros HH HT Hg Hc H0 H1. unfold invert_for_Hs. rewrite iribarren_fin by (assumption || lra).
  assert (X : 0 < iribarren g0 H T (1 / cot)) by (apply iribarren_pos; try apply g0_pos; try assumption; rpos).
  set (xi := iribarren g0 H T (1 / cot)) in *.
  pose proof (curve_pos c0 c1 xi H0 H1 X) as P. unfold vangent_curve in *.
  assert (0 < c0 * xi * gamma) by rpos.
  rewrite !nmul_fin, !npow_fin_2, nmul_fin, !ndiv_fin, nlt_fin by lra.
  replace (0.5 * c1 / c0) with (c1 / (2 * c0)) by (rfield; lra). unfold Rltb.
  destruct (Rlt_dec xi (c1 / (2 * c0))).
  - f_equal. field. lra.
  - rewrite nsub_fin, nmul_fin.
    replace (c1 - 0.25 * c1 ^ 2 / c0 / xi) with (c1 - c1 ^ 2 / (4 * c0) / xi) by (rfield; lra).
    set (q := c1 - c1 ^ 2 / (4 * c0) / xi) in *. assert (0 < q * gamma) by rpos. rewrite ndiv_fin by lra.
    f_equal. f_equal. ring.
Qed.

(** ** Dependence of the surf-similarity parameter on the inputs *)
Lemma xi_scale_H H k T t : 0 < H -> 0 < k -> 0 < T -> 
  iribarren g0 (k * H) T t = / sqrt k * iribarren g0 H T t.
Proof.
  intros. unfold iribarren. pose proof g0_pos. pose proof (steepness_pos g0 H T H3 H0 H2).
  replace (steepness g0 (k * H) T) with (k * steepness g0 H T) by (unfold steepness; field; split; lra).
  rewrite sqrt_mult by lra. assert (0 < sqrt k) by rpos. assert (0 < sqrt (steepness g0 H T)) by rpos. field. lra.
Qed.
Lemma xi_scale_T H k T t : 0 < H -> 0 < k -> 0 < T ->
  iribarren g0 H (k * T) t = k * iribarren g0 H T t.
Proof.
  intros. unfold iribarren. pose proof g0_pos. pose proof (steepness_pos g0 H T H3 H0 H2).
  replace (steepness g0 H (k * T)) with (steepness g0 H T / (k * k)) by (unfold steepness; field; split; lra).
  rewrite sqrt_div by rpos. rewrite sqrt_square by lra. assert (0 < sqrt (steepness g0 H T)) by rpos. field. lra.
Qed.

(** Relative run-up as a function of the wave height alone. *)
Section ByHeight.
Variables (T cot c0 c1 : R).
Hypotheses (HT : 0 < T) (Hcot : 0 < cot) (H0 : 0 < c0) (H1 : 0 < c1).
Definition rel (H : R) : R := vangent_curve c0 c1 (iribarren g0 H T (1 / cot)).

Lemma xi_p H : 0 < H -> 0 < iribarren g0 H T (1 / cot).
Proof. intros. apply iribarren_pos; try apply g0_pos; try assumption; rpos. Qed.
Lemma rel_pos H : 0 < H -> 0 < rel H.
Proof. intros. apply curve_pos; try assumption. apply xi_p; assumption. Qed.
Lemma rel_lt H : 0 < H -> rel H < c1.
Proof. intros. apply curve_lt_c1; try assumption. apply xi_p; assumption. Qed.

Lemma rel_between x y : 0 < x -> x <= y -> rel y <= rel x <= sqrt (y / x) * rel y.
Proof.
  intros Hx Hy. set (k := y / x). assert (Hk : 1 <= k).
  { unfold k. apply (Rmult_le_reg_r x); [assumption|]. unfold Rdiv. rewrite Rmult_assoc, Rinv_l by lra. lra. }
  assert (Ey : y = k * x) by (unfold k; field; lra).
  assert (Hs : 1 <= sqrt k) by (rewrite <- sqrt_1; apply sqrt_le_1_alt; assumption).
  assert (Ht : 0 < / sqrt k <= 1). { split; [apply Rinv_0_lt_compat; lra|]. rewrite <- Rinv_1. apply Rinv_le_contravar; lra. }
  pose proof (xi_p x Hx) as X. unfold rel. rewrite Ey. rewrite (xi_scale_H x k T (1 / cot)) by (assumption || lra).
  set (xi := iribarren g0 x T (1 / cot)) in *. split.
  - assert (/ sqrt k * xi <= xi) by nra. destruct (Req_dec (/ sqrt k * xi) xi) as [->|N]; [lra|].
    apply Rlt_le, curve_increasing; try assumption; [rpos|lra].
  - pose proof (curve_scale c0 c1 xi (/ sqrt k) H0 H1 X Ht) as Q.
    apply (Rmult_le_compat_l (sqrt k)) in Q; [|lra]. rewrite <- Rmult_assoc, Rinv_r, Rmult_1_l in Q by lra. exact Q.
Qed.

(** The run-up level strictly increases with the wave height. *)
Lemma level_increasing x y : 0 < x -> x < y -> x * rel x < y * rel y.
Proof.
  intros Hx Hy. destruct (rel_between x y Hx ltac:(lra)) as [_ B]. pose proof (rel_pos y ltac:(lra)) as P.
  set (k := y / x) in *. assert (Ey : y = k * x) by (unfold k; field; lra).
  assert (Hk : 1 < k). { apply (Rmult_lt_reg_r x); [assumption|]. lra. }
  assert (Hs : sqrt k < k). { rewrite <- (sqrt_square k) at 2 by lra. apply sqrt_lt_1_alt. nra. }
  apply Rle_lt_trans with (x * (sqrt k * rel y)); [apply Rmult_le_compat_l; lra|].
  rewrite Ey at 2. assert (sqrt k * rel y < k * rel y) by (apply Rmult_lt_compat_r; assumption).
  replace (k * x * rel y) with (x * (k * rel y)) by ring. apply Rmult_lt_compat_l; assumption.
Qed.
End ByHeight.
