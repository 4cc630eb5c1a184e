(** The iteration for the influence of wind on the freeboard: an increasing,
    concave map [x0 + B ln (1 + c (x - a))]. *)
From Coq Require Import Reals Lra Lia.
From Verif.Lib Require Import RTac Contraction.
From Verif.Proofs Require Import Overtopping.
Open Scope R_scope.

Lemma ln_le_sub_1 u : 0 < u -> ln u <= u - 1.
Proof.
  intros H. destruct (Req_dec u 1) as [->|N]; [rewrite ln_1; lra|].
  assert (L : ln u <> 0). { intros E. apply N. apply ln_inj_eq; [assumption|lra|]. rewrite ln_1. assumption. }
  pose proof (exp_ineq1 (ln u) L) as I. rewrite exp_ln in I by assumption. lra.
Qed.

Lemma ln_lipschitz m u v : 0 < m -> m <= u -> m <= v -> Rabs (ln u - ln v) <= Rabs (u - v) / m.
Proof.
  intros Hm. assert (A : forall u v, m <= u -> u <= v -> Rabs (ln u - ln v) <= Rabs (u - v) / m).
  { clear u v. intros u v Hu Huv. rewrite (Rabs_minus_sym u v), (Rabs_pos_eq (v - u)) by lra.
    assert (ln u <= ln v) by (destruct (Req_dec u v) as [->|]; [lra|left; apply ln_increasing; lra]).
    rewrite Rabs_minus_sym, Rabs_pos_eq by lra. rewrite <- ln_div by lra.
    eapply Rle_trans; [apply ln_le_sub_1; apply Rdiv_lt_0_compat; lra|].
    replace (v / u - 1) with ((v - u) * / u) by (field; lra).
    apply Rmult_le_compat_l; [lra|]. apply Rinv_le_contravar; lra. }
  intros Hu Hv. destruct (Rle_lt_dec u v) as [L|L]; [apply A; assumption|].
  rewrite Rabs_minus_sym, (Rabs_minus_sym u). apply A; lra.
Qed.

Section Wind.
Variables x0 B c a : R.
Hypotheses (HB : 0 < B) (Hc : 0 < c) (Ha : a <= x0).
Definition windf (x : R) : R := x0 + B * ln (1 + c * (x - a)).

Lemma wind_arg x : x0 <= x -> 1 <= 1 + c * (x - a).
Proof. intros. assert (0 <= c * (x - a)) by (apply Rmult_le_pos; lra). lra. Qed.

Lemma windf_above x : x0 <= x -> x0 <= windf x.
Proof.
  intros Hx. unfold windf. pose proof (wind_arg x Hx).
  assert (0 <= ln (1 + c * (x - a))) by (rewrite <- ln_1; destruct (Req_dec 1 (1 + c * (x - a))) as [<-|]; [lra|left; apply ln_increasing; lra]).
  assert (0 <= B * ln (1 + c * (x - a))) by (apply Rmult_le_pos; lra). lra.
Qed.

Lemma windf_mono x y : x0 <= x -> x <= y -> windf x <= windf y.
Proof.
  intros Hx Hxy. unfold windf. pose proof (wind_arg x Hx).
  apply Rplus_le_compat_l, Rmult_le_compat_l; [lra|].
  assert (c * (x - a) <= c * (y - a)) by (apply Rmult_le_compat_l; lra).
  destruct (Req_dec (1 + c * (x - a)) (1 + c * (y - a))) as [->|]; [lra|left; apply ln_increasing; lra].
Qed.

Lemma iter_above n : x0 <= iter windf n x0.
Proof. induction n; [apply Rle_refl|]. rewrite iter_S. apply windf_above. assumption. Qed.

Lemma iter_increasing n : iter windf n x0 <= iter windf (S n) x0.
Proof.
  induction n; [apply windf_above; apply Rle_refl|]. rewrite (iter_S _ (S n)), (iter_S _ n).
  apply windf_mono; [apply iter_above|]. exact IHn.
Qed.

Lemma iter_below y n : x0 <= y -> windf y <= y -> iter windf n x0 <= y.
Proof.
  intros Hy Hf. induction n; [assumption|]. rewrite iter_S. eapply Rle_trans; [|apply Hf]. apply windf_mono; [apply iter_above|assumption].
Qed.

Lemma iter_strictly_below y n : x0 < y -> windf y < y -> iter windf n x0 < y.
Proof.
  intros Hy Hf. destruct n; [assumption|]. rewrite iter_S. eapply Rle_lt_trans; [|apply Hf].
  apply windf_mono; [apply iter_above|]. apply iter_below; lra.
Qed.

(** The contraction factor on the freeboards above [x0]. *)
Definition windk : R := B * c / (1 + c * (x0 - a)).

Lemma windf_lipschitz x y : x0 <= x -> x0 <= y -> Rabs (windf x - windf y) <= windk * Rabs (x - y).
Proof.
  intros Hx Hy. unfold windf, windk.
  replace (x0 + B * ln (1 + c * (x - a)) - (x0 + B * ln (1 + c * (y - a))))
    with (B * (ln (1 + c * (x - a)) - ln (1 + c * (y - a)))) by ring.
  rewrite Rabs_mult, (Rabs_pos_eq B) by lra.
  set (m := 1 + c * (x0 - a)). assert (Hm : 1 <= m) by (apply wind_arg; lra).
  assert (c * (x0 - a) <= c * (x - a)) by (apply Rmult_le_compat_l; lra).
  assert (c * (x0 - a) <= c * (y - a)) by (apply Rmult_le_compat_l; lra).
  pose proof (ln_lipschitz m (1 + c * (x - a)) (1 + c * (y - a)) ltac:(lra) ltac:(unfold m; lra) ltac:(unfold m; lra)) as L.
  replace (1 + c * (x - a) - (1 + c * (y - a))) with (c * (x - y)) in L by ring.
  rewrite Rabs_mult, (Rabs_pos_eq c) in L by lra.
  replace (B * c / m * Rabs (x - y)) with (B * (c * Rabs (x - y) / m)) by (field; lra).
  apply Rmult_le_compat_l; lra.
Qed.

Definition windF (x : R) : R := windf (Rmax x x0).

Lemma windk_pos : 0 <= windk.
Proof. unfold windk. pose proof (wind_arg x0 (Rle_refl _)). left. apply Rdiv_lt_0_compat; [apply Rmult_lt_0_compat; assumption|lra]. Qed.

Lemma Rmax_lip x y : Rabs (Rmax x x0 - Rmax y x0) <= Rabs (x - y).
Proof. unfold Rmax. repeat destruct Rle_dec; unfold Rabs; repeat destruct Rcase_abs; lra. Qed.

Lemma windF_lip x y : Rabs (windF x - windF y) <= windk * Rabs (x - y).
Proof.
  unfold windF. eapply Rle_trans; [apply windf_lipschitz; apply Rmax_r|].
  apply Rmult_le_compat_l; [apply windk_pos|apply Rmax_lip].
Qed.

Lemma windF_eq x : x0 <= x -> windF x = windf x.
Proof. intros. unfold windF. rewrite Rmax_left by assumption. reflexivity. Qed.

Lemma iter_windF n : iter windF n x0 = iter windf n x0.
Proof. induction n; [reflexivity|]. rewrite !iter_S, IHn. apply windF_eq. apply iter_above. Qed.

Lemma wind_solution : windk < 1 ->
  exists p, x0 <= p /\ windf p = p /\ (forall q, x0 <= q -> windf q = q -> q = p)
    /\ (forall x, x0 <= x -> Rabs (windf x - p) <= windk / (1 - windk) * Rabs (windf x - x)).
Proof.
  intros Hk. pose proof windk_pos. destruct (banach_exists windF windk ltac:(lra) windF_lip) as (p & Hp & _).
  assert (Hp0 : x0 <= p). { rewrite <- Hp. unfold windF. apply windf_above. apply Rmax_r. }
  exists p. split; [assumption|]. rewrite <- windF_eq by assumption. split; [assumption|]. split.
  - intros q Hq Eq. apply (banach_unique windF windk ltac:(lra) windF_lip); [rewrite windF_eq by assumption; assumption|assumption].
  - intros x Hx. rewrite <- windF_eq by assumption. apply (banach_posteriori windF windk ltac:(lra) windF_lip). assumption.
Qed.

Lemma wind_error p n : x0 <= p -> windf p = p -> p - iter windf n x0 <= windk ^ n * (p - x0).
Proof.
  intros Hp Ep. pose proof windk_pos. induction n; [cbn; lra|]. rewrite iter_S. cbn [pow].
  pose proof (windf_lipschitz p (iter windf n x0) Hp (iter_above n)) as L. rewrite Ep in L.
  pose proof (iter_below p n Hp ltac:(lra)). rewrite (Rabs_pos_eq (p - iter windf n x0)) in L by lra.
  pose proof (Rle_abs (p - windf (iter windf n x0))).
  assert (windk * (p - iter windf n x0) <= windk * (windk ^ n * (p - x0))) by (apply Rmult_le_compat_l; assumption). lra.
Qed.

Lemma wind_stops n : windk < 1 ->
  Rabs (iter windf (S n) x0 - iter windf n x0) <= windk ^ n * (windf x0 - x0).
Proof.
  intros Hk. pose proof windk_pos. rewrite <- !iter_windF.
  eapply Rle_trans; [apply (iter_step windF windk ltac:(lra) windF_lip)|].
  rewrite windF_eq by apply Rle_refl. rewrite (Rabs_pos_eq (windf x0 - x0)); [lra|].
  pose proof (windf_above x0 (Rle_refl _)). lra.
Qed.
End Wind.
