(** The wave-height search shared by the two rear-side modules. *)
From Coq Require Import Reals Lra Lia List Bool String Psatz.
From Verif.Lib Require Import Num Monad RTac NTac Contraction.
From Verif.Model Require Import RearVanGent2007.
Open Scope R_scope.

(** One more step from x lands within 2 tol of the root p once the step is not
    larger than tol, whenever the step function overshoots by at most a square
    root on either side. *)
Lemma near_root p x v tol : 0 < p -> 0 < x -> 0 < v -> 0 <= tol ->
  (p <= x -> v * v <= x * p) -> (x <= p -> x * p <= v * v) ->
  Rabs (v - x) <= tol -> v <= 2 * tol \/ Rabs (v - p) <= 2 * tol.
Proof.
  intros Hp Hx Hv Ht Ha Hb L. assert (L' : - tol <= v - x <= tol).
  { pose proof (Rle_abs (v - x)). pose proof (Rle_abs (- (v - x))) as A. rewrite Rabs_Ropp in A. lra. }
  destruct (Rle_or_lt p x) as [C|C].
  - right. specialize (Ha C). destruct (Rle_or_lt v p).
    + rewrite Rabs_left1 by lra. lra.
    + rewrite Rabs_pos_eq by lra. assert (p * (v - p) <= p * (x - v)) by nra.
      apply Rmult_le_reg_l in H0; lra.
  - specialize (Hb ltac:(lra)). destruct (Rle_or_lt p v).
    + right. rewrite Rabs_pos_eq by lra. lra.
    + destruct (Rle_or_lt v (2 * tol)); [left; assumption|right]. rewrite Rabs_left1 by lra.
      apply Rnot_lt_le. intros D. set (d := p - v) in *. assert (Ep : p = v + d) by (unfold d; ring).
      assert (v * d <= p * tol) by nra. assert (d * (2 * tol) <= d * v) by (apply Rmult_le_compat_l; lra).
      assert (v * (2 * tol) < v * d) by (apply Rmult_lt_compat_l; lra). nra.
Qed.

Section Search.
Variables (z_of : num -> num) (H_of : num -> num -> num) (zf F : R -> R) (P : R -> Prop) (tol : R).
Hypothesis Hz : forall x, P x -> z_of (Fin x) = Fin (zf x).
Hypothesis HF : forall x, P x -> H_of (Fin x) (Fin (zf x)) = Fin (F x).
Hypothesis HP : forall x, P x -> P (F x).

Lemma search_run : forall n x, P x ->
  exists todo y, P y
    /\ search z_of H_of (Fin tol) n (Fin (F x)) (Fin x) (Some (Fin (zf x))) = (todo, Fin (F y), Some (Fin (zf y)))
    /\ (todo = 0%nat \/ Rabs (F y - y) <= tol)
    /\ ((exists m, (m < n)%nat /\ Rabs (iter F (S m) x - iter F m x) <= tol) -> todo <> 0%nat).
Proof.
  induction n; intros x Hx; cbn [search].
  - exists 0%nat, x. split; [assumption|]. split; [reflexivity|]. split; [left; reflexivity|]. intros (m & Hm & _). lia.
  - nfin. destruct (Rltb_spec tol (Rabs (F x - x))) as [L|L].
    + rewrite Hz, HF by auto. destruct (IHn (F x) (HP x Hx)) as (todo & y & Hy & E & St & Te). exists todo, y.
      split; [assumption|]. split; [exact E|]. split; [exact St|]. intros (m & Hm & Lm). apply Te.
      destruct m; [exfalso; cbn in Lm; lra|]. exists m. split; [lia|]. rewrite !iter_S_r in Lm. rewrite iter_S_r. exact Lm.
    + exists (S n), x. split; [assumption|]. split; [reflexivity|]. split; [right; lra|]. discriminate.
Qed.

Lemma search_start n x : P x ->
  exists todo y, P y
    /\ search z_of H_of (Fin tol) (S n) (Fin x) (Fin x + PInf)%num None = (todo, Fin (F y), Some (Fin (zf y)))
    /\ (todo = 0%nat \/ Rabs (F y - y) <= tol)
    /\ ((exists m, (m < n)%nat /\ Rabs (iter F (S m) x - iter F m x) <= tol) -> todo <> 0%nat).
Proof.
  intros Hx. cbn [search]. change (nabs (Fin x - (Fin x + PInf))%num) with PInf. change (ngt PInf (Fin tol)) with true.
  cbv iota zeta. rewrite Hz, HF by assumption. apply search_run. assumption.
Qed.
End Search.
