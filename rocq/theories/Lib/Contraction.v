(** Contractions of the real line, and maps of the positive reals that are
    contractions after taking logarithms. *)
From Coq Require Import Reals Lra Lia.
From Verif.Lib Require Import Num RTac.
Open Scope R_scope.

Definition iter (g : R -> R) (n : nat) (x : R) : R := Nat.iter n g x.

Lemma iter_S g n x : iter g (S n) x = g (iter g n x). Proof. reflexivity. Qed.
Lemma iter_S_r g n x : iter g (S n) x = iter g n (g x).
Proof. induction n; [reflexivity|]. rewrite iter_S, IHn. reflexivity. Qed.

Lemma Rabs_sub_le a b : Rabs (a - b) <= Rabs a + Rabs b.
Proof. unfold Rminus. eapply Rle_trans; [apply Rabs_triang|]. rewrite Rabs_Ropp. lra. Qed.

Section Banach.
Variables (g : R -> R) (k : R).
Hypothesis Hk : 0 <= k < 1.
Hypothesis Hg : forall x y, Rabs (g x - g y) <= k * Rabs (x - y).

Lemma iter_step n x : Rabs (iter g (S n) x - iter g n x) <= k ^ n * Rabs (g x - x).
Proof.
  induction n.
  - simpl. lra.
  - rewrite (iter_S g (S n)), (iter_S g n) at 1.
    eapply Rle_trans; [apply Hg|]. simpl pow. rewrite Rmult_assoc.
    apply Rmult_le_compat_l; [lra|]. exact IHn.
Qed.

Lemma pow_k_pos n : 0 <= k ^ n. Proof. apply pow_le. lra. Qed.

Lemma iter_dist n m x :
  Rabs (iter g (n + m) x - iter g n x) <= k ^ n * Rabs (g x - x) / (1 - k).
Proof.
  assert (A : forall j, Rabs (iter g (n + j) x - iter g n x)
                <= k ^ n * Rabs (g x - x) * ((1 - k ^ j) / (1 - k))).
  { induction j.
    - rewrite Nat.add_0_r, Rminus_eq_0, Rabs_R0. simpl pow.
      replace ((1 - 1) / (1 - k)) with 0 by (field; lra). lra.
    - rewrite Nat.add_succ_r.
      replace (iter g (S (n + j)) x - iter g n x)
        with ((iter g (S (n + j)) x - iter g (n + j) x) + (iter g (n + j) x - iter g n x)) by ring.
      eapply Rle_trans; [apply Rabs_triang|].
      eapply Rle_trans; [apply Rplus_le_compat; [apply iter_step | exact IHj]|].
      rewrite pow_add. simpl pow. right. field. lra. }
  eapply Rle_trans; [apply A|].
  replace (k ^ n * Rabs (g x - x) / (1 - k)) with (k ^ n * Rabs (g x - x) * (1 / (1 - k))) by (field; lra).
  apply Rmult_le_compat_l.
  - apply Rmult_le_pos; [apply pow_k_pos | apply Rabs_pos].
  - apply Rmult_le_compat_r; [apply Rlt_le, Rinv_0_lt_compat; lra|].
    pose proof (pow_k_pos m). lra.
Qed.

Lemma k_pow_small eps : 0 < eps -> exists N, forall n, (n >= N)%nat -> k ^ n < eps.
Proof.
  intros. destruct (pow_lt_1_zero k) with (y := eps) as (N & HN); [|assumption|].
  - rewrite Rabs_pos_eq; lra.
  - exists N. intros n Hn. specialize (HN n Hn). rewrite Rabs_pos_eq in HN; [assumption|apply pow_k_pos].
Qed.

Lemma iter_cauchy x : Cauchy_crit (fun n => iter g n x).
Proof.
  intros eps He.
  set (d := Rabs (g x - x) / (1 - k)).
  assert (Hd : 0 <= d) by (unfold d; apply Rmult_le_pos; [apply Rabs_pos | apply Rlt_le, Rinv_0_lt_compat; lra]).
  destruct (k_pow_small (eps / (2 * (d + 1)))) as (N & HN).
  { apply Rdiv_lt_0_compat; lra. }
  exists N. intros n m Hn Hm. unfold R_dist.
  assert (B : forall j, (j >= N)%nat -> Rabs (iter g j x - iter g N x) <= eps / 2 * (d / (d + 1))).
  { intros j Hj. replace j with (N + (j - N))%nat by lia.
    eapply Rle_trans; [apply iter_dist|]. unfold Rdiv. rewrite Rmult_assoc. fold (Rabs (g x - x) / (1 - k)).
    fold d. specialize (HN N (Nat.le_refl _)).
    replace (eps * / 2 * (d * / (d + 1))) with (eps / (2 * (d + 1)) * d) by (field; lra).
    apply Rmult_le_compat_r; lra. }
  assert (C : d / (d + 1) < 1).
  { apply (Rmult_lt_reg_r (d + 1)); [lra|]. unfold Rdiv. rewrite Rmult_assoc, Rinv_l by lra. lra. }
  assert (C0 : 0 <= d / (d + 1)) by (apply Rmult_le_pos; [lra| apply Rlt_le, Rinv_0_lt_compat; lra]).
  replace (iter g n x - iter g m x) with ((iter g n x - iter g N x) - (iter g m x - iter g N x)) by ring.
  eapply Rle_lt_trans; [apply Rabs_sub_le|]. 
  pose proof (B n Hn). pose proof (B m Hm). nra.
Qed.

Lemma banach_exists : exists p, g p = p /\ forall x, Un_cv (fun n => iter g n x) p.
Proof.
  destruct (R_complete _ (iter_cauchy 0)) as (p & Hp).
  assert (Hfix : g p = p).
  { apply cond_eq. intros eps He.
    destruct (Hp (eps / 3)) as (N & HN); [lra|].
    pose proof (HN N (Nat.le_refl _)) as H1. pose proof (HN (S N) (Nat.le_succ_diag_r _)) as H2.
    unfold R_dist in *. rewrite iter_S in H2.
    replace (g p - p) with (- (g (iter g N 0) - g p) + (g (iter g N 0) - p)) by ring.
    eapply Rle_lt_trans; [apply Rabs_triang|]. rewrite Rabs_Ropp.
    pose proof (Hg (iter g N 0) p). pose proof (Rabs_pos (iter g N 0 - p)). nra. }
  exists p. split; [exact Hfix|].
  intros x.
  assert (D : forall n, Rabs (iter g n x - p) <= k ^ n * Rabs (x - p)).
  { induction n; [simpl; lra|]. rewrite iter_S. rewrite <- Hfix at 1.
    eapply Rle_trans; [apply Hg|]. simpl pow. rewrite Rmult_assoc. apply Rmult_le_compat_l; [lra|exact IHn]. }
  intros eps He. set (d := Rabs (x - p)).
  destruct (k_pow_small (eps / (d + 1))) as (N & HN).
  { apply Rdiv_lt_0_compat; [lra|]. pose proof (Rabs_pos (x - p)). unfold d. lra. }
  exists N. intros n Hn. unfold R_dist. eapply Rle_lt_trans; [apply D|]. fold d.
  assert (0 <= d) by apply Rabs_pos.
  specialize (HN n Hn). apply (Rle_lt_trans _ (k ^ n * (d + 1))).
  - pose proof (pow_k_pos n). nra.
  - apply (Rmult_lt_compat_r (d + 1)) in HN; [|lra].
    replace (eps / (d + 1) * (d + 1)) with eps in HN by (field; lra). exact HN.
Qed.

Lemma banach_unique p q : g p = p -> g q = q -> p = q.
Proof.
  intros Hp Hq. pose proof (Hg p q) as H. rewrite Hp, Hq in H.
  destruct (Req_dec p q) as [|N]; [assumption|exfalso].
  assert (0 < Rabs (p - q)) by (apply Rabs_pos_lt; lra). nra.
Qed.

(** A posteriori error of one more step. *)
Lemma banach_posteriori p x : g p = p -> Rabs (g x - p) <= k / (1 - k) * Rabs (g x - x).
Proof.
  intros Hp. pose proof (Hg x p) as H. rewrite Hp in H.
  assert (Rabs (x - p) <= Rabs (g x - x) + Rabs (g x - p)).
  { replace (x - p) with (- (g x - x) + (g x - p)) by ring.
    eapply Rle_trans; [apply Rabs_triang|]. rewrite Rabs_Ropp. lra. }
  apply (Rmult_le_reg_r (1 - k)); [lra|].
  replace (k / (1 - k) * Rabs (g x - x) * (1 - k)) with (k * Rabs (g x - x)) by (field; lra).
  nra.
Qed.
End Banach.

(** ** Maps of the positive reals that contract logarithms *)
Section LogContraction.
Variables (f : R -> R) (k : R).
Hypothesis Hk : 0 <= k < 1.
Hypothesis Hpos : forall x, 0 < x -> 0 < f x.
Hypothesis Hf : forall x y, 0 < x -> 0 < y -> Rabs (ln (f x) - ln (f y)) <= k * Rabs (ln x - ln y).

Let g (u : R) : R := ln (f (exp u)).

Lemma Hg_log : forall u v, Rabs (g u - g v) <= k * Rabs (u - v).
Proof.
  intros. unfold g. eapply Rle_trans; [apply Hf; apply exp_pos|]. rewrite !ln_exp. lra.
Qed.

Lemma iter_pos n x : 0 < x -> 0 < iter f n x.
Proof. intros. induction n; [assumption|]. rewrite iter_S. auto. Qed.

Lemma iter_log n x : 0 < x -> iter g n (ln x) = ln (iter f n x).
Proof.
  intros. induction n; [reflexivity|]. rewrite !iter_S, IHn. unfold g.
  rewrite exp_ln by (apply iter_pos; assumption). reflexivity.
Qed.

Lemma log_contraction_fixpoint :
  exists p, 0 < p /\ f p = p
    /\ (forall q, 0 < q -> f q = q -> q = p)
    /\ (forall x, 0 < x -> Rabs (ln (f x) - ln p) <= k / (1 - k) * Rabs (ln (f x) - ln x)).
Proof.
  destruct (banach_exists g k Hk Hg_log) as (u & Hu & _).
  exists (exp u). split; [apply exp_pos|].
  assert (F : f (exp u) = exp u).
  { rewrite <- (exp_ln (f (exp u))) by (apply Hpos, exp_pos). f_equal. exact Hu. }
  split; [exact F|]. split.
  - intros q Hq E. rewrite <- (exp_ln q Hq). f_equal.
    apply (banach_unique g k Hk Hg_log); [|exact Hu]. unfold g. rewrite exp_ln by assumption. congruence.
  - intros x Hx. pose proof (banach_posteriori g k Hk Hg_log u (ln x) Hu) as B.
    unfold g in B. rewrite exp_ln in B by assumption. rewrite ln_exp. exact B.
Qed.

(** The iterates get arbitrarily close to each other. *)
Lemma log_contraction_stops x eps : 0 < x -> 0 < eps ->
  exists N, forall n, (n >= N)%nat -> Rabs (iter f (S n) x - iter f n x) < eps.
Proof.
  intros Hx He.
  destruct (banach_exists g k Hk Hg_log) as (u & Hu & Hc).
  specialize (Hc (ln x)).
  assert (Hcv : Un_cv (fun n => iter f n x) (exp u)).
  { assert (Un_cv (fun n => exp (iter g n (ln x))) (exp u)).
    { apply (continuity_seq exp). { apply derivable_continuous_pt, derivable_pt_exp. } exact Hc. }
    intros e Hpe. destruct (H e Hpe) as (N & HN). exists N. intros n Hn. specialize (HN n Hn).
    rewrite iter_log, exp_ln in HN by (try apply iter_pos; assumption). exact HN. }
  destruct (Hcv (eps / 2)) as (N & HN); [lra|].
  exists N. intros n Hn. pose proof (HN n Hn) as H1.
  assert (S n >= N)%nat as Hn' by lia. pose proof (HN (S n) Hn') as H2. unfold R_dist in *.
  replace (iter f (S n) x - iter f n x)
    with ((iter f (S n) x - exp u) - (iter f n x - exp u)) by ring.
  eapply Rle_lt_trans; [apply Rabs_sub_le|]. lra.
Qed.
End LogContraction.

(** Sufficient conditions: the map is monotone and changes by at most the
    factor (y/x)^k between x and y. *)
Lemma log_lip_increasing f k :
  0 <= k ->
  (forall x, 0 < x -> 0 < f x) ->
  (forall x y, 0 < x -> x <= y -> f x <= f y <= Rpower (y / x) k * f x) ->
  forall x y, 0 < x -> 0 < y -> Rabs (ln (f x) - ln (f y)) <= k * Rabs (ln x - ln y).
Proof.
  intros Hk Hp H.
  assert (W : forall x y, 0 < x -> x <= y -> Rabs (ln (f x) - ln (f y)) <= k * Rabs (ln x - ln y)).
  { intros x y Hx Hxy. destruct (H x y Hx Hxy) as [H1 H2].
    pose proof (Hp x Hx). assert (0 < y) by lra. pose proof (Hp y ltac:(lra)).
    assert (ln (f x) <= ln (f y)).
    { destruct (Req_dec (f x) (f y)) as [->|]; [lra|]. apply Rlt_le, ln_increasing; lra. }
    assert (ln (f y) <= k * (ln y - ln x) + ln (f x)).
    { replace (k * (ln y - ln x) + ln (f x)) with (ln (Rpower (y / x) k * f x)).
      - destruct (Req_dec (f y) (Rpower (y / x) k * f x)) as [->|]; [lra|]. apply Rlt_le, ln_increasing; lra.
      - rewrite ln_mult by rpos. rewrite ln_Rpower, ln_div by lra. reflexivity. }
    rewrite Rabs_left1 by lra. rewrite Rabs_left1.
    - lra.
    - destruct (Req_dec x y) as [->|]; [lra|]. assert (ln x < ln y) by (apply ln_increasing; lra). lra. }
  intros x y Hx Hy. destruct (Rle_or_lt x y); [apply W; assumption|].
  rewrite Rabs_minus_sym, (Rabs_minus_sym (ln x)). apply W; lra.
Qed.

Lemma log_lip_decreasing f k :
  0 <= k ->
  (forall x, 0 < x -> 0 < f x) ->
  (forall x y, 0 < x -> x <= y -> f y <= f x <= Rpower (y / x) k * f y) ->
  forall x y, 0 < x -> 0 < y -> Rabs (ln (f x) - ln (f y)) <= k * Rabs (ln x - ln y).
Proof.
  intros Hk Hp H.
  assert (W : forall x y, 0 < x -> x <= y -> Rabs (ln (f x) - ln (f y)) <= k * Rabs (ln x - ln y)).
  { intros x y Hx Hxy. destruct (H x y Hx Hxy) as [H1 H2].
    pose proof (Hp x Hx). assert (0 < y) by lra. pose proof (Hp y ltac:(lra)).
    assert (ln (f y) <= ln (f x)).
    { destruct (Req_dec (f x) (f y)) as [->|]; [lra|]. apply Rlt_le, ln_increasing; lra. }
    assert (ln (f x) <= k * (ln y - ln x) + ln (f y)).
    { replace (k * (ln y - ln x) + ln (f y)) with (ln (Rpower (y / x) k * f y)).
      - destruct (Req_dec (f x) (Rpower (y / x) k * f y)) as [->|]; [lra|]. apply Rlt_le, ln_increasing; lra.
      - rewrite ln_mult by rpos. rewrite ln_Rpower, ln_div by lra. reflexivity. }
    rewrite Rabs_pos_eq by lra. rewrite Rabs_left1.
    - lra.
    - destruct (Req_dec x y) as [->|]; [lra|]. assert (ln x < ln y) by (apply ln_increasing; lra). lra. }
  intros x y Hx Hy. destruct (Rle_or_lt x y); [apply W; assumption|].
  rewrite Rabs_minus_sym, (Rabs_minus_sym (ln x)). apply W; lra.
Qed.

(** ** The fixed-point loop "repeat x := F x until the change is at most tol" *)
Fixpoint rloop (F : R -> R) (tol : R) (fuel : nat) (x d : R) : option R :=
  if Rltb tol d then
    match fuel with
    | O => None
    | S fuel => rloop F tol fuel (F x) (Rabs (F x - x))
    end
  else Some x.

Lemma rloop_result F tol fuel : forall x d y,
  rloop F tol fuel x d = Some y ->
  (d <= tol /\ y = x)
  \/ exists j, y = F (iter F j x) /\ Rabs (y - iter F j x) <= tol.
Proof.
  induction fuel; intros x d y E; simpl in E; destruct (Rltb_spec tol d) as [L|L].
  - discriminate.
  - injection E as ->. left. split; [lra|reflexivity].
  - apply IHfuel in E. right. destruct E as [(H1 & ->) | (j & E1 & E2)].
    + exists 0%nat. split; [reflexivity|exact H1].
    + exists (S j). rewrite iter_S_r. split; assumption.
  - injection E as ->. left. split; [lra|reflexivity].
Qed.

Lemma rloop_terminates F tol x : forall N d,
  (exists n, (n < N)%nat /\ Rabs (iter F (S n) x - iter F n x) <= tol) ->
  forall fuel, (fuel >= N)%nat -> exists y, rloop F tol fuel x d = Some y.
Proof.
  intros N. revert x. induction N; intros x d (n & Hn & H); [lia|].
  intros fuel Hf. destruct fuel as [|fuel]; [lia|]. simpl.
  destruct (Rltb_spec tol d) as [L|L]; [|eauto].
  destruct n as [|n].
  - destruct fuel; simpl; simpl in H; rewrite Rltb_false by lra; eauto.
  - apply IHN; [|lia]. exists n. split; [lia|].
    rewrite <- !iter_S_r. exact H.
Qed.

Lemma rloop_two_cycle F tol x y : F x = y -> F y = x -> tol < Rabs (x - y) ->
  forall fuel d, tol < d -> rloop F tol fuel x d = None.
Proof.
  intros Hx Hy Ht fuel. revert x y Hx Hy Ht. induction fuel; intros x y Hx Hy Ht d Hd; simpl.
  - rewrite Rltb_true by assumption. reflexivity.
  - rewrite Rltb_true by assumption. rewrite Hx.
    apply (IHfuel y x); [assumption..| |]; rewrite ?(Rabs_minus_sym y); assumption.
Qed.

(** ** The same loop with a cap on the number of steps, returning the last iterate *)
Fixpoint rcap (F : R -> R) (tol : R) (cap : nat) (x d : R) : R :=
  if Rltb tol d then
    match cap with
    | O => x
    | S cap => rcap F tol cap (F x) (Rabs (F x - x))
    end
  else x.

Lemma rcap_rloop F tol cap : forall x d y, rloop F tol cap x d = Some y -> rcap F tol cap x d = y.
Proof.
  induction cap; intros x d y E; simpl in *; destruct (Rltb tol d); try discriminate; try congruence. auto.
Qed.

Lemma rcap_invariant (P : R -> Prop) F tol : (forall x, P x -> P (F x)) ->
  forall cap x d, P x -> P (rcap F tol cap x d).
Proof.
  intros HP. induction cap; intros x d Hx; simpl; destruct (Rltb tol d); auto.
Qed.

Lemma rcap_iter F tol : forall cap x d, exists j, (j <= cap)%nat /\ rcap F tol cap x d = iter F j x.
Proof.
  induction cap; intros x d; simpl; destruct (Rltb tol d).
  - exists 0%nat. auto.
  - exists 0%nat. auto.
  - destruct (IHcap (F x) (Rabs (F x - x))) as (j & Hj & E). exists (S j).
    split; [lia|]. rewrite iter_S_r. exact E.
  - exists 0%nat. split; [lia|reflexivity].
Qed.

(** Weighted arithmetic-geometric mean inequality. *)
Lemma ln_le_sub x : 0 < x -> ln x <= x - 1.
Proof. intros H. pose proof (exp_ineq1_le (ln x)) as E. rewrite exp_ln in E by assumption. lra. Qed.

Lemma Rpower_bernoulli r a : 0 < r -> 0 <= a <= 1 -> Rpower r a <= 1 + a * (r - 1).
Proof.
  intros Hr Ha. set (c := 1 + a * (r - 1)).
  assert (Hc : 0 < c).
  { unfold c. destruct (Rle_or_lt 1 r); [assert (0 <= a * (r - 1)) by (apply Rmult_le_pos; lra); lra|].
    assert (a * (1 - r) <= 1 * (1 - r)) by (apply Rmult_le_compat_r; lra). lra. }
  pose proof (ln_le_sub (r / c) ltac:(rpos)) as E1. pose proof (ln_le_sub (1 / c) ltac:(rpos)) as E2.
  rewrite ln_div in E1, E2 by lra. rewrite ln_1 in E2.
  assert (E : a * ln r - ln c <= 0).
  { assert (a * (ln r - ln c) <= a * (r / c - 1)) by (apply Rmult_le_compat_l; lra).
    assert ((1 - a) * (0 - ln c) <= (1 - a) * (1 / c - 1)) by (apply Rmult_le_compat_l; lra).
    assert (a * (r / c - 1) + (1 - a) * (1 / c - 1) = 0).
    { replace (a * (r / c - 1) + (1 - a) * (1 / c - 1)) with ((1 + a * (r - 1)) / c - 1) by (field; lra).
      fold c. field. lra. }
    lra. }
  unfold Rpower. rewrite <- (exp_ln c Hc).
  destruct (Req_dec (a * ln r) (ln c)) as [->|]; [lra|]. apply Rlt_le, exp_increasing. lra.
Qed.

(** Started above the fixed point, an increasing log-contraction approaches it
    from above, and a change of at most [tol] means an error of at most
    k/(1-k) [tol]. *)
Section FromAbove.
Variables (F : R -> R) (k p : R).
Hypotheses (Hk : 0 <= k < 1) (Hp : 0 < p) (Hfix : F p = p).
Hypothesis (Hmono : forall x y, 0 < x -> x <= y -> F x <= F y <= Rpower (y / x) k * F x).

Lemma above_stays x : p <= x -> p <= F x.
Proof. intros. rewrite <- Hfix at 1. apply Hmono; assumption. Qed.

Lemma above_decreases x : p <= x -> F x <= x.
Proof.
  intros Hx. destruct (Hmono p x Hp Hx) as [_ B]. rewrite Hfix in B.
  assert (Hr : 1 <= x / p) by (apply (Rmult_le_reg_r p); [assumption|]; unfold Rdiv; rewrite Rmult_assoc, Rinv_l by lra; lra).
  pose proof (Rpower_bernoulli (x / p) k ltac:(lra) ltac:(lra)) as E.
  assert (k * (x / p - 1) <= 1 * (x / p - 1)) by (apply Rmult_le_compat_r; lra).
  apply (Rle_trans _ (x / p * p)); [|right; field; lra].
  eapply Rle_trans; [exact B|]. apply Rmult_le_compat_r; lra.
Qed.

Lemma above_error x tol : p <= x -> Rabs (F x - x) <= tol -> 0 <= F x - p <= k / (1 - k) * tol.
Proof.
  intros Hx Ht. pose proof (above_stays x Hx). pose proof (above_decreases x Hx). split; [lra|].
  rewrite Rabs_left1 in Ht by lra.
  destruct (Hmono p x Hp Hx) as [_ B]. rewrite Hfix in B.
  assert (Hr : 1 <= x / p) by (apply (Rmult_le_reg_r p); [assumption|]; unfold Rdiv; rewrite Rmult_assoc, Rinv_l by lra; lra).
  pose proof (Rpower_bernoulli (x / p) k ltac:(lra) ltac:(lra)) as E.
  assert (C : F x <= p + k * (x - p)).
  { eapply Rle_trans; [exact B|]. apply (Rle_trans _ ((1 + k * (x / p - 1)) * p)); [apply Rmult_le_compat_r; lra|].
    right. field. lra. }
  apply (Rmult_le_reg_r (1 - k)); [lra|].
  replace (k / (1 - k) * tol * (1 - k)) with (k * tol) by (field; lra).
  apply (Rle_trans _ (k * (x - F x))); [|apply Rmult_le_compat_l; lra]. lra.
Qed.
End FromAbove.

(** Once two consecutive iterates are within the tolerance, a larger cap makes
    no difference. *)
Lemma rcap_settles F tol : forall cap x d,
  (exists n, (n < cap)%nat /\ Rabs (iter F (S n) x - iter F n x) <= tol) ->
  rcap F tol (S cap) x d = rcap F tol cap x d.
Proof.
  induction cap; intros x d (n & Hn & L); [lia|].
  change (rcap F tol (S (S cap)) x d) with (if Rltb tol d then rcap F tol (S cap) (F x) (Rabs (F x - x)) else x).
  change (rcap F tol (S cap) x d) with (if Rltb tol d then rcap F tol cap (F x) (Rabs (F x - x)) else x).
  destruct (Rltb tol d); [|reflexivity]. destruct n.
  - cbn in L. assert (E : Rltb tol (Rabs (F x - x)) = false) by (apply Rltb_false; lra).
    destruct cap; cbn [rcap]; rewrite E; reflexivity.
  - apply IHcap. exists n. split; [lia|]. rewrite !iter_S_r in *. exact L.
Qed.

(** A capped loop whose map shrinks the distance to [p] on an invariant set. *)
Section ShrinkTo.
Variables (F : R -> R) (P : R -> Prop) (k p tol : R).
Hypotheses (Hk : 0 <= k < 1) (HP : forall x, P x -> P (F x)).
Hypothesis (Hs : forall x, P x -> Rabs (F x - p) <= k * Rabs (x - p)).

Lemma rcap_shrinks : forall cap y, P y ->
  Rabs (rcap F tol cap (F y) (Rabs (F y - y)) - p) <= Rmax (k / (1 - k) * tol) (k ^ cap * Rabs (F y - p)).
Proof.
  assert (St : forall y, P y -> ~ tol < Rabs (F y - y) -> Rabs (F y - p) <= k / (1 - k) * tol).
  { intros y Hy L. specialize (Hs y Hy).
    assert (T : Rabs (y - p) <= Rabs (F y - y) + Rabs (F y - p)).
    { rewrite (Rabs_minus_sym (F y) y). replace (y - p) with ((y - F y) + (F y - p)) by ring. apply Rabs_triang. }
    assert (k * Rabs (y - p) <= k * (Rabs (F y - y) + Rabs (F y - p))) by (apply Rmult_le_compat_l; lra).
    assert (k * Rabs (F y - y) <= k * tol) by (apply Rmult_le_compat_l; lra).
    apply (Rmult_le_reg_r (1 - k)); [lra|].
    replace (k / (1 - k) * tol * (1 - k)) with (k * tol) by (field; lra). lra. }
  induction cap; intros y Hy; cbn [rcap]; destruct (Rltb_spec tol (Rabs (F y - y))) as [L|L].
  - eapply Rle_trans; [|apply Rmax_r]. simpl. lra.
  - eapply Rle_trans; [|apply Rmax_l]. apply St; assumption.
  - eapply Rle_trans; [apply (IHcap (F y)); auto|]. apply Rle_max_compat_l.
    simpl. rewrite (Rmult_comm k), Rmult_assoc. apply Rmult_le_compat_l; [apply pow_le; lra|]. apply Hs. auto.
  - eapply Rle_trans; [|apply Rmax_l]. apply St; assumption.
Qed.
End ShrinkTo.
