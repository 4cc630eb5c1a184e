(** Limits of the expressions the formulas are made of. *)
From Coq Require Import Reals Lra.
From Verif.Lib Require Import Num RTac.
From Verif.Spec Require Import FarOut.
Open Scope R_scope.

Lemma both_not f l : comes_to f l -> ~ passes_all_bounds f.
Proof.
  intros C P. destruct (C 1 ltac:(lra)) as (a & A), (P (l + 1)) as (b & B).
  set (x := Rmax a b + 1). pose proof (Rmax_l a b). pose proof (Rmax_r a b).
  destruct (A x) as (w & E & L); [unfold x; lra|]. destruct (B x) as (w' & E' & L'); [unfold x; lra|].
  rewrite E in E'. injection E' as <-. apply Rabs_def2 in L. lra.
Qed.
Lemma one_limit f l l' : comes_to f l -> comes_to f l' -> l = l'.
Proof.
  intros C C'. destruct (Req_dec l l') as [E|N]; [exact E|exfalso].
  assert (P : 0 < Rabs (l - l')) by (apply Rabs_pos_lt; lra). set (q := Rabs (l - l')) in *.
  destruct (C (q / 2) ltac:(lra)) as (a & A), (C' (q / 2) ltac:(lra)) as (b & B).
  set (x := Rmax a b + 1). pose proof (Rmax_l a b). pose proof (Rmax_r a b).
  destruct (A x) as (w & E & L); [unfold x; lra|]. destruct (B x) as (w' & E' & L'); [unfold x; lra|].
  rewrite E in E'. injection E' as <-. pose proof (Rabs_triang (l - w) (w - l')) as T. replace (l - w + (w - l')) with (l - l') in T by ring.
  fold q in T. rewrite (Rabs_minus_sym l w) in T. lra.
Qed.

Lemma decay C e y : 0 < C -> 0 < e -> C / e <= y -> C * exp (- y) < e.
Proof.
  intros HC He Hy. assert (0 < C / e) by (apply Rdiv_lt_0_compat; assumption). pose proof (exp_ineq1 y ltac:(lra)) as X.
  rewrite exp_Ropp. assert (0 < exp y) by apply exp_pos. apply (Rmult_lt_reg_r (exp y)); [assumption|].
  replace (C * / exp y * exp y) with C by (field; lra). assert (C = e * (C / e)) by (field; lra). nra.
Qed.

(** Answers below an exponential with an exponent that grows at least linearly. *)
Lemma vanishes f C k m x0 : 0 < C -> 0 < k ->
  (forall x, x0 < x -> exists w y, f x = Fin w /\ 0 <= w <= C * exp (- y) /\ k * x - m <= y) -> comes_to f 0.
Proof.
  intros HC Hk F e He. exists (Rmax x0 ((C / e + m) / k)). intros x Hx. pose proof (Rmax_l x0 ((C / e + m) / k)). pose proof (Rmax_r x0 ((C / e + m) / k)).
  destruct (F x ltac:(lra)) as (w & y & E & B & L). exists w. split; [exact E|]. rewrite Rminus_0_r, Rabs_right by lra.
  apply (Rle_lt_trans _ (C * exp (- y))); [lra|]. apply decay; [assumption..|].
  assert ((C / e + m) / k * k = C / e + m) by (field; lra). nra.
Qed.
Lemma vanishes_to f l C k m x0 : 0 < C -> 0 < k ->
  (forall x, x0 < x -> exists w y, f x = Fin w /\ Rabs (w - l) <= C * exp (- y) /\ k * x - m <= y) -> comes_to f l.
Proof.
  intros HC Hk F e He. exists (Rmax x0 ((C / e + m) / k)). intros x Hx. pose proof (Rmax_l x0 ((C / e + m) / k)). pose proof (Rmax_r x0 ((C / e + m) / k)).
  destruct (F x ltac:(lra)) as (w & y & E & B & L). exists w. split; [exact E|].
  apply (Rle_lt_trans _ (C * exp (- y))); [lra|]. apply decay; [assumption..|].
  assert ((C / e + m) / k * k = C / e + m) by (field; lra). nra.
Qed.

Lemma power_above x a : 1 <= x -> 1 <= a -> x <= Rpower x a.
Proof. intros Hx Ha. rewrite <- (Rpower_1 x) at 1 by lra. apply Rle_Rpower; lra. Qed.
