(** Facts shared by the overtopping formulas, which are all exponential or
    power-exponential in the freeboard. *)
From Coq Require Import Reals Lra.
From Verif.Lib Require Import Num Monad RTac NTac.
From Verif.Spec Require Import Waves Overtopping.
From Verif.Proofs Require Import Core.
Open Scope R_scope.

Lemma q_unit_pos g H : 0 < g -> 0 < H -> 0 < q_unit g H.
Proof. intros. unfold q_unit. apply sqrt_lt_R0. rpos. Qed.

Lemma q_unit_fin g H : 0 < g -> 0 < H -> (nsqrt (Fin g * npow (Fin H) #3))%num = Fin (q_unit g H).
Proof. intros. nfin. reflexivity. Qed.

Lemma q_unit_scale l g H : 0 < l -> 0 < g -> 0 < H -> q_unit g (l * H) = Rpower l 1.5 * q_unit g H.
Proof.
  intros. unfold q_unit.
  rewrite !sqrt_Rpower by rpos. rewrite Rpow_mult_distr.
  replace (g * (l ^ 3 * H ^ 3)) with (l ^ 3 * (g * H ^ 3)) by ring.
  rewrite Rpower_mul by rpos. f_equal. rewrite <- Rpower_3 by assumption. rewrite Rpower_mult. f_equal. lra.
Qed.

Lemma q_unit_gravity g g' H : 0 < g -> 0 < g' -> 0 < H ->
  ln (q_unit g H) = ln (q_unit g' H) + / 2 * ln (g / g').
Proof.
  intros. unfold q_unit. rewrite !ln_sqrt by rpos. rewrite !ln_mult by rpos. rewrite ln_div by assumption. lra.
Qed.

(** Solving [q = A exp (- y)] for [y]. *)
Lemma exp_relation x A y : 0 < x -> 0 < A -> (x = A * exp (- y) <-> y = - (ln x - ln A)).
Proof.
  intros Hx HA. split.
  - intros E. rewrite E. rewrite ln_mult by (try apply exp_pos; assumption). rewrite ln_exp. lra.
  - intros ->. rewrite Ropp_involutive. unfold Rminus. rewrite exp_plus, exp_Ropp, !exp_ln by assumption. field. lra.
Qed.

Lemma div_eq x u r : u <> 0 -> (x / u = r <-> x = r * u).
Proof. intros. split; [intros <-; field; assumption|intros ->; field; assumption]. Qed.

Lemma fin_ok_iff (x y : R) : (@Ok num (Fin x) = Ok (Fin y)) <-> x = y.
Proof. split; [congruence|intros ->; reflexivity]. Qed.

(** ** Exponential regimes *)

Lemma ln_lt_pos x y : 0 < x -> 0 < y -> (x < y <-> ln x < ln y).
Proof.
  intros Hx Hy. split; [intros; apply ln_increasing; assumption|].
  intros L. destruct (Rlt_le_dec x y) as [|G]; [assumption|exfalso].
  destruct (Rle_lt_or_eq_dec _ _ G) as [G'|E]; [apply ln_increasing in G'; [lra|assumption]|subst; lra].
Qed.

Definition regime (A B x : R) : R := A * exp (- (x / B)).
Definition solve_regime (A B Q : R) : R := B * (ln A - ln Q).

Lemma regime_pos A B x : 0 < A -> 0 < regime A B x.
Proof. intros. unfold regime. apply Rmult_lt_0_compat; [assumption|apply exp_pos]. Qed.

Lemma ln_regime A B x : 0 < A -> ln (regime A B x) = ln A - x / B.
Proof. intros. unfold regime. rewrite ln_mult by (try apply exp_pos; assumption). rewrite ln_exp. lra. Qed.

Lemma regime_lt A B x Q : 0 < A -> 0 < B -> 0 < Q -> (Q < regime A B x <-> x < solve_regime A B Q).
Proof.
  intros HA HB HQ. rewrite ln_lt_pos by (try apply regime_pos; assumption). rewrite ln_regime by assumption.
  unfold solve_regime. assert (E : x = B * (x / B)) by (field; lra). set (z := x / B) in *. rewrite E.
  split; intros L.
  - apply Rmult_lt_compat_l; lra.
  - apply Rmult_lt_reg_l in L; lra.
Qed.

Lemma regime_eq A B x Q : 0 < A -> 0 < B -> 0 < Q -> (Q = regime A B x <-> x = solve_regime A B Q).
Proof.
  intros HA HB HQ. unfold regime. rewrite exp_relation by assumption. unfold solve_regime. split.
  - intros E. replace (ln A - ln Q) with (x / B) by lra. field. lra.
  - intros ->. field. lra.
Qed.

Lemma regime_le A B x Q : 0 < A -> 0 < B -> 0 < Q -> (Q <= regime A B x <-> x <= solve_regime A B Q).
Proof.
  intros HA HB HQ. pose proof (regime_lt A B x Q HA HB HQ). pose proof (regime_eq A B x Q HA HB HQ). unfold Rle. tauto.
Qed.

(** The smaller of two regimes is inverted by the smaller of the two solutions. *)
Lemma two_regimes A1 B1 A2 B2 x Q : 0 < A1 -> 0 < B1 -> 0 < A2 -> 0 < B2 -> 0 < Q ->
  (Q = Rmin (regime A1 B1 x) (regime A2 B2 x) <-> x = Rmin (solve_regime A1 B1 Q) (solve_regime A2 B2 Q)).
Proof.
  intros.
  pose proof (regime_lt A1 B1 x Q ltac:(assumption) ltac:(assumption) ltac:(assumption)).
  pose proof (regime_lt A2 B2 x Q ltac:(assumption) ltac:(assumption) ltac:(assumption)).
  pose proof (regime_eq A1 B1 x Q ltac:(assumption) ltac:(assumption) ltac:(assumption)).
  pose proof (regime_eq A2 B2 x Q ltac:(assumption) ltac:(assumption) ltac:(assumption)).
  assert (M : forall u v w : R, w = Rmin u v <-> (w = u /\ (w < v \/ w = v)) \/ (w = v /\ (w < u \/ w = u))).
  { intros u v w. unfold Rmin. destruct (Rle_dec u v); split; intros; intuition lra. }
  rewrite !M. tauto.
Qed.

Lemma two_regimes_governing A1 B1 A2 B2 x Q : 0 < A1 -> 0 < B1 -> 0 < A2 -> 0 < B2 -> 0 < Q ->
  Q = Rmin (regime A1 B1 x) (regime A2 B2 x) ->
  (regime A2 B2 x <= regime A1 B1 x <-> solve_regime A2 B2 Q <= solve_regime A1 B1 Q).
Proof.
  intros ? ? ? ? ? E.
  pose proof (regime_le A1 B1 x Q ltac:(assumption) ltac:(assumption) ltac:(assumption)).
  pose proof (regime_le A2 B2 x Q ltac:(assumption) ltac:(assumption) ltac:(assumption)).
  pose proof (regime_eq A1 B1 x Q ltac:(assumption) ltac:(assumption) ltac:(assumption)).
  pose proof (regime_eq A2 B2 x Q ltac:(assumption) ltac:(assumption) ltac:(assumption)).
  revert E. unfold Rmin. destruct (Rle_dec (regime A1 B1 x) (regime A2 B2 x)); intros E; split; intros; intuition lra.
Qed.

Lemma regime_decreasing A B x y : 0 < A -> 0 < B -> x < y -> regime A B y < regime A B x.
Proof.
  intros. unfold regime. apply Rmult_lt_compat_l; [assumption|]. apply exp_increasing, Ropp_lt_contravar.
  apply Rmult_lt_compat_r; [apply Rinv_0_lt_compat|]; assumption.
Qed.

Lemma Rmin_mul_r c a b : 0 <= c -> Rmin a b * c = Rmin (a * c) (b * c).
Proof. intros. rewrite !(Rmult_comm _ c). apply Rmin_mult_l. assumption. Qed.

(** The flag "the maximum was reached" compares the minimum with the maximum. *)
Lemma reached_iff a b : Reqb (Rmin a b) b = true <-> b <= a.
Proof. rewrite Reqb_iff. unfold Rmin. destruct (Rle_dec a b); split; lra. Qed.
