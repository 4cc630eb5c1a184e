(** Facts about the Etemad-Shahidi (2020) relation. *)
From Coq Require Import Reals Lra Lia Bool Psatz.
From Verif.Lib Require Import Num RTac Contraction.
From Verif.Spec Require Import Waves Rock.
From Verif.Proofs Require Import Core VdM.
Open Scope R_scope.

Lemma es_Cp_gt1 D Dc : 0 < D -> 0 < Dc -> 1 < es_Cp D Dc.
Proof.
  intros. unfold es_Cp. rewrite <- (Rpower_1_base 0.6) at 1. apply Rpower_lt_base; [lra|lra|].
  pose proof (Rpower_pos (Dc / D) 0.3). lra.
Qed.
Lemma es_Cp_mono x y Dc : 0 < x -> x <= y -> 0 < Dc ->
  es_Cp y Dc <= es_Cp x Dc <= Rpower (y / x) 0.18 * es_Cp y Dc.
Proof.
  intros Hx Hxy HDc. unfold es_Cp. assert (0 < y) by lra.
  assert (E : Rpower (Dc / x) 0.3 = Rpower (y / x) 0.3 * Rpower (Dc / y) 0.3).
  { assert (0 < Dc / x) by rpos. assert (0 < y / x) by rpos. assert (0 < Dc / y) by rpos. ln_eq. lra. }
  assert (1 <= Rpower (y / x) 0.3).
  { rewrite <- (Rpower_1_base 0.3). apply Rpower_le_base; try lra.
    apply (Rmult_le_reg_r x); [lra|]. unfold Rdiv. rewrite Rmult_assoc, Rinv_l by lra. lra. }
  pose proof (Rpower_pos (Dc / y) 0.3). set (u := Rpower (Dc / y) 0.3) in *. set (v := Rpower (y / x) 0.3) in *.
  split.
  - apply Rpower_le_base; [lra|lra|]. rewrite E. nra.
  - replace (Rpower (y / x) 0.18) with (Rpower v 0.6) by (unfold v; apply Rpower_pow_eq; lra).
    rewrite <- Rpower_mul by lra. apply Rpower_le_base; [lra| |]; rewrite E; nra.
Qed.

Section Etemad.
Variables (cot T N i De Dc : R).
Hypotheses (Hc : 0 < cot) (HT : 0 < T) (HN : 0 < N) (Hi : 0 < i) (HDe : 0 < De) (HDc : 0 < Dc).
Let X (H : R) : R := xi cot g0 T H.

Lemma X_gt H : 0 < H -> 0 < X H. Proof. intros. apply xi_pos; try assumption. apply g0_pos. Qed.
Lemma ln_X H : 0 < H -> ln (X H) = - ln cot - / 2 * (ln (K g0 T) + ln H).
Proof. intros. apply ln_xi; try assumption. apply g0_pos. Qed.

Lemma es_su_log H D S Cp : 0 < H -> 0 < D -> 0 < S -> 0 < Cp ->
  (H / (De * D) = es_surging N S (X H) i Cp
   <-> 6 * (ln H - ln De - ln D) = 6 * ln 3.9 + 6 * ln Cp - 0.6 * ln N + ln S - 2 * ln (X H) + 6 * ln i).
Proof.
  intros. pose proof (X_gt H ltac:(assumption)). unfold es_surging. rewrite ln_eq_iff by rpos. ln_push. split; lra.
Qed.
Lemma es_pl_log H D S Cp : 0 < H -> 0 < D -> 0 < S -> 0 < Cp ->
  (H / (De * D) = es_plunging N S (X H) i Cp
   <-> 6 * (ln H - ln De - ln D) = 6 * ln 4.5 + 6 * ln Cp - 0.6 * ln N + ln S - 3.5 * ln (X H) + 6 * ln i).
Proof.
  intros. pose proof (X_gt H ltac:(assumption)). unfold es_plunging. rewrite ln_eq_iff by rpos. ln_push. split; lra.
Qed.

(** Just below xi = 1.8 the damage is a little larger than just above. *)
Lemma es_jump : 6 * ln 3.9 - 6 * ln 4.5 + 1.5 * ln 1.8 > 0.
Proof.
  assert (E : ln (3.9 ^ 4 * 1.8) > ln (4.5 ^ 4)) by (apply ln_increasing; cbn [pow]; lra).
  revert E. ln_push. cbn [INR]. intros. lra.
Qed.

(** The damage is strictly increasing in the wave height. *)
Lemma es_damage_increasing D H1 H2 S1 S2 : 0 < D -> 0 < H1 -> H1 < H2 -> 0 < S1 -> 0 < S2 ->
  etemad N S1 (X H1) i De D Dc H1 -> etemad N S2 (X H2) i De D Dc H2 -> S1 < S2.
Proof.
  intros HD HH1 L HS1 HS2 E1 E2. assert (HH2 : 0 < H2) by lra.
  pose proof (es_Cp_gt1 D Dc HD HDc) as HC. assert (HC' : 0 < es_Cp D Dc) by lra.
  apply ln_lt_iff; [assumption..|].
  assert (LL : ln H1 < ln H2) by (apply ln_increasing; assumption).
  pose proof (ln_X H1 HH1) as X1. pose proof (ln_X H2 HH2) as X2. pose proof es_jump as J.
  pose proof (X_gt H1 HH1) as P1. pose proof (X_gt H2 HH2) as P2.
  destruct E1 as [(R1 & E1)|(R1 & E1)], E2 as [(R2 & E2)|(R2 & E2)];
    (apply es_su_log in E1 || apply es_pl_log in E1); (apply es_su_log in E2 || apply es_pl_log in E2);
    try assumption; rewrite X1 in E1; rewrite X2 in E2; try lra.
  - (* surging to plunging *)
    apply (ln_increasing (X H2) 1.8) in R2; [|assumption].
    assert (R1' : ln 1.8 <= ln (X H1)) by (apply ln_le_mono; [lra|assumption]).
    rewrite X1 in R1'. rewrite X2 in R2. lra.
  - (* plunging to surging cannot happen *)
    exfalso. assert (R1' : ln (X H1) < ln 1.8) by (apply ln_increasing; assumption).
    assert (R2' : ln 1.8 <= ln (X H2)) by (apply ln_le_mono; [lra|assumption]).
    rewrite X1 in R1'. rewrite X2 in R2'. lra.
Qed.

Definition es_H_su (D S : R) : R :=
  Rpower (S * Rpower (1 / 3.9) (-(6)) * (2 * PI / g0) * es_Cp D Dc ^ 6 * (De * D) ^ 6 * Rpower T (-(2)) * cot ^ 2
          * Rpower N (-(0.6)) * i ^ 6) (1 / 5).
Definition es_H_pl (D S : R) : R :=
  Rpower (S * Rpower (1 / 4.5) (-(6)) * Rpower (2 * PI / g0) (7 / 4) * es_Cp D Dc ^ 6 * (De * D) ^ 6
          * Rpower T (-(7) / 2) * Rpower cot (7 / 2) * Rpower N (-(0.6)) * i ^ 6) (4 / 17).

Lemma ln_Kg : ln (K g0 T) = ln (2 * PI / g0) - 2 * ln T.
Proof.
  unfold K. pose proof g0_pos. pose proof PI_RGT_0. assert (0 < 2 * PI) by lra. ln_push. cbn [INR]. lra.
Qed.

Lemma es_H_su_log D S : 0 < D -> 0 < S ->
  5 * ln (es_H_su D S) = ln S + 6 * ln 3.9 + ln (K g0 T) + 6 * ln (es_Cp D Dc) + 6 * (ln De + ln D)
    + 2 * ln cot - 0.6 * ln N + 6 * ln i.
Proof.
  intros. pose proof (es_Cp_gt1 D Dc ltac:(assumption) HDc). assert (0 < es_Cp D Dc) by lra.
  pose proof g0_pos. pose proof PI_RGT_0. assert (0 < 2 * PI / g0) by rpos. rewrite ln_Kg.
  unfold es_H_su. rewrite ln_Rpower. rewrite !ln_mult by rpos. ln_push. rewrite ln_1. cbn [INR]. lra.
Qed.
Lemma es_H_pl_log D S : 0 < D -> 0 < S ->
  17 / 4 * ln (es_H_pl D S) = ln S + 6 * ln 4.5 + 7 / 4 * ln (K g0 T) + 6 * ln (es_Cp D Dc) + 6 * (ln De + ln D)
    + 7 / 2 * ln cot - 0.6 * ln N + 6 * ln i.
Proof.
  intros. pose proof (es_Cp_gt1 D Dc ltac:(assumption) HDc). assert (0 < es_Cp D Dc) by lra.
  pose proof g0_pos. pose proof PI_RGT_0. assert (0 < 2 * PI / g0) by rpos. rewrite ln_Kg.
  unfold es_H_pl. rewrite ln_Rpower. rewrite !ln_mult by rpos.
  set (q := 2 * PI / g0) in *. ln_push. rewrite ln_1. cbn [INR]. lra.
Qed.
Lemma es_H_su_pos D S : 0 < es_H_su D S. Proof. apply Rpower_pos. Qed.
Lemma es_H_pl_pos D S : 0 < es_H_pl D S. Proof. apply Rpower_pos. Qed.

Lemma es_select H D S : 0 < H -> 0 < D -> 0 < S -> etemad N S (X H) i De D Dc H ->
  (if (Rltb (X (es_H_pl D S)) 1.8 && Rltb (X (es_H_su D S)) 1.8)%bool then es_H_pl D S else es_H_su D S) = H.
Proof.
  intros HH HD HS E. pose proof (es_Cp_gt1 D Dc HD HDc) as HC. assert (HC' : 0 < es_Cp D Dc) by lra.
  pose proof (es_H_su_log D S HD HS) as Ls. pose proof (es_H_pl_log D S HD HS) as Lp.
  pose proof (es_H_su_pos D S) as Ps. pose proof (es_H_pl_pos D S) as Pp.
  pose proof (ln_X H HH) as XH. pose proof (ln_X _ Ps) as Xs. pose proof (ln_X _ Pp) as Xp.
  pose proof es_jump as J.
  destruct E as [(R1 & E)|(R1 & E)]; (apply es_su_log in E || apply es_pl_log in E); try assumption; rewrite XH in E.
  - assert (EQ : es_H_su D S = H) by (apply ln_inj_eq; try assumption; lra).
    rewrite EQ. rewrite (Rltb_false (X H)) by assumption. rewrite andb_false_r. reflexivity.
  - assert (EQ : es_H_pl D S = H) by (apply ln_inj_eq; try assumption; lra).
    rewrite EQ. rewrite (Rltb_true (X H)) by assumption. rewrite Rltb_true; [reflexivity|].
    apply ln_lt_iff; [apply X_gt; assumption|lra|]. rewrite Xs.
    apply (ln_increasing (X H) 1.8) in R1; [|apply X_gt; assumption]. rewrite XH in R1. lra.
Qed.

(** Damage levels in a whole interval occur for no wave height. *)
Lemma es_gap D : 0 < D -> exists S1 S2, 0 < S1 < S2 /\
  forall S H, S1 < S <= S2 -> 0 < H -> ~ etemad N S (X H) i De D Dc H.
Proof.
  intros HD. pose proof (es_Cp_gt1 D Dc HD HDc) as HC. assert (HC' : 0 < es_Cp D Dc) by lra.
  (* 6(h - L) = 6 ln c + C + s - e x ; at x = ln 1.8, h = h18 *)
  set (h := -2 * (ln 1.8 + ln cot) - ln (K g0 T)).
  set (C := 6 * (h - ln De - ln D) - 6 * ln (es_Cp D Dc) + 0.6 * ln N - 6 * ln i).
  set (s1 := C - 6 * ln 3.9 + 2 * ln 1.8). set (s2 := C - 6 * ln 4.5 + 3.5 * ln 1.8).
  pose proof es_jump as J.
  exists (exp s1), (exp s2). split.
  { split; [apply exp_pos|]. apply exp_increasing. unfold s1, s2. lra. }
  intros S H [A B] HH E. assert (HS : 0 < S) by (pose proof (exp_pos s1); lra).
  apply (ln_increasing (exp s1)) in A; [|apply exp_pos]. rewrite ln_exp in A.
  apply ln_le_mono in B; [|assumption]. rewrite ln_exp in B.
  pose proof (ln_X H HH) as XH. pose proof (X_gt H HH).
  destruct E as [(R1 & E)|(R1 & E)]; (apply es_su_log in E || apply es_pl_log in E); try assumption; rewrite XH in E.
  - apply ln_le_mono in R1; [|lra]. rewrite XH in R1. unfold s1, C, h in A. lra.
  - apply ln_increasing in R1; [|assumption]. rewrite XH in R1. unfold s2, C, h in B. lra.
Qed.

(** *** The diameter *)
Definition es_A (H S : R) : R :=
  if Rleb 1.8 (X H)
  then H / De * (1 / 3.9) * Rpower N (1 / 10) * Rpower S (-(1) / 6) * Rpower (X H) (1 / 3) * Rpower i (-(1))
  else H / De * (1 / 4.5) * Rpower N (1 / 10) * Rpower S (-(1) / 6) * Rpower (X H) (7 / 12) * Rpower i (-(1)).
Lemma es_A_pos H S : 0 < H -> 0 < es_A H S.
Proof. intros. unfold es_A. destruct (Rleb 1.8 (X H)); rpos. Qed.

Definition es_F (A x : R) : R := A / es_Cp x Dc.

Lemma es_fixpoint H S D : 0 < H -> 0 < S -> 0 < D ->
  (etemad N S (X H) i De D Dc H <-> es_F (es_A H S) D = D).
Proof.
  intros HH HS HD. pose proof (es_Cp_gt1 D Dc HD HDc) as HC. assert (HC' : 0 < es_Cp D Dc) by lra.
  pose proof (X_gt H HH) as HX. unfold es_F, es_A.
  assert (EX : forall c e, 0 < c ->
    (H / De * (1 / c) * Rpower N (1 / 10) * Rpower S (-(1) / 6) * Rpower (X H) e * Rpower i (-(1)) / es_Cp D Dc = D
     <-> 6 * (ln H - ln De - ln D) = 6 * ln c + 6 * ln (es_Cp D Dc) - 0.6 * ln N + ln S - 6 * e * ln (X H) + 6 * ln i)).
  { intros c e Hcc. rewrite ln_eq_iff by rpos. ln_push. rewrite ln_1. split; lra. }
  unfold etemad. rewrite es_su_log, es_pl_log by assumption.
  destruct (Rleb_spec 1.8 (X H)) as [R1|R1]; rewrite EX by lra.
  - split; [intros [(_ & E)|(R2 & _)]; [lra|exfalso; lra]|]. intros E. left. split; [assumption|]. lra.
  - split; [intros [(R2 & _)|(_ & E)]; [exfalso; lra|lra]|]. intros E. right. split; lra.
Qed.

Lemma es_F_pos A x : 0 < A -> 0 < x -> 0 < es_F A x.
Proof. intros. unfold es_F. pose proof (es_Cp_gt1 x Dc ltac:(assumption) HDc). rpos. Qed.
Lemma es_F_mono A x y : 0 < A -> 0 < x -> x <= y -> es_F A x <= es_F A y <= Rpower (y / x) 0.18 * es_F A x.
Proof.
  intros HA Hx Hxy. assert (Hy : 0 < y) by lra. unfold es_F.
  pose proof (es_Cp_gt1 x Dc Hx HDc) as C1. pose proof (es_Cp_gt1 y Dc Hy HDc) as C2.
  destruct (es_Cp_mono x y Dc Hx Hxy HDc) as [B1 B2]. set (u := es_Cp x Dc) in *. set (v := es_Cp y Dc) in *.
  set (w := Rpower (y / x) 0.18) in *. assert (0 < w) by apply Rpower_pos.
  split.
  - apply Rmult_le_compat_l; [lra|]. apply Rinv_le_contravar; lra.
  - apply (Rmult_le_reg_r (u * v)); [rpos|].
    replace (A / v * (u * v)) with (A * u) by (field; lra).
    replace (w * (A / u) * (u * v)) with (A * (w * v)) by (field; lra).
    apply Rmult_le_compat_l; lra.
Qed.
Lemma es_F_lip A : 0 < A -> forall x y, 0 < x -> 0 < y ->
  Rabs (ln (es_F A x) - ln (es_F A y)) <= 0.18 * Rabs (ln x - ln y).
Proof.
  intros HA. apply log_lip_increasing; [lra| |].
  - intros. apply es_F_pos; assumption.
  - intros. apply es_F_mono; assumption.
Qed.
End Etemad.
