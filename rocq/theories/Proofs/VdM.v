(** Real analysis of the Van der Meer relations. *)
From Coq Require Import Reals Lra Psatz.
From Verif.Lib Require Import Num RTac.
From Verif.Spec Require Import Waves Rock.
From Verif.Proofs Require Import Core.
Open Scope R_scope.

Lemma ln_lt_iff x y : 0 < x -> 0 < y -> (x < y <-> ln x < ln y).
Proof.
  intros. split; intros; [apply ln_increasing; assumption|].
  destruct (Rlt_or_le x y) as [|L]; [assumption|exfalso].
  destruct L as [L|E]; [|subst; lra]. apply ln_increasing in L; lra.
Qed.
Lemma ln_le_iff x y : 0 < x -> 0 < y -> (x <= y <-> ln x <= ln y).
Proof.
  intros. split; intros L.
  - destruct L as [L|E]; [|subst; lra]. apply ln_increasing in L; lra.
  - destruct (Rle_or_lt x y) as [|L']; [assumption|exfalso]. apply ln_increasing in L'; lra.
Qed.
Lemma ln_eq_iff x y : 0 < x -> 0 < y -> (x = y <-> ln x = ln y).
Proof. intros. split; intros; [congruence|apply ln_inj_eq; assumption]. Qed.

Lemma ln_le_mono x y : 0 < x -> x <= y -> ln x <= ln y.
Proof. intros. apply (proj1 (ln_le_iff x y ltac:(lra) ltac:(lra))). assumption. Qed.

Section VdM.
Variables (c_pl c_s P cot g T De D r : R).
Hypotheses (Hcp : 0 < c_pl) (Hcs : 0 < c_s) (HP : 0 < P) (Hc : 0 < cot) (Hg : 0 < g) (HT : 0 < T)
  (HDe : 0 < De) (HD : 0 < D) (Hr : 0 < r).

Definition K : R := 2 * PI / (g * T ^ 2).
Lemma K_pos : 0 < K. Proof. unfold K. rpos. Qed.
Definition xi (H : R) : R := iribarren g H T (1 / cot).
Lemma xi_pos H : 0 < H -> 0 < xi H.
Proof. intros. apply iribarren_pos; try assumption. rpos. Qed.
Lemma ln_xi H : 0 < H -> ln (xi H) = - ln cot - / 2 * (ln K + ln H).
Proof.
  intros. unfold xi, iribarren. pose proof K_pos.
  replace (steepness g H T) with (K * H) by (unfold K, steepness; field; split; lra).
  unfold Rdiv at 1. ln_push. rewrite ln_1. lra.
Qed.
Definition xc : R := xi_critical c_pl c_s P cot.
Lemma xc_pos : 0 < xc. Proof. unfold xc, xi_critical. rpos. Qed.
Lemma ln_xc : (P + 0.5) * ln xc = ln c_pl - ln c_s + 0.31 * ln P - / 2 * ln cot.
Proof.
  unfold xc, xi_critical. assert (0 < 1 / cot) by rpos. ln_push. rewrite ln_1. field. lra.
Qed.

(** the two equations, in logarithms *)
Lemma pl_log H d : 0 < H -> 0 < d ->
  (r * H / (De * D) = vdm_plunging c_pl P (xi H) d
   <-> 0.75 * ln H = ln c_pl + 0.18 * ln P + 0.2 * ln d + / 2 * ln cot + / 4 * ln K + ln De + ln D - ln r).
Proof.
  intros. pose proof (xi_pos H). unfold vdm_plunging.
  rewrite ln_eq_iff by (assert (0 < xi H) by auto; rpos). assert (0 < xi H) by auto.
  ln_push. rewrite ln_xi by assumption. split; lra.
Qed.
Lemma su_log H d : 0 < H -> 0 < d ->
  (r * H / (De * D) = vdm_surging c_s P cot (xi H) d
   <-> (1 + 0.5 * P) * ln H = ln c_s - 0.13 * ln P + 0.2 * ln d + (/ 2 - P) * ln cot - / 2 * P * ln K
         + ln De + ln D - ln r).
Proof.
  intros. unfold vdm_surging. assert (0 < xi H) by (apply xi_pos; assumption).
  rewrite ln_eq_iff by rpos. ln_push. rewrite ln_xi by assumption. split; lra.
Qed.

(** At the critical Iribarren number both regimes give the same stability. *)
Lemma regimes_meet d : 0 < d -> vdm_plunging c_pl P xc d = vdm_surging c_s P cot xc d.
Proof.
  intros. unfold vdm_plunging, vdm_surging. pose proof xc_pos. ln_eq.
  pose proof ln_xc. lra.
Qed.

(** The wave heights solving the two equations lie in the same regime. *)
Lemma regime_agrees Hp Hq d : 0 < Hp -> 0 < Hq -> 0 < d ->
  r * Hp / (De * D) = vdm_plunging c_pl P (xi Hp) d ->
  r * Hq / (De * D) = vdm_surging c_s P cot (xi Hq) d ->
  (xi Hp < xc <-> xi Hq < xc).
Proof.
  intros HHp HHq Hd E1 E2. apply pl_log in E1; try assumption. apply su_log in E2; try assumption.
  pose proof xc_pos. pose proof (xi_pos Hp HHp). pose proof (xi_pos Hq HHq). pose proof ln_xc as E3.
  rewrite (ln_lt_iff (xi Hp)), (ln_lt_iff (xi Hq)) by assumption.
  pose proof (ln_xi Hp HHp) as Xp. pose proof (ln_xi Hq HHq) as Xq.
  assert (E : 1.5 * (ln (xi Hp) - ln xc) = (2 + P) * (ln (xi Hq) - ln xc)) by (rewrite Xp, Xq; lra).
  clear - E HP. set (a := ln (xi Hp)) in *. set (b := ln (xi Hq)) in *. set (c := ln xc) in *.
  split; intros.
  - destruct (Rlt_or_le b c) as [|L]; [assumption|exfalso].
    assert (0 <= (2 + P) * (b - c)) by (apply Rmult_le_pos; lra). lra.
  - assert (0 < (2 + P) * (c - b)) by (apply Rmult_lt_0_compat; lra). lra.
Qed.

(** *** The closed-form wave heights of the code *)
Definition H_pl (d : R) : R :=
  Rpower (c_pl * Rpower P 0.18 * Rpower d 0.2 * Rpower (1 / cot) (-(0.5)) * Rpower K 0.25 * De * D * (1 / r)) (1 / 0.75).
Definition H_su (d : R) : R :=
  Rpower (c_s * Rpower P (-(0.13)) * Rpower d 0.2 * Rpower (1 / cot) P * Rpower K (-(0.5) * P)
    * Rpower (1 / cot) (-(0.5)) * De * D * (1 / r)) (1 / (1 + 0.5 * P)).
Lemma H_pl_pos d : 0 < H_pl d. Proof. apply Rpower_pos. Qed.
Lemma H_su_pos d : 0 < H_su d. Proof. apply Rpower_pos. Qed.
Lemma H_pl_solves d : 0 < d -> r * H_pl d / (De * D) = vdm_plunging c_pl P (xi (H_pl d)) d.
Proof.
  intros. apply pl_log; [apply H_pl_pos|assumption|]. unfold H_pl. pose proof K_pos.
  assert (0 < 1 / cot) by rpos. ln_push. rewrite ln_1. lra.
Qed.
Lemma H_su_solves d : 0 < d -> r * H_su d / (De * D) = vdm_surging c_s P cot (xi (H_su d)) d.
Proof.
  intros. apply su_log; [apply H_su_pos|assumption|]. unfold H_su. pose proof K_pos.
  assert (0 < 1 / cot) by rpos. ln_push. rewrite ln_1. rfld.
Qed.
Lemma H_pl_unique H d : 0 < H -> 0 < d -> r * H / (De * D) = vdm_plunging c_pl P (xi H) d -> H_pl d = H.
Proof.
  intros HH Hd E. pose proof (H_pl_solves d Hd) as E'. apply pl_log in E; try assumption.
  apply pl_log in E'; [|apply H_pl_pos|assumption]. apply ln_inj_eq; [apply H_pl_pos|assumption|]. lra.
Qed.
Lemma H_su_unique H d : 0 < H -> 0 < d -> r * H / (De * D) = vdm_surging c_s P cot (xi H) d -> H_su d = H.
Proof.
  intros HH Hd E. pose proof (H_su_solves d Hd) as E'. apply su_log in E; try assumption.
  apply su_log in E'; [|apply H_su_pos|assumption]. apply ln_inj_eq; [apply H_su_pos|assumption|].
  apply (Rmult_eq_reg_l (1 + 0.5 * P)); lra.
Qed.
(** The selection made by the code. *)
Lemma select_wave_height H d : 0 < H -> 0 < d ->
  vdm c_pl c_s P cot (xi H) De D H r d ->
  (if orb (andb (Rltb (xi (H_pl d)) xc) (Rltb (xi (H_su d)) xc)) (Rleb 4 cot) then H_pl d else H_su d) = H.
Proof.
  intros HH Hd E. pose proof (regime_agrees _ _ d (H_pl_pos d) (H_su_pos d) Hd (H_pl_solves d Hd) (H_su_solves d Hd)) as A.
  unfold vdm, plunging in E. fold xc in E.
  destruct E as [([L|L] & E)|(N & E)].
  - apply H_pl_unique in E; try assumption. rewrite <- E in L.
    rewrite (Rltb_true (xi (H_pl d))) by assumption. rewrite Rltb_true by tauto. exact E.
  - apply H_pl_unique in E; try assumption. rewrite (Rleb_true 4) by assumption. rewrite Bool.orb_true_r. exact E.
  - apply H_su_unique in E; try assumption. apply Decidable.not_or in N. destruct N as [N1 N2].
    rewrite (Rleb_false 4) by lra. rewrite <- E in N1.
    rewrite (Rltb_false (xi (H_su d))) by lra. rewrite Bool.andb_false_r. exact E.
Qed.

(** *** Damage as a function of the wave height *)
Lemma damage_increasing H1 H2 d1 d2 : 0 < H1 -> H1 < H2 -> 0 < d1 -> 0 < d2 ->
  vdm c_pl c_s P cot (xi H1) De D H1 r d1 -> vdm c_pl c_s P cot (xi H2) De D H2 r d2 -> d1 < d2.
Proof.
  intros HH1 L Hd1 Hd2 E1 E2. assert (HH2 : 0 < H2) by lra.
  apply ln_lt_iff; [assumption..|].
  assert (LL : ln H1 < ln H2) by (apply ln_increasing; assumption).
  pose proof (ln_xi H1 HH1) as X1. pose proof (ln_xi H2 HH2) as X2. pose proof ln_xc as E3.
  pose proof xc_pos. pose proof (xi_pos H1 HH1). pose proof (xi_pos H2 HH2).
  unfold vdm, plunging in *. fold xc in E1, E2.
  assert (LX : ln (xi H2) < ln (xi H1)) by lra.
  destruct E1 as [(R1 & E1)|(R1 & E1)], E2 as [(R2 & E2)|(R2 & E2)];
    first [apply pl_log in E1; [|assumption..] | apply su_log in E1; [|assumption..]];
    first [apply pl_log in E2; [|assumption..] | apply su_log in E2; [|assumption..]].
  - lra.
  - apply Decidable.not_or in R2. destruct R2 as [R2 R2']. destruct R1 as [R1|R1]; [|lra].
    apply ln_lt_iff in R1; [|assumption..]. assert (ln xc <= ln (xi H2)) by (apply ln_le_mono; lra). lra.
  - apply Decidable.not_or in R1. destruct R1 as [R1 R1']. destruct R2 as [R2|R2]; [|lra].
    apply ln_lt_iff in R2; [|assumption..]. assert (A : ln xc <= ln (xi H1)) by (apply ln_le_mono; lra).
    assert (B : 0.2 * (ln d2 - ln d1) = 1.5 * (ln xc - ln (xi H2)) + (2 + P) * (ln (xi H1) - ln xc))
      by (rewrite X1, X2; lra).
    set (l1 := ln (xi H1)) in *. set (l2 := ln (xi H2)) in *. set (lc := ln xc) in *.
    assert (0 <= (2 + P) * (l1 - lc)) by (apply Rmult_le_pos; lra). lra.
  - assert (0 < (1 + 0.5 * P) * (ln H2 - ln H1)) by (apply Rmult_lt_0_compat; lra). lra.
Qed.

(** Damage as a function of the diameter *)
Lemma damage_diameter H D' d : 0 < H -> 0 < D' -> 0 < d ->
  vdm c_pl c_s P cot (xi H) De D H r d ->
  vdm c_pl c_s P cot (xi H) De D' H r (d * (D / D') ^ 5).
Proof.
  intros HH HD' Hd E. unfold vdm in *. assert (0 < xi H) by (apply xi_pos; assumption).
  assert (B : Rpower (d * (D / D') ^ 5) 0.2 = Rpower d 0.2 * (D / D')).
  { assert (0 < D / D') by rpos. ln_eq. lra. }
  destruct E as [(R1 & E)|(R1 & E)]; [left|right]; (split; [assumption|]);
    unfold vdm_plunging, vdm_surging in *; rewrite B;
    replace (r * H / (De * D')) with (r * H / (De * D) * (D / D')) by (field; repeat split; lra); rewrite E; field;
    try (assert (0 < sqrt (xi H)) by rpos); repeat split; lra.
Qed.

(** Every pair of the three quantities determines the third. *)
Lemma plunging_dec x : plunging c_pl c_s P cot x \/ ~ plunging c_pl c_s P cot x.
Proof. unfold plunging. destruct (Rlt_dec x (xi_critical c_pl c_s P cot)), (Rle_dec 4 cot); tauto. Qed.

Lemma vdm_damage_exists H : 0 < H -> exists d, 0 < d /\ vdm c_pl c_s P cot (xi H) De D H r d.
Proof.
  intros HH. assert (0 < xi H) by (apply xi_pos; assumption).
  assert (0 < sqrt (xi H)) by rpos. assert (0 < sqrt cot) by rpos. unfold vdm, vdm_plunging, vdm_surging.
  destruct (plunging_dec (xi H)) as [R1|R1].
  - exists (Rpower (r * H / (De * D) * sqrt (xi H) / (c_pl * Rpower P 0.18)) 5). split; [rpos|].
    left. split; [assumption|]. rewrite Rpower_cancel by (try lra; rpos). field. repeat split; rpos.
  - exists (Rpower (r * H / (De * D) / (c_s * Rpower P (-(0.13)) * sqrt cot * Rpower (xi H) P)) 5). split; [rpos|].
    right. split; [assumption|]. rewrite Rpower_cancel by (try lra; rpos). field. repeat split; rpos.
Qed.
End VdM.

Lemma vdm_diameter_exists c_pl c_s P cot g T De r H d :
  0 < c_pl -> 0 < c_s -> 0 < P -> 0 < cot -> 0 < g -> 0 < T -> 0 < De -> 0 < r -> 0 < H -> 0 < d ->
  exists D, 0 < D /\ vdm c_pl c_s P cot (xi cot g T H) De D H r d.
Proof.
  intros. destruct (vdm_damage_exists c_pl c_s P cot g T De 1 r) with (H := H) as (d1 & Hd1 & E); try lra.
  set (q := Rpower (d1 / d) 0.2). assert (0 < q) by (unfold q; rpos).
  exists q. split; [assumption|].
  apply (damage_diameter c_pl c_s P cot g T De 1 r) with (D' := q) in E; try lra.
  replace (d1 * (1 / q) ^ 5) with d in E; [assumption|].
  unfold q. assert (0 < d1 / d) by rpos. ln_eq. rewrite ln_1. lra.
Qed.

Lemma vdm_wave_height_exists c_pl c_s P cot g T De D r d :
  0 < c_pl -> 0 < c_s -> 0 < P -> 0 < cot -> 0 < g -> 0 < T -> 0 < De -> 0 < D -> 0 < r -> 0 < d ->
  exists H, 0 < H /\ vdm c_pl c_s P cot (xi cot g T H) De D H r d.
Proof.
  intros.
  set (Hp := H_pl c_pl P cot g T De D r d). set (Hq := H_su c_s P cot g T De D r d).
  assert (0 < Hp) by apply H_pl_pos. assert (0 < Hq) by apply H_su_pos.
  assert (Ep : r * Hp / (De * D) = vdm_plunging c_pl P (xi cot g T Hp) d) by (apply H_pl_solves; assumption).
  assert (Eq : r * Hq / (De * D) = vdm_surging c_s P cot (xi cot g T Hq) d) by (apply H_su_solves; assumption).
  assert (A : xi cot g T Hp < xc c_pl c_s P cot <-> xi cot g T Hq < xc c_pl c_s P cot)
    by (apply (regime_agrees c_pl c_s P cot g T De D r) with (d := d); assumption).
  unfold xc in A. unfold vdm, plunging.
  destruct (Rle_dec 4 cot); [exists Hp; tauto|].
  destruct (Rlt_dec (xi cot g T Hp) (xi_critical c_pl c_s P cot)); [exists Hp; tauto|exists Hq; tauto].
Qed.
