(** Property C49: rear-side stability after Van Gent (2007). *)
From Coq Require Import Reals Lra Lia List Bool String Psatz.
From Verif.Lib Require Import Num Monad RTac NTac Contraction.
From Verif.Spec Require Import Waves Runup Rear.
From Verif.Model Require Import CoreUtility CorePhysics VanGent2001 RearVanGent2007.
From Verif.Proofs Require Import Core CheckTac Runup2001 RearSearch VdM.
Import ListNotations.
Open Scope R_scope.

Lemma checks_r a b c d e f h i j k l m : value (check_validity_range a b c d e f h i j k l m) = Ok tt.
Proof. unfold check_validity_range. mchecks. reflexivity. Qed.
Lemma usage_fin D m rho : check_usage_Dn50_or_M50 (Fin D) m rho = ret (Fin D).
Proof. reflexivity. Qed.

Lemma is_int_08 : is_int 0.8 = false.
Proof. unfold is_int. apply Reqb_false. rewrite (Int_part_spec 0.8 0) by lra. lra. Qed.

Lemma z1_fin H T gamma cot : 0 < H -> 0 < T -> 0 < cot ->
  calculate_wave_runup_height_z1p (Fin H) (Fin T) (Fin gamma) (Fin cot) z1p_c0 z1p_c1
  = Fin (gamma * H * vangent_curve 1.45 5.1 (iribarren g0 H T (1 / cot))).
Proof. intros. apply zXp_fin; lra. Qed.

Section Fixed.
Variables (cot phi gamma T Rc front rear N : R).
Hypotheses (Hcot : 0 < cot) (Hphi : 0 < phi) (Hgamma : 0 < gamma) (HT : 0 < T) (HRc : 0 < Rc) (Hfront : 0 <= front)
  (Hrear : 0 <= rear < Rc) (HN : 0 < N).

Definition z1 (H : R) : R := gamma * H * vangent_curve 1.45 5.1 (iribarren g0 H T (1 / cot)).
Definition ld (H : R) : R := rear_load (z1 H) Rc front rear phi H.

Lemma K_pos : 0 < 1 + 5 * rear / (Rc - rear).
Proof. assert (0 <= 5 * rear / (Rc - rear)) by rpos. lra. Qed.
Lemma fr_pos H : 0 < H -> 0 < 1 + front / H.
Proof. intros. assert (0 <= front / H) by rpos. lra. Qed.

Lemma damage_fin H D m50 rho : 0 < H -> 0 < D ->
  value (calculate_damage_number_S (Fin cot) (Fin phi) (Fin gamma) (Fin H) (Fin T) (Fin Rc) (Fin front) (Fin rear)
           (Fin N) (Fin D) m50 rho) = Ok (Fin (rear_damage (ld H) N D)).
Proof.
  intros HH HD. unfold calculate_damage_number_S. rewrite usage_fin, bind_ret_l. mval. rewrite checks_r. mval.
  rewrite z1_fin by assumption. fold (z1 H). pose proof K_pos. pose proof (fr_pos H HH).
  assert (0 < Rc / D) by rpos. assert (Rc - rear <> 0) by lra.
  rewrite !nsub_fin, !nmul_fin, !ndiv_fin, !npow_fin_2, !nadd_fin, nsqrt_fin, nneg_fin, !npow_fin, !nmul_fin by (assumption || lra).
  do 2 f_equal. unfold rear_damage, ld, rear_load. rewrite Rpower_Ropp, Rpower_1 by assumption.
  assert (E : Rpower D 2.5 = D ^ 2 * Rpower D 0.5).
  { rewrite <- (Rpower_2 D HD), <- Rpower_plus. f_equal. lra. }
  rewrite E. rewrite Rpower_div by assumption. replace (sqrt Rc) with (Rpower Rc 0.5).
  2: { replace 0.5 with (/ 2) by lra. apply Rpower_sqrt. assumption. }
  pose proof (Rpower_pos D 0.5). set (k := 1 + 5 * rear / (Rc - rear)) in *. set (f := 1 + front / H) in *.
  field. lra.
Qed.

Lemma ld_pos H : 0 < H -> z1 H <> Rc -> 0 < ld H.
Proof.
  intros HH Hz. unfold ld, rear_load. pose proof K_pos. pose proof (fr_pos H HH).
  assert (0 < (z1 H - Rc) ^ 2) by (assert (z1 H - Rc <> 0) by lra; apply Rsqr_pos_lt in H2; unfold Rsqr in H2; simpl; lra).
  rpos.
Qed.

Lemma diameter_fin H S : 0 < H -> 0 < S -> Rc < z1 H ->
  value (calculate_nominal_rock_diameter_Dn50 (Fin cot) (Fin phi) (Fin gamma) (Fin S) (Fin H) (Fin T) (Fin Rc) (Fin front)
           (Fin rear) (Fin N)) = Ok (Fin (rear_diameter (ld H) N S)).
Proof.
  intros HH HS Hz. unfold calculate_nominal_rock_diameter_Dn50. mval. rewrite checks_r. mval.
  rewrite z1_fin by assumption. fold (z1 H). pose proof K_pos. pose proof (fr_pos H HH). assert (0 < z1 H - Rc) by lra.
  assert (Rc - rear <> 0) by lra. assert (0 < sqrt N) by rpos. assert (0 < S / sqrt N) by rpos.
  rewrite !nsub_fin, !nmul_fin, nsqrt_fin, !ndiv_fin, !nadd_fin, !nneg_fin, !npow_fin, !nmul_fin by (assumption || lra).
  do 2 f_equal. unfold rear_diameter, ld, rear_load. set (k := 1 + 5 * rear / (Rc - rear)) in *. set (f := 1 + front / H) in *.
  set (d := S / sqrt N) in *. ln_eq. lra.
Qed.
End Fixed.

(** The two functions evaluate the published formulas, the diameter only when
    the run-up level lies above the crest. *)
Theorem C49_published_formulas :
  forall cot phi gamma T Rc front rear N H z,
    0 < cot -> 0 < phi -> 0 < gamma -> 0 < T -> 0 < Rc -> 0 <= front -> 0 <= rear < Rc -> 0 < N -> 0 < H ->
    calculate_wave_runup_height_z1p (Fin H) (Fin T) (Fin gamma) (Fin cot) z1p_c0 z1p_c1 = Fin z ->
    let load := rear_load z Rc front rear phi H in
    (forall D m50 rho, 0 < D ->
       value (calculate_damage_number_S (Fin cot) (Fin phi) (Fin gamma) (Fin H) (Fin T) (Fin Rc) (Fin front) (Fin rear)
           (Fin N) (Fin D) m50 rho) = Ok (Fin (rear_damage load N D)))
    /\ (forall S, 0 < S -> Rc < z ->
       value (calculate_nominal_rock_diameter_Dn50 (Fin cot) (Fin phi) (Fin gamma) (Fin S) (Fin H) (Fin T) (Fin Rc)
           (Fin front) (Fin rear) (Fin N)) = Ok (Fin (rear_diameter load N S))).
Proof.
  intros cot phi gamma T Rc front rear N H z Hc Hp Hg HT HR Hf Hr HN HH Ez. rewrite z1_fin in Ez by assumption.
  injection Ez as <-. split; intros.
  - apply damage_fin; assumption.
  - apply diameter_fin; assumption.
Qed.

(** The diameter does not invert the damage: the damage computed with the
    diameter designed for S is always the same multiple of S, more than 1.01 and
    less than 1.02. *)
Theorem C49_round_trip_factor :
  exists k, 1.01 < k < 1.02
    /\ forall cot phi gamma T Rc front rear N H z S m50 rho,
       0 < cot -> 0 < phi -> 0 < gamma -> 0 < T -> 0 < Rc -> 0 <= front -> 0 <= rear < Rc -> 0 < N -> 0 < H -> 0 < S ->
       calculate_wave_runup_height_z1p (Fin H) (Fin T) (Fin gamma) (Fin cot) z1p_c0 z1p_c1 = Fin z -> Rc < z ->
       exists D, 0 < D
         /\ value (calculate_nominal_rock_diameter_Dn50 (Fin cot) (Fin phi) (Fin gamma) (Fin S) (Fin H) (Fin T) (Fin Rc)
              (Fin front) (Fin rear) (Fin N)) = Ok (Fin D)
         /\ value (calculate_damage_number_S (Fin cot) (Fin phi) (Fin gamma) (Fin H) (Fin T) (Fin Rc) (Fin front) (Fin rear)
              (Fin N) (Fin D) m50 rho) = Ok (Fin (k * S)).
Proof.
  exists (0.00025 / Rpower 0.036 2.5). split.
  - replace (Rpower 0.036 2.5) with (0.036 ^ 2 * sqrt 0.036).
    2: { rewrite <- (Rpower_2 0.036), sqrt_Rpower, <- Rpower_plus by lra. f_equal. lra. }
    assert (S1 : 0.1897 < sqrt 0.036) by (rewrite <- (sqrt_square 0.1897) by lra; apply sqrt_lt_1_alt; lra).
    assert (S2 : sqrt 0.036 < 0.1898) by (rewrite <- (sqrt_square 0.1898) by lra; apply sqrt_lt_1_alt; lra).
    assert (P : 0 < 0.036 ^ 2 * sqrt 0.036) by (apply Rmult_lt_0_compat; [cbn [pow]; lra|lra]).
    set (s := sqrt 0.036) in *. split; (apply (Rmult_lt_reg_r (0.036 ^ 2 * s)); [assumption|]);
      unfold Rdiv; rewrite Rmult_assoc, Rinv_l by lra; cbn [pow]; lra.
  - intros cot phi gamma T Rc front rear N H z S m50 rho Hc Hp Hg HT HR Hf Hr HN HH HS Ez Lz.
    rewrite z1_fin in Ez by assumption. injection Ez as <-. fold (z1 cot gamma T H) in *.
    assert (HL : 0 < ld cot phi gamma T Rc front rear H) by (apply ld_pos; try assumption; lra).
    exists (rear_diameter (ld cot phi gamma T Rc front rear H) N S).
    assert (HD : 0 < rear_diameter (ld cot phi gamma T Rc front rear H) N S) by (unfold rear_diameter; rpos).
    split; [assumption|]. split; [apply diameter_fin; assumption|].
    rewrite damage_fin by assumption. do 2 f_equal. set (l := ld cot phi gamma T Rc front rear H) in *.
    unfold rear_damage, rear_diameter in *. assert (0 < sqrt N) by rpos. set (n := sqrt N) in *. assert (0 < S / n) by rpos. set (d := S / n) in *.
    assert (Ed : ln d = ln S - ln n) by (unfold d; apply ln_div; assumption).
    ln_eq. lra.
Qed.

(** Run-up below the crest cannot reach the rear side, yet the damage function
    returns a positive damage for it, and lowering the run-up further increases
    that damage; the diameter function returns no number. *)
Theorem C49_no_damage_below_crest_refuted :
  exists H T gamma gamma' z z' S S',
    calculate_wave_runup_height_z1p (Fin H) (Fin T) (Fin gamma) (Fin 2) z1p_c0 z1p_c1 = Fin z
    /\ calculate_wave_runup_height_z1p (Fin H) (Fin T) (Fin gamma') (Fin 2) z1p_c0 z1p_c1 = Fin z'
    /\ 0 < z' < z /\ z < 2
    /\ value (calculate_damage_number_S (Fin 2) (Fin 2) (Fin gamma) (Fin H) (Fin T) (Fin 2) (Fin 0) (Fin 0) (Fin 2500)
                (Fin 0.25) NaN NaN) = Ok (Fin S)
    /\ value (calculate_damage_number_S (Fin 2) (Fin 2) (Fin gamma') (Fin H) (Fin T) (Fin 2) (Fin 0) (Fin 0) (Fin 2500)
                (Fin 0.25) NaN NaN) = Ok (Fin S')
    /\ 0 < S < S'
    /\ value (calculate_nominal_rock_diameter_Dn50 (Fin 2) (Fin 2) (Fin gamma) (Fin S) (Fin H) (Fin T) (Fin 2) (Fin 0)
                (Fin 0) (Fin 2500)) = Ok NaN.
Proof.
  set (r := vangent_curve 1.45 5.1 (iribarren g0 1 5 (1 / 2))).
  assert (X : 0 < iribarren g0 1 5 (1 / 2)) by (apply iribarren_pos; try apply g0_pos; lra).
  assert (Pr : 0 < r) by (apply curve_pos; lra).
  assert (Z1 : z1 2 (1 / r) 5 1 = 1) by (unfold z1; fold r; field; lra).
  assert (Z2 : z1 2 (0.5 / r) 5 1 = 0.5) by (unfold z1; fold r; rfield; lra).
  assert (P1 : 0 < 1 / r) by rpos. assert (P2 : 0 < 0.5 / r) by rpos.
  assert (L1 : 0 < ld 2 2 (1 / r) 5 2 0 0 1) by (apply ld_pos; lra).
  exists 1, 5, (1 / r), (0.5 / r), 1, 0.5, (rear_damage (ld 2 2 (1 / r) 5 2 0 0 1) 2500 0.25), (rear_damage (ld 2 2 (0.5 / r) 5 2 0 0 1) 2500 0.25).
  split; [rewrite z1_fin by lra; f_equal; exact Z1|]. split; [rewrite z1_fin by lra; f_equal; exact Z2|].
  split; [lra|]. split; [lra|].
  split; [apply damage_fin; lra|]. split; [apply damage_fin; lra|]. 
  assert (PD : 0 < Rpower 0.25 2.5) by apply Rpower_pos. assert (PN : 0 < sqrt 2500) by (apply sqrt_lt_R0; lra).
  split; [split|].
  - unfold rear_damage. rpos.
  - unfold rear_damage. unfold Rdiv at 1 3. apply Rmult_lt_compat_r; [rpos|]. apply Rmult_lt_compat_r; [assumption|].
    apply Rmult_lt_compat_l; [lra|]. unfold ld, rear_load. rewrite Z1, Z2. unfold Rdiv.
    apply Rmult_lt_compat_r; [rpos|]. apply Rmult_lt_compat_r; [lra|]. apply Rmult_lt_compat_r; [apply sqrt_lt_R0; lra|].
    apply Rmult_lt_compat_l; [apply Rpower_pos|]. cbn [pow]. lra.
  - set (S0 := rear_damage (ld 2 2 (1 / r) 5 2 0 0 1) 2500 0.25).
    unfold calculate_nominal_rock_diameter_Dn50. mval. rewrite checks_r. mval. rewrite z1_fin by lra.
    fold (z1 2 (1 / r) 5 1). rewrite Z1. rewrite nsub_fin. rewrite (npow_neg_nonint (1 - 2) 0.8) by (lra || apply is_int_08).
    nnan. reflexivity.
Qed.

(** In general: below the crest the damage is positive and there is no
    diameter. *)
Theorem C49_below_crest :
  forall cot phi gamma T Rc front rear N H z,
    0 < cot -> 0 < phi -> 0 < gamma -> 0 < T -> 0 < Rc -> 0 <= front -> 0 <= rear < Rc -> 0 < N -> 0 < H ->
    calculate_wave_runup_height_z1p (Fin H) (Fin T) (Fin gamma) (Fin cot) z1p_c0 z1p_c1 = Fin z -> z < Rc ->
    (forall D m50 rho, 0 < D -> exists S, 0 < S /\
       value (calculate_damage_number_S (Fin cot) (Fin phi) (Fin gamma) (Fin H) (Fin T) (Fin Rc) (Fin front) (Fin rear)
           (Fin N) (Fin D) m50 rho) = Ok (Fin S))
    /\ (forall S, value (calculate_nominal_rock_diameter_Dn50 (Fin cot) (Fin phi) (Fin gamma) S (Fin H) (Fin T) (Fin Rc)
           (Fin front) (Fin rear) (Fin N)) = Ok NaN).
Proof.
  intros cot phi gamma T Rc front rear N H z Hc Hp Hg HT HR Hf Hr HN HH Ez Lz. rewrite z1_fin in Ez by assumption.
  injection Ez as <-. fold (z1 cot gamma T H) in *. split; intros.
  - eexists. split; [|apply damage_fin; assumption].
    assert (0 < ld cot phi gamma T Rc front rear H) by (apply ld_pos; try assumption; lra). unfold rear_damage. rpos.
  - unfold calculate_nominal_rock_diameter_Dn50. mval. rewrite checks_r. mval. rewrite z1_fin by assumption.
    fold (z1 cot gamma T H). rewrite nsub_fin. rewrite (npow_neg_nonint _ 0.8) by (lra || apply is_int_08).
    nnan. reflexivity.
Qed.

(** ** The wave-height search *)
Definition max_warning : warning := WText "Maximum number of iterations reached, convergence not achieved".

Section WaveHeight.
Variables (cot phi gamma T Rc front rear N D S : R).
Hypotheses (Hcot : 0 < cot) (Hphi : 0 < phi) (Hgamma : 0 < gamma) (HT : 0 < T) (HRc : 0 < Rc) (Hfront : 0 < front)
  (Hrear : 0 <= rear < Rc) (HN : 0 < N) (HD : 0 < D) (HS : 0 < S).

Let rl (H : R) : R := rel T cot 1.45 5.1 H.
Let A2 : R := S / sqrt N * (1 / 0.00025) * Rpower phi (-(1.25)) * Rpower (Rc / D) (-(0.5))
              * Rpower (1 + 5 * rear / (Rc - rear)) (-1).
Let zf (H : R) : R := D * Rpower (A2 * (1 + front / H)) 0.5 + Rc.
Let F (H : R) : R := zf H / (gamma * rl H).

Lemma A2_pos : 0 < A2. Proof. unfold A2. rpos. Qed.
Lemma frp H : 0 < H -> 0 < 1 + front / H. Proof. intros. apply fr_pos; lra. Qed.
Lemma rl_pos H : 0 < H -> 0 < rl H. Proof. intros. apply rel_pos; lra. Qed.
Lemma zf_gt H : Rc < zf H.
Proof. unfold zf. assert (0 < D * Rpower (A2 * (1 + front / H)) 0.5) by rpos. lra. Qed.
Lemma F_pos H : 0 < H -> 0 < F H.
Proof. intros HH. unfold F. pose proof (rl_pos H HH). pose proof (zf_gt H). rpos. Qed.
Lemma F_lower H : 0 < H -> Rc / (5.1 * gamma) < F H.
Proof.
  intros HH. unfold F. pose proof (rl_pos H HH) as P. pose proof (zf_gt H) as Z.
  assert (B : rl H < 5.1) by (apply rel_lt; lra).
  apply Rlt_le_trans with (Rc / (gamma * rl H)).
  - unfold Rdiv. apply Rmult_lt_compat_l; [assumption|]. apply Rinv_lt_contravar; [rpos|].
    rewrite (Rmult_comm 5.1). apply Rmult_lt_compat_l; assumption.
  - unfold Rdiv. apply Rmult_le_compat_r; [apply Rlt_le; rpos|lra].
Qed.

Lemma zf_between x y : 0 < x -> x <= y -> zf y <= zf x <= sqrt (y / x) * zf y.
Proof.
  intros Hx Hy. pose proof A2_pos as PA. pose proof (frp x Hx) as Fx. pose proof (frp y ltac:(lra)) as Fy.
  assert (K : 1 <= y / x). { apply (Rmult_le_reg_r x); [assumption|]. unfold Rdiv. rewrite Rmult_assoc, Rinv_l by lra. lra. }
  assert (Ks : 1 <= sqrt (y / x)) by (rewrite <- sqrt_1; apply sqrt_le_1_alt; assumption).
  unfold zf. assert (front / y <= front / x).
  { unfold Rdiv. apply Rmult_le_compat_l; [lra|]. apply Rinv_le_contravar; assumption. }
  assert (A2 * (1 + front / y) <= A2 * (1 + front / x)) by (apply Rmult_le_compat_l; lra).
  assert (0 < A2 * (1 + front / y)) by rpos. split.
  - assert (Rpower (A2 * (1 + front / y)) 0.5 <= Rpower (A2 * (1 + front / x)) 0.5) by (apply Rpower_le_base; lra).
    apply Rplus_le_compat_r. apply Rmult_le_compat_l; lra.
  - assert (Q : Rpower (A2 * (1 + front / x)) 0.5 <= sqrt (y / x) * Rpower (A2 * (1 + front / y)) 0.5).
    { rewrite sqrt_Rpower by lra. replace (/ 2) with 0.5 by lra. rewrite <- Rpower_mul by (lra || assumption).
      apply Rpower_le_base; [lra|rpos|].
      replace (y / x * (A2 * (1 + front / y))) with (A2 * (y / x + front / x)) by (field; lra).
      apply Rmult_le_compat_l; lra. }
    rewrite (Rmult_plus_distr_l (sqrt (y / x))). apply Rplus_le_compat.
    + replace (sqrt (y / x) * (D * Rpower (A2 * (1 + front / y)) 0.5)) with (D * (sqrt (y / x) * Rpower (A2 * (1 + front / y)) 0.5)) by ring.
      apply Rmult_le_compat_l; lra.
    + nra.
Qed.

Lemma F_ln x : 0 < x -> ln (F x) = ln (zf x) - ln gamma - ln (rl x).
Proof. intros Hx. unfold F. pose proof (rl_pos x Hx). pose proof (zf_gt x). assert (0 < zf x) by lra. ln_push. lra. Qed.

Lemma F_both x y : 0 < x -> x <= y ->
  - / 2 * (ln y - ln x) <= ln (F y) - ln (F x) <= / 2 * (ln y - ln x).
Proof.
  intros Hx Hy. assert (Hy' : 0 < y) by lra. rewrite !F_ln by assumption.
  destruct (zf_between x y Hx Hy) as [Z1 Z2]. destruct (rel_between T cot 1.45 5.1 HT Hcot ltac:(lra) ltac:(lra) x y Hx Hy) as [R1 R2].
  fold (rl x) in *. fold (rl y) in *. pose proof (rl_pos x Hx). pose proof (rl_pos y Hy'). pose proof (zf_gt x). pose proof (zf_gt y).
  assert (0 < zf x) by lra. assert (0 < zf y) by lra. assert (0 < y / x) by rpos. assert (0 < sqrt (y / x)) by rpos.
  apply ln_le_mono in Z1; [|assumption]. apply ln_le_mono in R1; [|assumption].
  apply ln_le_mono in Z2; [|assumption]. apply ln_le_mono in R2; [|assumption].
  rewrite ln_mult, ln_sqrt, ln_div in Z2 by assumption. rewrite ln_mult, ln_sqrt, ln_div in R2 by assumption. lra.
Qed.

Lemma F_lip x y : 0 < x -> 0 < y -> Rabs (ln (F x) - ln (F y)) <= / 2 * Rabs (ln x - ln y).
Proof.
  assert (W : forall x y, 0 < x -> x <= y -> Rabs (ln (F x) - ln (F y)) <= / 2 * Rabs (ln x - ln y)).
  { intros a b Ha Hb. pose proof (F_both a b Ha Hb). assert (ln a <= ln b) by (apply ln_le_mono; assumption).
    rewrite (Rabs_left1 (ln a - ln b)) by lra. apply Rabs_le. lra. }
  intros Hx Hy. destruct (Rle_or_lt x y); [apply W; assumption|].
  rewrite Rabs_minus_sym, (Rabs_minus_sym (ln x)). apply W; lra.
Qed.

(** The fixed points are the wave heights with run-up above the crest and
    damage S. *)
Lemma fixed_iff H : 0 < H ->
  F H = H <-> Rc < z1 cot gamma T H /\ rear_damage (ld cot phi gamma T Rc front rear H) N D = S.
Proof.
  intros HH. pose proof (rl_pos H HH) as PR. pose proof A2_pos as PA. pose proof (frp H HH) as PF. pose proof (zf_gt H) as PZ.
  assert (E1 : F H = H <-> z1 cot gamma T H = zf H).
  { unfold F. unfold z1. fold (rel T cot 1.45 5.1 H). fold (rl H). split; intros E.
    - rewrite <- E at 1. field. lra.
    - rewrite <- E. field. lra. }
  rewrite E1. set (z := z1 cot gamma T H) in *.
  assert (PK : 0 < 1 + 5 * rear / (Rc - rear)) by (apply K_pos; lra).
  assert (HsN : 0 < sqrt N) by rpos.
  assert (L0 : ln A2 = ln S - / 2 * ln N - ln 0.00025 - 1.25 * ln phi - 0.5 * (ln Rc - ln D) - ln (1 + 5 * rear / (Rc - rear))).
  { unfold A2. set (k := 1 + 5 * rear / (Rc - rear)) in *. assert (0 < Rc / D) by rpos. ln_push. rewrite ?ln_1. lra. }
  assert (LD : Rc < z -> ln (rear_damage (ld cot phi gamma T Rc front rear H) N D)
    = ln 0.00025 + 1.25 * ln phi + 2 * ln (z - Rc) + / 2 * ln Rc + ln (1 + 5 * rear / (Rc - rear)) - ln (1 + front / H) + / 2 * ln N - 2.5 * ln D).
  { intros L. unfold rear_damage, ld, rear_load. fold z. assert (0 < z - Rc) by lra.
    set (k := 1 + 5 * rear / (Rc - rear)) in *. set (f := 1 + front / H) in *. ln_push. cbn [INR]. lra. }
  assert (LZ : ln (zf H - Rc) = ln D + 0.5 * (ln A2 + ln (1 + front / H))).
  { unfold zf. replace (D * Rpower (A2 * (1 + front / H)) 0.5 + Rc - Rc) with (D * Rpower (A2 * (1 + front / H)) 0.5) by ring.
    set (f := 1 + front / H) in *. ln_push. lra. }
  assert (PD : Rc < z -> 0 < rear_damage (ld cot phi gamma T Rc front rear H) N D).
  { intros L. assert (0 < ld cot phi gamma T Rc front rear H) by (apply ld_pos; try assumption; fold z; lra). unfold rear_damage. rpos. }
  split.
  - intros E. split; [lra|]. assert (L : Rc < z) by lra. apply ln_inv; [apply PD; assumption|assumption|].
    rewrite (LD L). rewrite E, LZ, L0. lra.
  - intros (L & E). apply (f_equal ln) in E. rewrite (LD L) in E.
    assert (z - Rc = zf H - Rc); [|lra]. apply ln_inv; [lra|lra|]. rewrite LZ, L0. lra.
Qed.

Lemma zstep x : 0 < x ->
  invert_for_z1p (Fin phi) (Fin S) (Fin D) (Fin x) (Fin Rc) (Fin front) (Fin rear) (Fin N) = Fin (zf x).
Proof.
  intros Hx. unfold invert_for_z1p. pose proof A2_pos as PA. pose proof (frp x Hx) as PF.
  assert (PK : 0 < 1 + 5 * rear / (Rc - rear)) by (apply K_pos; lra).
  assert (0 < sqrt N) by rpos. assert (0 < Rc / D) by rpos. assert (Rc - rear <> 0) by lra. assert (Hq : 0.00025 <> 0) by lra.
  rewrite nsqrt_fin, nsub_fin, !nmul_fin, !nneg_fin, !ndiv_fin, !nadd_fin, !(npow_fin phi), !(npow_fin (Rc / D)), !(npow_fin (1 + _)), !nmul_fin by (assumption || lra).
  replace (- (1)) with (-1) by ring. fold A2. assert (0 < A2 * (1 + front / x)) by rpos.
  rewrite npow_fin, nmul_fin, nadd_fin by assumption. reflexivity.
Qed.
Lemma hstep x : 0 < x -> invert_for_Hs (Fin x) (Fin (zf x)) (Fin T) (Fin gamma) (Fin cot) invert_c0 invert_c1 = Fin (F x).
Proof. intros. unfold invert_c0, invert_c1. rewrite invert_fin by (assumption || lra). reflexivity. Qed.

Lemma F_near p x tol : 0 < p -> F p = p -> 0 < x -> 0 <= tol -> tol <= Rc / (10.2 * gamma) -> Rabs (F x - x) <= tol ->
  Rabs (F x - p) <= 2 * tol.
Proof.
  intros Hp Fix Hx Ht Hs L. pose proof (F_pos x Hx) as PF. pose proof (F_lower x Hx) as B.
  assert (G : F x * F x = exp (2 * ln (F x))).
  { replace (2 * ln (F x)) with (ln (F x) + ln (F x)) by ring. rewrite exp_plus, exp_ln by assumption. reflexivity. }
  assert (G' : x * p = exp (ln x + ln p)) by (rewrite exp_plus, !exp_ln by assumption; reflexivity).
  assert (M : forall a b, a <= b -> exp a <= exp b).
  { intros a b [Q| ->]; [left; apply exp_increasing; assumption|right; reflexivity]. }
  destruct (near_root p x (F x) tol) as [C|C]; try assumption.
  - intros Q. rewrite G, G'. apply M. pose proof (F_both p x Hp Q) as E. rewrite Fix in E. lra.
  - intros Q. rewrite G, G'. apply M. pose proof (F_both x p Hx Q) as E. rewrite Fix in E. lra.
  - exfalso. replace (Rc / (10.2 * gamma)) with (Rc / (5.1 * gamma) / 2) in Hs by (rfield; lra). lra.
Qed.
Lemma no_max_in_checks a b c d e f h i j k l m : ~ In max_warning (warns (check_validity_range a b c d e f h i j k l m)).
Proof.
  unfold check_validity_range. intros I.
  repeat (rewrite warns_bind in I; apply in_app_or in I; destruct I as [I|I];
    [|match type of I with context [match ?v with _ => _ end] => destruct v; [|exact I] end]);
  (unfold when in I; match type of I with context [if ?b then _ else _] => destruct b end;
   [rewrite warns_check in I; match type of I with context [if ?b then _ else _] => destruct b end; [destruct I as [I|I]; [discriminate|exact I]|exact I]|exact I]).
Qed.

Lemma run_value m50 rho tol n : 0 < tol ->
  exists todo y, 0 < y /\ (todo = 0%nat \/ Rabs (F y - y) <= tol)
    /\ ((exists m, (m < n)%nat /\ Rabs (iter F (Datatypes.S m) front - iter F m front) <= tol) -> todo <> 0%nat)
    /\ let run := calculate_maximum_significant_wave_height_Hs (Fin cot) (Fin phi) (Fin gamma) (Fin S) (Fin T) (Fin Rc)
                         (Fin front) (Fin rear) (Fin N) (Fin D) m50 rho (Fin tol) (Datatypes.S n) in
       value run = Ok (Fin (F y)) /\ (In max_warning (warns run) <-> todo = 0%nat).
Proof.
  intros Ht.
  destruct (search_start (fun Hs_i0 => invert_for_z1p (Fin phi) (Fin S) (Fin D) Hs_i0 (Fin Rc) (Fin front) (Fin rear) (Fin N))
              (fun Hs_i0 z1p => invert_for_Hs Hs_i0 z1p (Fin T) (Fin gamma) (Fin cot) invert_c0 invert_c1)
              zf F (fun x => 0 < x) tol zstep hstep F_pos n front Hfront) as (todo & y & Hy & E & St & Te).
  exists todo, y. split; [assumption|]. split; [assumption|]. split; [assumption|]. cbv zeta.
  unfold calculate_maximum_significant_wave_height_Hs. rewrite usage_fin, bind_ret_l. rewrite E. split.
  - mval. destruct (Nat.eqb todo 0); cbn [when]; mval; rewrite checks_r; reflexivity.
  - rewrite warns_bind. destruct todo; cbn [Nat.eqb when].
    + split; [reflexivity|]. intros _. apply in_or_app. left. left. reflexivity.
    + split; [|discriminate]. intros I. exfalso. cbn [warns fst ret value snd app] in I.
      rewrite warns_bind in I. rewrite checks_r in I. apply in_app_or in I. destruct I as [I|I]; [|exact I].
      exact (no_max_in_checks _ _ _ _ _ _ _ _ _ _ _ _ I).
Qed.

Lemma wave_height_main m50 rho :
    exists H, 0 < H
      /\ (forall H', 0 < H' ->
           ((exists z, calculate_wave_runup_height_z1p (Fin H') (Fin T) (Fin gamma) (Fin cot) z1p_c0 z1p_c1 = Fin z /\ Rc < z)
            /\ value (calculate_damage_number_S (Fin cot) (Fin phi) (Fin gamma) (Fin H') (Fin T) (Fin Rc) (Fin front)
                       (Fin rear) (Fin N) (Fin D) m50 rho) = Ok (Fin S))
           <-> H' = H)
      /\ forall tol, 0 < tol ->
         (forall max_iterations, exists Hc,
            let run := calculate_maximum_significant_wave_height_Hs (Fin cot) (Fin phi) (Fin gamma) (Fin S) (Fin T) (Fin Rc)
                         (Fin front) (Fin rear) (Fin N) (Fin D) m50 rho (Fin tol) (Datatypes.S max_iterations) in
            value run = Ok (Fin Hc) /\ 0 < Hc
            /\ (~ In max_warning (warns run) -> tol <= Rc / (10.2 * gamma) -> Rabs (Hc - H) <= 2 * tol))
         /\ exists enough, forall max_iterations, (enough <= max_iterations)%nat ->
            ~ In max_warning (warns (calculate_maximum_significant_wave_height_Hs (Fin cot) (Fin phi) (Fin gamma) (Fin S) (Fin T)
                         (Fin Rc) (Fin front) (Fin rear) (Fin N) (Fin D) m50 rho (Fin tol) max_iterations)).
Proof.
  destruct (log_contraction_fixpoint F (/ 2) ltac:(lra) F_pos F_lip) as (p & Pp & Fix & Uniq & _).
  exists p. split; [assumption|]. split.
  - intros H' HH'. assert (Hf0 : 0 <= front) by lra. rewrite damage_fin by assumption. rewrite z1_fin by assumption.
    fold (z1 cot gamma T H'). split.
    + intros ((z & Ez & Lz) & Es). injection Ez as <-. injection Es as Es. apply Uniq; [assumption|].
      apply fixed_iff; [assumption|]. split; assumption.
    + intros ->. apply fixed_iff in Fix; [|assumption]. destruct Fix as [Lz Es]. split.
      * eexists. split; [reflexivity|exact Lz].
      * rewrite Es. reflexivity.
  - intros tol Ht. split.
    + intros n. destruct (run_value m50 rho tol n Ht) as (todo & y & Hy & St & _ & V & W). exists (F y). cbv zeta in *.
      split; [exact V|]. split; [apply F_pos; assumption|]. intros NW Ls. destruct St as [->|St]; [tauto|].
      apply F_near; try assumption; lra.
    + destruct (log_contraction_stops F (/ 2) ltac:(lra) F_pos F_lip front tol Hfront Ht) as (n0 & Hn0).
      exists (Datatypes.S (Datatypes.S n0)). intros [|n] Hn; [lia|].
      destruct (run_value m50 rho tol n Ht) as (todo & y & Hy & _ & Te & V & W). cbv zeta in *. rewrite W.
      apply Te. exists n0. split; [lia|]. apply Rlt_le, Hn0. lia.
Qed.
End WaveHeight.

(** For every damage level there is exactly one wave height with run-up above
    the crest that causes it.  The search returns a number; unless it reports
    that the maximum number of iterations was reached, the number is within
    twice the tolerance of that wave height (for tolerances up to
    Rc/(10.2 gamma)); and with enough iterations allowed it does not report
    that. *)
Theorem C49_wave_height_search :
  forall cot phi gamma T Rc front rear N D S m50 rho,
    0 < cot -> 0 < phi -> 0 < gamma -> 0 < T -> 0 < Rc -> 0 < front -> 0 <= rear < Rc -> 0 < N -> 0 < D -> 0 < S ->
    exists H, 0 < H
      /\ (forall H', 0 < H' ->
           ((exists z, calculate_wave_runup_height_z1p (Fin H') (Fin T) (Fin gamma) (Fin cot) z1p_c0 z1p_c1 = Fin z /\ Rc < z)
            /\ value (calculate_damage_number_S (Fin cot) (Fin phi) (Fin gamma) (Fin H') (Fin T) (Fin Rc) (Fin front)
                       (Fin rear) (Fin N) (Fin D) m50 rho) = Ok (Fin S))
           <-> H' = H)
      /\ forall tol, 0 < tol ->
         (forall max_iterations, exists Hc,
            let run := calculate_maximum_significant_wave_height_Hs (Fin cot) (Fin phi) (Fin gamma) (Fin S) (Fin T) (Fin Rc)
                         (Fin front) (Fin rear) (Fin N) (Fin D) m50 rho (Fin tol) (Datatypes.S max_iterations) in
            value run = Ok (Fin Hc) /\ 0 < Hc
            /\ (~ In max_warning (warns run) -> tol <= Rc / (10.2 * gamma) -> Rabs (Hc - H) <= 2 * tol))
         /\ exists enough, forall max_iterations, (enough <= max_iterations)%nat ->
            ~ In max_warning (warns (calculate_maximum_significant_wave_height_Hs (Fin cot) (Fin phi) (Fin gamma) (Fin S) (Fin T)
                         (Fin Rc) (Fin front) (Fin rear) (Fin N) (Fin D) m50 rho (Fin tol) max_iterations)).
Proof.
  intros. apply wave_height_main; assumption.
Qed.

(** No crest element (front level zero) makes the search start from a wave
    height of zero, from which it never recovers: it returns no number and does
    not report failure of convergence. *)
Theorem C49_no_crest_element_no_wave_height :
  forall cot phi gamma S T Rc rear N D m50 rho tol max_iterations,
    value (calculate_maximum_significant_wave_height_Hs cot phi gamma S T Rc (Fin 0) rear N (Fin D) m50 rho (Fin tol)
             (Datatypes.S (Datatypes.S max_iterations))) = Ok NaN
    /\ ~ In max_warning (warns (calculate_maximum_significant_wave_height_Hs cot phi gamma S T Rc (Fin 0) rear N (Fin D) m50
             rho (Fin tol) (Datatypes.S (Datatypes.S max_iterations)))).
Proof.
  intros. unfold calculate_maximum_significant_wave_height_Hs. rewrite usage_fin, bind_ret_l.
  cbn [search]. change (nabs (Fin 0 - (Fin 0 + PInf))%num) with PInf. change (ngt PInf (Fin tol)) with true. cbv iota zeta.
  assert (E : invert_for_z1p phi S (Fin D) (Fin 0) Rc (Fin 0) rear N = NaN).
  { unfold invert_for_z1p. rewrite ndiv_0_0. nnan. reflexivity. }
  rewrite E. assert (E' : invert_for_Hs (Fin 0) NaN T gamma cot invert_c0 invert_c1 = NaN).
  { unfold invert_for_Hs. rewrite !ndiv_nan_l. destruct (nlt _ _); reflexivity. }
  rewrite E'. nnan. cbv iota. split.
  - cbn [Nat.eqb when]. mval. rewrite checks_r. reflexivity.
  - cbn [Nat.eqb when]. rewrite bind_ret_l, warns_bind, checks_r. intros I. apply in_app_or in I. destruct I as [I|I]; [|exact I].
    exact (no_max_in_checks _ _ _ _ _ _ _ _ _ _ _ _ I).
Qed.

(** With no iterations allowed there is nothing to return. *)
Theorem C49_zero_iterations_fail :
  forall cot phi gamma S T Rc front rear N D m50 rho tol,
    value (calculate_maximum_significant_wave_height_Hs cot phi gamma S T Rc front rear N (Fin D) m50 rho tol 0)
    = Err UnboundLocalError.
Proof. intros. reflexivity. Qed.

Example C49_example :
  exists H, 0 < H
    /\ value (calculate_damage_number_S #2 #2 #0.5 (Fin H) #6 #3 #1 #1 #2500 #0.5 NaN NaN) = Ok #10
    /\ exists enough, forall n, (enough <= n)%nat -> exists Hc,
       value (calculate_maximum_significant_wave_height_Hs #2 #2 #0.5 #10 #6 #3 #1 #1 #2500 #0.5 NaN NaN #0.001 n) = Ok (Fin Hc)
       /\ Rabs (Hc - H) <= 0.002.
Proof.
  destruct (C49_wave_height_search 2 2 0.5 6 3 1 1 2500 0.5 10 NaN NaN) as (H & PH & U & C); try lra.
  exists H. split; [assumption|]. split; [apply (U H PH); reflexivity|].
  destruct (C 0.001 ltac:(lra)) as (V & enough & W). exists (Datatypes.S enough). intros [|n] Hn; [lia|].
  destruct (V n) as (Hc & E & _ & B). exists Hc. split; [exact E|].
  replace 0.002 with (2 * 0.001) by lra. apply B; [apply W; lia|lra].
Qed.
