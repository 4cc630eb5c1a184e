(** Property C50: rear-side stability after Van Gent and Pozueta (2004). *)
From Coq Require Import Reals Lra Lia List Bool String Psatz.
From Verif.Lib Require Import Num Monad RTac NTac Contraction.
From Verif.Spec Require Import Waves Runup Rear.
From Verif.Model Require Import CoreUtility CorePhysics VanGent2001 VanGent2002Velocity RearVanGent2007 RearVanGentPozueta2004.
From Verif.Proofs Require Import Core CheckTac Runup2001 RearSearch VdM.
From Verif.Props Require Import RunupVanGent.
Import ListNotations.
Open Scope R_scope.

Lemma checks_p a b c d e f h i j k l m n : value (check_validity_range a b c d e f h i j k l m n) = Ok tt.
Proof. unfold check_validity_range. mchecks. reflexivity. Qed.
Lemma usage_fin D m rho : check_usage_Dn50_or_M50 (Fin D) m rho = ret (Fin D).
Proof. reflexivity. Qed.

Lemma z1_fin H T gamma cot : 0 < H -> 0 < T -> 0 < cot ->
  calculate_wave_runup_height_z1p (Fin H) (Fin T) (Fin gamma) (Fin cot) z1p_c0 z1p_c1
  = Fin (gamma * H * vangent_curve 1.45 5.1 (iribarren g0 H T (1 / cot))).
Proof. intros. apply zXp_fin; lra. Qed.

Lemma u_fin H z Rc B gf gc : 0 < H -> Rc <= z -> 0 <= B -> 0 < gf -> 0 < gc ->
  calculate_maximum_wave_overtopping_velocity_uXp (Fin H) (Fin z) (Fin Rc) (Fin B) (Fin gf) (Fin gc) cu1_default cu2_default g_default
  = Fin (crest_velocity 1.7 0.1 g0 H z Rc B gf gc).
Proof. intros. unfold cu1_default, cu2_default. change g_default with (Fin g0). apply velocity_fin; try assumption; try lra. apply g0_pos. Qed.

Lemma u_pos H z Rc B gf gc : 0 < H -> Rc < z -> 0 <= B -> 0 < gf -> 0 < gc -> 0 < crest_velocity 1.7 0.1 g0 H z Rc B gf gc.
Proof. intros. unfold crest_velocity. pose proof g0_pos. assert (0 <= 0.1 * B / H) by rpos. assert (0 < z - Rc) by lra. rpos. Qed.

Lemma wave_factor_pos rear H : 0 < 1 + 10 * exp (- (rear / H)).
Proof. pose proof (exp_pos (- (rear / H))). lra. Qed.

Lemma exp_fin rear H : H <> 0 ->
  (#1 + #10 * nexp (- Fin rear / Fin H))%num = Fin (1 + 10 * exp (- (rear / H))).
Proof.
  intros. rewrite nneg_fin, ndiv_fin, nexp_fin, nmul_fin, nadd_fin by assumption.
  replace (- rear / H) with (- (rear / H)) by (field; assumption). reflexivity.
Qed.

Section Relation.
Variables (cs u T De D phi rear H N S : R).
Hypotheses (Hcs : 0 < cs) (Hu : 0 < u) (HT : 0 < T) (HDe : 0 < De) (HD : 0 < D) (Hphi : 0 < phi) (HH : 0 < H) (HN : 0 < N) (HS : 0 < S).

(** The relation in logarithms. *)
Lemma pozueta_log :
  pozueta cs u T De D phi rear H N S <->
  ln S - / 2 * ln N = ln cs + 6 * (ln u + ln T - / 2 * ln De - ln D) - 2.5 * ln phi + ln (1 + 10 * exp (- (rear / H))).
Proof.
  pose proof (wave_factor_pos rear H) as W. set (w := 1 + 10 * exp (- (rear / H))) in *. unfold pozueta. fold w.
  assert (0 < sqrt De * D) by rpos. assert (0 < u * T / (sqrt De * D)) by rpos.
  assert (L1 : ln (S / sqrt N) = ln S - / 2 * ln N) by (ln_push; lra).
  assert (L2 : ln (cs * (u * T / (sqrt De * D)) ^ 6 * Rpower phi (-(2.5)) * w)
    = ln cs + 6 * (ln u + ln T - / 2 * ln De - ln D) - 2.5 * ln phi + ln w).
  { ln_push. cbn [INR]. lra. }
  split; intros E.
  - apply (f_equal ln) in E. rewrite L1, L2 in E. exact E.
  - apply ln_inv; [rpos|rpos|]. rewrite L1, L2. exact E.
Qed.

Lemma damage_iff :
  (cs * (u * T / (sqrt De * D)) ^ 6 * Rpower phi (- (2.5)) * (1 + 10 * exp (- (rear / H))) * sqrt N = S)
  <-> pozueta cs u T De D phi rear H N S.
Proof.
  assert (0 < sqrt N) by rpos. unfold pozueta.
  set (X := cs * (u * T / (sqrt De * D)) ^ 6 * Rpower phi (- (2.5)) * (1 + 10 * exp (- (rear / H)))). split; intros E.
  - rewrite <- E. field. lra.
  - rewrite <- E. field. lra.
Qed.

Lemma u1p_iff :
  invert_for_u1p (Fin phi) (Fin S) (Fin H) (Fin T) (Fin rear) (Fin N) (Fin D) (Fin De) (Fin cs) = Fin u
  <-> pozueta cs u T De D phi rear H N S.
Proof.
  rewrite pozueta_log. pose proof (wave_factor_pos rear H) as W. unfold invert_for_u1p. rewrite exp_fin by lra.
  set (w := 1 + 10 * exp (- (rear / H))) in *. assert (0 < sqrt N) by rpos.
  assert (P : 0 < 1 / cs * (S / sqrt N) * Rpower phi 2.5 * (1 / w)) by rpos.
  nfin. assert (L : ln (Rpower (1 / cs * (S / sqrt N) * Rpower phi 2.5 * (1 / w)) (1 / 6) * sqrt De * D / T)
    = 1 / 6 * (- ln cs + ln S - / 2 * ln N + 2.5 * ln phi - ln w) + / 2 * ln De + ln D - ln T).
  { ln_push. rewrite ?ln_1. lra. }
  split; intros E.
  - injection E as E. apply (f_equal ln) in E. rewrite L in E. lra.
  - f_equal. apply ln_inv; [rpos|assumption|]. rewrite L. lra.
Qed.
End Relation.

(** On every point of the published relation, with the run-up level above the
    crest and the velocity belonging to it, the functions return the
    corresponding coordinate. *)
Theorem C50_functions_agree_with_relation :
  forall cot phi gf gc H T Rc rear B N D m50 rs rw cs z S,
    0 < cot -> 0 < phi -> 0 < gf -> 0 < gc -> 0 < H -> 0 < T -> 0 <= B -> 0 < N -> 0 < D -> 0 < rw -> rw < rs -> 0 < cs -> 0 < S ->
    calculate_wave_runup_height_z1p (Fin H) (Fin T) (Fin gf) (Fin cot) z1p_c0 z1p_c1 = Fin z -> Rc < z ->
    let u := crest_velocity 1.7 0.1 g0 H z Rc B gf gc in
    pozueta cs u T (rs / rw - 1) D phi rear H N S <->
    value (calculate_damage_number_S (Fin cot) (Fin phi) (Fin gf) (Fin gc) (Fin H) (Fin T) (Fin Rc) (Fin rear) (Fin B)
             (Fin N) (Fin D) m50 (Fin rs) (Fin rw) (Fin cs)) = Ok (Fin S)
    /\ value (calculate_nominal_rock_diameter_Dn50 (Fin cot) (Fin phi) (Fin gf) (Fin gc) (Fin S) (Fin H) (Fin T) (Fin Rc)
             (Fin rear) (Fin B) (Fin rs) (Fin N) (Fin rw) (Fin cs)) = Ok (Fin D)
    /\ invert_for_u1p (Fin phi) (Fin S) (Fin H) (Fin T) (Fin rear) (Fin N) (Fin D)
         (calculate_buoyant_density_Delta (Fin rs) (Fin rw)) (Fin cs) = Fin u.
Proof.
  intros cot phi gf gc H T Rc rear B N D m50 rs rw cs z S Hc Hp Hf Hg HH HT HB HN HD Hrw Hrs Hcs HS Ez Lz u.
  assert (Hu : 0 < u) by (apply u_pos; assumption). assert (HDe : 0 < buoyant rs rw) by (apply buoyant_pos; assumption).
  fold (buoyant rs rw). pose proof (wave_factor_pos rear H) as W.
  unfold calculate_damage_number_S, calculate_nominal_rock_diameter_Dn50. rewrite usage_fin, bind_ret_l. mval. rewrite !checks_p. mval.
  rewrite Ez, Delta_fin by lra. rewrite u_fin by (assumption || lra). fold u. rewrite !exp_fin by lra.
  rewrite u1p_iff by assumption. set (De := buoyant rs rw) in *.
  assert (0 < sqrt De * D) by rpos. assert (0 < sqrt N) by rpos. assert (0 < S / sqrt N) by rpos.
  assert (E1 : (Fin cs * npow (Fin u * Fin T / (nsqrt (Fin De) * Fin D)) #6 * npow (Fin phi) (- #2.5) * Fin (1 + 10 * exp (- (rear / H))) * nsqrt (Fin N))%num
     = Fin (cs * (u * T / (sqrt De * D)) ^ 6 * Rpower phi (- (2.5)) * (1 + 10 * exp (- (rear / H))) * sqrt N)).
  { nfin. reflexivity. }
  assert (E2 : (npow (Fin cs) (#1 / #6) * npow (Fin S / nsqrt (Fin N)) (- (#1 / #6)) * (Fin u * Fin T / nsqrt (Fin De)) * npow (Fin phi) (- (#2.5 / #6)) * npow (Fin (1 + 10 * exp (- (rear / H)))) (#1 / #6))%num
     = Fin (Rpower cs (1 / 6) * Rpower (S / sqrt N) (- (1 / 6)) * (u * T / sqrt De) * Rpower phi (- (2.5 / 6)) * Rpower (1 + 10 * exp (- (rear / H))) (1 / 6))).
  { nfin. reflexivity. }
  rewrite E1, E2. split.
  - intros E. split; [|split; [|exact E]].
    + do 2 f_equal. apply damage_iff; assumption.
    + apply pozueta_log in E; try assumption. do 2 f_equal. set (w := 1 + 10 * exp (- (rear / H))) in *. set (d := S / sqrt N) in *.
      assert (Ld : ln d = ln S - / 2 * ln N) by (unfold d; ln_push; lra). ln_eq. lra.
  - intros (_ & _ & E). exact E.
Qed.

(** Any two of the three results determine the point: the damage function alone
    or the diameter function alone already puts it on the relation. *)
Theorem C50_each_function_alone :
  forall cot phi gf gc H T Rc rear B N D m50 rs rw cs z S,
    0 < cot -> 0 < phi -> 0 < gf -> 0 < gc -> 0 < H -> 0 < T -> 0 <= B -> 0 < N -> 0 < D -> 0 < rw -> rw < rs -> 0 < cs -> 0 < S ->
    calculate_wave_runup_height_z1p (Fin H) (Fin T) (Fin gf) (Fin cot) z1p_c0 z1p_c1 = Fin z -> Rc < z ->
    (value (calculate_damage_number_S (Fin cot) (Fin phi) (Fin gf) (Fin gc) (Fin H) (Fin T) (Fin Rc) (Fin rear) (Fin B)
             (Fin N) (Fin D) m50 (Fin rs) (Fin rw) (Fin cs)) = Ok (Fin S)
     <-> value (calculate_nominal_rock_diameter_Dn50 (Fin cot) (Fin phi) (Fin gf) (Fin gc) (Fin S) (Fin H) (Fin T) (Fin Rc)
             (Fin rear) (Fin B) (Fin rs) (Fin N) (Fin rw) (Fin cs)) = Ok (Fin D)).
Proof.
  intros cot phi gf gc H T Rc rear B N D m50 rs rw cs z S Hc Hp Hf Hg HH HT HB HN HD Hrw Hrs Hcs HS Ez Lz.
  pose proof (C50_functions_agree_with_relation cot phi gf gc H T Rc rear B N D m50 rs rw cs z S Hc Hp Hf Hg HH HT HB HN HD Hrw Hrs Hcs HS Ez Lz) as A.
  cbv zeta in A. set (u := crest_velocity 1.7 0.1 g0 H z Rc B gf gc) in *.
  assert (Hu : 0 < u) by (apply u_pos; assumption). assert (HDe : 0 < buoyant rs rw) by (apply buoyant_pos; assumption).
  fold (buoyant rs rw) in A. pose proof (wave_factor_pos rear H) as W. split; intros E.
  - apply A. apply damage_iff; try assumption. revert E. unfold calculate_damage_number_S. rewrite usage_fin, bind_ret_l. mval. rewrite !checks_p. mval.
    rewrite Ez, Delta_fin by lra. rewrite u_fin by (assumption || lra). fold u. rewrite !exp_fin by lra. set (De := buoyant rs rw) in *.
    assert (0 < sqrt De * D) by rpos. nfin. intros E. injection E as E. exact E.
  - apply A. apply pozueta_log; try assumption. revert E. unfold calculate_nominal_rock_diameter_Dn50. mval. rewrite !checks_p. mval.
    rewrite Ez, Delta_fin by lra. rewrite u_fin by (assumption || lra). fold u. rewrite !exp_fin by lra. set (De := buoyant rs rw) in *.
    assert (0 < sqrt N) by rpos. assert (0 < S / sqrt N) by rpos. nfin. set (w := 1 + 10 * exp (- (rear / H))) in *. set (d := S / sqrt N) in *.
    assert (Ld : ln d = ln S - / 2 * ln N) by (unfold d; ln_push; lra). intros E. injection E as E.
    apply (f_equal ln) in E. revert E. ln_push. lra.
Qed.

(** Run-up below the crest gives no number at all. *)
Theorem C50_below_crest_no_number :
  forall cot phi gf gc H T Rc rear B N D m50 rs rw cs z S,
    0 < gf -> 0 < H -> calculate_wave_runup_height_z1p (Fin H) T (Fin gf) cot z1p_c0 z1p_c1 = Fin z -> z < Rc ->
    value (calculate_damage_number_S cot phi (Fin gf) gc (Fin H) T (Fin Rc) rear B N (Fin D) m50 rs rw cs) = Ok NaN
    /\ value (calculate_nominal_rock_diameter_Dn50 cot phi (Fin gf) gc S (Fin H) T (Fin Rc) rear B rs N rw cs) = Ok NaN.
Proof.
  intros cot phi gf gc H T Rc rear B N D m50 rs rw cs z S Hf HH Ez Lz.
  unfold calculate_damage_number_S, calculate_nominal_rock_diameter_Dn50. rewrite usage_fin, bind_ret_l. mval. rewrite !checks_p. mval.
  rewrite Ez.
  assert (E : calculate_maximum_wave_overtopping_velocity_uXp (Fin H) (Fin z) (Fin Rc) B (Fin gf) gc cu1_default cu2_default g_default = NaN).
  { unfold calculate_maximum_wave_overtopping_velocity_uXp. assert (0 < gf * H) by rpos.
    rewrite nsub_fin. rewrite (nmul_fin gf H), (ndiv_fin (z - Rc)) by lra.
    assert (L : (z - Rc) / (gf * H) < 0) by (unfold Rdiv; assert (0 < / (gf * H)) by rpos; nra).
    replace (nsqrt (Fin ((z - Rc) / (gf * H)))) with NaN by (cbn [nsqrt]; rewrite Rltb_true by assumption; reflexivity).
    nnan. reflexivity. }
  rewrite E. nnan. split; reflexivity.
Qed.

(** Leaving the rock density out gives no number, also when the mass is given
    and the function announces a default density of 2650. *)
Theorem C50_default_density_no_number :
  forall cot phi gf gc H T Rc rear B N D m50 rw cs,
    value (calculate_damage_number_S cot phi gf gc H T Rc rear B N (Fin D) m50 NaN rw cs) = Ok NaN
    /\ (value (calculate_damage_number_S cot phi gf gc H T Rc rear B N NaN (Fin D) NaN rw cs) = Ok NaN
        /\ In (WText "rho_armour is not provided, the default value of 2650 kg/m3 is used.")
             (warns (calculate_damage_number_S cot phi gf gc H T Rc rear B N NaN (Fin D) NaN rw cs))).
Proof.
  intros. unfold calculate_damage_number_S. change (calculate_buoyant_density_Delta NaN rw) with (NaN / rw)%num. split; [|split].
  - rewrite usage_fin, bind_ret_l. mval. rewrite checks_p. mval. nnan. reflexivity.
  - unfold check_usage_Dn50_or_M50. cbn [isnan andb negb]. mval. rewrite checks_p. mval. nnan. reflexivity.
  - unfold check_usage_Dn50_or_M50. cbn [isnan andb negb]. rewrite warns_bind. apply in_or_app. left. left. reflexivity.
Qed.

(** ** The wave-height search *)
Definition max_warning : warning := WText "Maximum number of iterations reached, convergence not achieved".

Lemma no_max_in_checks a b c d e f h i j k l m n : ~ In max_warning (warns (check_validity_range a b c d e f h i j k l m n)).
Proof.
  unfold check_validity_range. intros I.
  repeat (rewrite warns_bind in I; apply in_app_or in I; destruct I as [I|I];
    [|match type of I with context [match ?v with _ => _ end] => destruct v; [|exact I] end]);
  (unfold when in I; match type of I with context [if ?b then _ else _] => destruct b end;
   [rewrite warns_check in I; match type of I with context [if ?b then _ else _] => destruct b end; [destruct I as [I|I]; [discriminate|exact I]|exact I]|exact I]).
Qed.

(** v exp(-v) / (1 + 10 exp(-v)) is at most 0.12. *)
Lemma exp_tangent v : 10 * v <= 12 + 1.2 * exp v.
Proof.
  set (a := ln (25 / 3)). assert (Ea : exp a = 25 / 3) by (apply exp_ln; lra).
  pose proof (exp_ineq1_le (v - a)) as E. assert (F : exp v = exp a * exp (v - a)) by (rewrite <- exp_plus; f_equal; ring).
  assert (La : a <= 2.2).
  { unfold a. rewrite <- (ln_exp 2.2). apply ln_le_mono; [lra|].
    replace 2.2 with (1.1 + 1.1) by lra. rewrite exp_plus.
    assert (D : forall a b x, 0 <= a -> b <= a * a -> a <= exp x -> b <= exp (x + x)).
    { intros a0 b x H0 H1 H2. rewrite exp_plus. apply Rle_trans with (a0 * a0); [assumption|]. apply Rmult_le_compat; assumption. }
    assert (2.9 <= exp 1.1).
    { replace 1.1 with (0.55 + 0.55) by lra. apply (D 1.716); [lra|lra|].
      replace 0.55 with (0.275 + 0.275) by lra. apply (D 1.3101); [lra|lra|].
      replace 0.275 with (0.1375 + 0.1375) by lra. apply (D 1.1446); [lra|lra|].
      replace 0.1375 with (0.06875 + 0.06875) by lra. apply (D 1.0699); [lra|lra|].
      replace 0.06875 with (0.034375 + 0.034375) by lra. apply (D 1.034375); [lra|lra|].
      pose proof (exp_ineq1_le 0.034375). lra. }
    rewrite <- exp_plus. replace (25 / 3) with (25 / 3) by ring. apply (D 2.9); lra. }
  rewrite F, Ea. lra.
Qed.

(** How fast the terms of the inverted formula change with the wave height. *)
Lemma rear_slope r x y : 0 <= r -> 0 < x -> x <= y ->
  ln (1 + 10 * exp (- (r / x))) <= ln (1 + 10 * exp (- (r / y))) <= ln (1 + 10 * exp (- (r / x))) + 1.2 * (ln y - ln x).
Proof.
  intros Hr Hx Hy. split.
  - apply ln_le_mono; [apply wave_factor_pos|]. assert (r / y <= r / x).
    { unfold Rdiv. apply Rmult_le_compat_l; [assumption|]. apply Rinv_le_contravar; assumption. }
    assert (exp (- (r / x)) <= exp (- (r / y))); [|lra].
    destruct (Req_dec (r / y) (r / x)) as [->|N]; [lra|]. apply Rlt_le, exp_increasing. lra.
  - destruct (Req_dec x y) as [->|N]; [lra|].
    set (f := fun t => 1.2 * t - ln (1 + 10 * exp (- (r * exp (- t))))).
    set (f' := fun t => 1.2 - (10 * (exp (- (r * exp (- t))) * (r * exp (- t)))) / (1 + 10 * exp (- (r * exp (- t))))).
    assert (Df : forall c, ln x <= c <= ln y -> derivable_pt_lim f c (f' c)).
    { intros c _. unfold f, f'. apply derivable_pt_lim_minus.
      - replace 1.2 with (1.2 * 1) at 2 by ring. apply derivable_pt_lim_scal. apply derivable_pt_lim_id.
      - set (w := fun t : R => 1 + 10 * exp (- (r * exp (- t)))).
        assert (Dw : derivable_pt_lim w c (10 * (exp (- (r * exp (- c))) * (r * exp (- c))))).
        { unfold w. replace (10 * (exp (- (r * exp (- c))) * (r * exp (- c)))) with (0 + 10 * (exp (- (r * exp (- c))) * (r * exp (- c)))) by ring.
          apply derivable_pt_lim_plus; [apply derivable_pt_lim_const|]. apply derivable_pt_lim_scal.
          apply (derivable_pt_lim_comp (fun t => - (r * exp (- t))) exp); [|apply derivable_pt_lim_exp].
          replace (r * exp (- c)) with (- (r * (exp (- c) * -1))) by ring. apply derivable_pt_lim_opp. apply derivable_pt_lim_scal.
          apply (derivable_pt_lim_comp (fun t => - t) exp); [|apply derivable_pt_lim_exp].
          apply derivable_pt_lim_opp. apply derivable_pt_lim_id. }
        replace (10 * (exp (- (r * exp (- c))) * (r * exp (- c))) / (1 + 10 * exp (- (r * exp (- c)))))
          with (/ (w c) * (10 * (exp (- (r * exp (- c))) * (r * exp (- c))))) by (unfold w, Rdiv; ring).
        apply (derivable_pt_lim_comp w ln); [exact Dw|]. apply derivable_pt_lim_ln. unfold w.
        pose proof (exp_pos (- (r * exp (- c)))). lra. }
    assert (L : ln x < ln y) by (apply ln_increasing; lra).
    destruct (MVT_cor2 f f' (ln x) (ln y) L Df) as (c & Ec & _).
    assert (P : 0 <= f' c).
    { unfold f'. set (v := r * exp (- c)). pose proof (exp_pos (- v)) as Pe. pose proof (exp_tangent v) as Tv.
      assert (Q : exp v * exp (- v) = 1) by (rewrite <- exp_plus; replace (v + - v) with 0 by ring; apply exp_0).
      set (e := exp (- v)) in *. assert (10 * (e * v) <= 1.2 * (1 + 10 * e)).
      { replace (10 * (e * v)) with (e * (10 * v)) by ring. apply Rle_trans with (e * (12 + 1.2 * exp v)); [apply Rmult_le_compat_l; lra|].
        replace (e * (12 + 1.2 * exp v)) with (12 * e + 1.2 * (exp v * e)) by ring. rewrite Q. lra. }
      assert (10 * (e * v) / (1 + 10 * e) <= 1.2); [|lra].
      apply (Rmult_le_reg_r (1 + 10 * e)); [lra|]. unfold Rdiv. rewrite Rmult_assoc, Rinv_l by lra. lra. }
    assert (0 <= f (ln y) - f (ln x)) by (rewrite Ec; apply Rmult_le_pos; lra). revert H. unfold f. rewrite !exp_Ropp, !exp_ln by lra.
    fold (r / x). fold (r / y). lra.
Qed.

Lemma crest_slope b x y : 0 <= b -> 0 < x -> x <= y -> b <= 0.4 * x ->
  ln (1 + b / y) <= ln (1 + b / x) <= ln (1 + b / y) + 2 / 7 * (ln y - ln x).
Proof.
  intros Hb Hx Hy Hw. assert (Hy' : 0 < y) by lra.
  assert (0 <= b / y) by rpos. assert (0 <= b / x) by rpos. split.
  - apply ln_le_mono; [lra|]. assert (b / y <= b / x); [|lra]. unfold Rdiv. apply Rmult_le_compat_l; [assumption|]. apply Rinv_le_contravar; assumption.
  - set (s := x / y). assert (Hs : 0 < s) by (unfold s; rpos). assert (Hs1 : s <= 1).
    { unfold s. apply (Rmult_le_reg_r y); [assumption|]. unfold Rdiv. rewrite Rmult_assoc, Rinv_l by lra. lra. }
    pose proof (Rpower_bernoulli s (2 / 7) Hs ltac:(lra)) as B. set (w := b / x) in *.
    assert (Ew : b / y = w * s) by (unfold w, s; field; lra).
    assert (Lw : w <= 0.4). { unfold w. apply (Rmult_le_reg_r x); [assumption|]. unfold Rdiv. rewrite Rmult_assoc, Rinv_l by lra. lra. }
    assert (K : (1 + w) * Rpower s (2 / 7) <= 1 + b / y).
    { rewrite Ew. apply Rle_trans with ((1 + w) * (1 + 2 / 7 * (s - 1))); [apply Rmult_le_compat_l; lra|].
      assert (0 <= (1 - s) * (0.4 - w)) by (apply Rmult_le_pos; lra). nra. }
    apply ln_le_mono in K; [|rpos]. rewrite ln_mult, ln_Rpower in K by rpos.
    assert (ln s = ln x - ln y) by (unfold s; rewrite ln_div by assumption; ring). nra.
Qed.

Section WaveHeight.
Variables (cot phi gf gc T Rc rear B N D rs rw cs S : R).
Hypotheses (Hcot : 0 < cot) (Hphi : 0 < phi) (Hgf : 0 < gf) (Hgc : 0 < gc) (HT : 0 < T) (HRc : 0 < Rc) (Hrear : 0 <= rear)
  (HB : 0 <= B) (HN : 0 < N) (HD : 0 < D) (Hrw : 0 < rw) (Hrs : rw < rs) (Hcs : 0 < cs) (HS : 0 < S).

Let De : R := buoyant rs rw.
Let rl (H : R) : R := rel T cot 1.45 5.1 H.
Let wf (H : R) : R := 1 + 10 * exp (- (rear / H)).
Let uf (H : R) : R := Rpower (1 / cs * (S / sqrt N) * Rpower phi 2.5 * (1 / wf H)) (1 / 6) * sqrt De * D / T.
Let zf (H : R) : R := (uf H / sqrt (g0 * H) * (1 / (1.7 * sqrt gc)) * (1 + 0.1 * B / H)) ^ 2 * H * gf + Rc.
Let F (H : R) : R := zf H / (gf * rl H).
Let L : R := Rc / (5.1 * gf).

Lemma De_pos : 0 < De. Proof. apply buoyant_pos; assumption. Qed.
Lemma wf_pos H : 0 < wf H. Proof. apply wave_factor_pos. Qed.
Lemma uf_pos H : 0 < uf H. Proof. pose proof De_pos. unfold uf. rpos. Qed.
Lemma cr_pos H : 0 < H -> 0 < 1 + 0.1 * B / H. Proof. intros. assert (0 <= 0.1 * B / H) by rpos. lra. Qed.
Lemma rl_pos H : 0 < H -> 0 < rl H. Proof. intros. apply rel_pos; lra. Qed.
Lemma L_pos : 0 < L. Proof. unfold L. rpos. Qed.

Lemma zf_above H : 0 < H -> 0 < zf H - Rc.
Proof.
  intros HH. unfold zf. pose proof (uf_pos H). pose proof (cr_pos H HH). pose proof g0_pos.
  match goal with |- 0 < ?a + Rc - Rc => replace (a + Rc - Rc) with a by ring end.
  set (w := 1 + 0.1 * B / H) in *. rpos.
Qed.
Lemma zf_ln H : 0 < H ->
  ln (zf H - Rc) = (1 / 3 * (- ln cs + ln S - / 2 * ln N + 2.5 * ln phi) + ln De + 2 * ln D - 2 * ln T - ln g0 - 2 * ln 1.7 - ln gc + ln gf)
                   - 1 / 3 * ln (wf H) + 2 * ln (1 + 0.1 * B / H).
Proof.
  intros HH. unfold zf. pose proof (uf_pos H) as U. pose proof (cr_pos H HH) as C. pose proof g0_pos. pose proof De_pos as PD. pose proof (wf_pos H) as W.
  match goal with |- ln (?a + Rc - Rc) = _ => replace (a + Rc - Rc) with a by ring end.
  assert (Lu : ln (uf H) = 1 / 6 * (- ln cs + ln S - / 2 * ln N + 2.5 * ln phi - ln (wf H)) + / 2 * ln De + ln D - ln T).
  { unfold uf. set (w := wf H) in *. ln_push. rewrite ?ln_1. lra. }
  set (w := 1 + 0.1 * B / H) in *. set (u := uf H) in *. ln_push. rewrite ?ln_1. cbn [INR]. rewrite Lu. lra.
Qed.
Lemma zf_pos H : 0 < H -> 0 < zf H. Proof. intros HH. pose proof (zf_above H HH). lra. Qed.
Lemma F_pos H : 0 < H -> 0 < F H.
Proof. intros HH. unfold F. pose proof (rl_pos H HH). pose proof (zf_pos H HH). rpos. Qed.
Lemma F_lower H : 0 < H -> L < F H.
Proof.
  intros HH. unfold F, L. pose proof (rl_pos H HH) as P. pose proof (zf_above H HH) as Z.
  assert (B5 : rl H < 5.1) by (apply rel_lt; lra).
  apply Rlt_le_trans with (Rc / (gf * rl H)).
  - unfold Rdiv. apply Rmult_lt_compat_l; [assumption|]. apply Rinv_lt_contravar; [rpos|].
    rewrite (Rmult_comm 5.1). apply Rmult_lt_compat_l; assumption.
  - unfold Rdiv. apply Rmult_le_compat_r; [apply Rlt_le; rpos|lra].
Qed.

(** From a bound on the part above the crest to one on the level. *)
Lemma level_slope x y k : 0 < x -> x <= y -> 0 <= k ->
  ln (zf x - Rc) <= ln (zf y - Rc) + k * (ln y - ln x) -> ln (zf x) <= ln (zf y) + k * (ln y - ln x).
Proof.
  intros Hx Hy Hk E. pose proof (zf_above x Hx) as Ax. pose proof (zf_above y ltac:(lra)) as Ay.
  assert (0 <= ln y - ln x) by (pose proof (ln_le_mono x y Hx Hy); lra).
  set (d := k * (ln y - ln x)) in *. assert (Pd : 0 <= d) by (unfold d; rpos). pose proof (exp_ineq1_le d) as Ed.
  assert (Q : zf x - Rc <= exp d * (zf y - Rc)).
  { apply ln_le_iff; [assumption|rpos|]. rewrite ln_mult, ln_exp by rpos. lra. }
  assert (Q' : zf x <= exp d * zf y) by nra. apply ln_le_mono in Q'; [|lra].
  rewrite ln_mult, ln_exp in Q' by (try apply exp_pos; lra). lra.
Qed.

Lemma zf_decr x y : 0 < x -> x <= y -> ln (zf y) <= ln (zf x).
Proof.
  intros Hx Hy. assert (Hy' : 0 < y) by lra. apply ln_le_mono; [apply zf_pos; assumption|].
  assert (zf y - Rc <= zf x - Rc); [|lra].
  apply ln_le_iff; [apply zf_above; assumption|apply zf_above; assumption|].
  rewrite !zf_ln by assumption. destruct (rear_slope rear x y Hrear Hx Hy) as [R1 _]. fold (wf x) in *. fold (wf y) in *.
  assert (ln (1 + 0.1 * B / y) <= ln (1 + 0.1 * B / x)); [|lra].
  apply ln_le_mono; [apply cr_pos; assumption|]. apply Rplus_le_compat_l. unfold Rdiv. apply Rmult_le_compat_l; [rpos|]. apply Rinv_le_contravar; assumption.
Qed.

Lemma zf_slope x y : 0 < x -> x <= y -> ln (zf x) <= ln (zf y) + 2.4 * (ln y - ln x).
Proof.
  intros Hx Hy. assert (Hy' : 0 < y) by lra. apply level_slope; [assumption|assumption|lra|].
  rewrite !zf_ln by assumption. destruct (rear_slope rear x y Hrear Hx Hy) as [_ R1]. fold (wf x) in *. fold (wf y) in *.
  assert (K : ln (1 + 0.1 * B / x) <= ln (1 + 0.1 * B / y) + (ln y - ln x)); [|lra].
  pose proof (cr_pos y Hy') as C. assert (Pq : 0 < y / x) by rpos. rewrite <- (ln_div y x), <- ln_mult by assumption.
  apply ln_le_mono; [apply cr_pos; assumption|].
  replace ((1 + 0.1 * B / y) * (y / x)) with (y / x + 0.1 * B / x) by (field; lra).
  apply Rplus_le_compat_r. apply (Rmult_le_reg_r x); [assumption|]. unfold Rdiv. rewrite Rmult_assoc, Rinv_l by lra. lra.
Qed.

Lemma zf_slope_narrow x y : 0.51 * gf * B <= 0.4 * Rc -> L <= x -> x <= y -> ln (zf x) <= ln (zf y) + 0.98 * (ln y - ln x).
Proof.
  intros Hn HL Hy. pose proof L_pos as PL. assert (Hx : 0 < x) by lra. assert (Hy' : 0 < y) by lra. apply level_slope; [assumption|assumption|lra|].
  rewrite !zf_ln by assumption. destruct (rear_slope rear x y Hrear Hx Hy) as [_ R1]. fold (wf x) in *. fold (wf y) in *.
  assert (E : 0.1 * B <= 0.4 * x).
  { apply Rle_trans with (0.4 * L); [|lra]. unfold L. apply (Rmult_le_reg_r (5.1 * gf)); [rpos|].
    replace (0.4 * (Rc / (5.1 * gf)) * (5.1 * gf)) with (0.4 * Rc) by (rfield; lra). lra. }
  destruct (crest_slope (0.1 * B) x y ltac:(lra) Hx Hy E) as [_ C1]. pose proof (ln_le_mono x y Hx Hy). lra.
Qed.

Lemma F_ln x : 0 < x -> ln (F x) = ln (zf x) - ln gf - ln (rl x).
Proof. intros Hx. unfold F. pose proof (rl_pos x Hx). pose proof (zf_pos x Hx). ln_push. lra. Qed.

Lemma rl_ln x y : 0 < x -> x <= y -> ln (rl y) <= ln (rl x) <= ln (rl y) + / 2 * (ln y - ln x).
Proof.
  intros Hx Hy. assert (Hy' : 0 < y) by lra. pose proof (rl_pos x Hx). pose proof (rl_pos y Hy').
  destruct (rel_between T cot 1.45 5.1 HT Hcot ltac:(lra) ltac:(lra) x y Hx Hy) as [R1 R2].
  fold (rl x) in *. fold (rl y) in *. assert (0 < y / x) by rpos. assert (0 < sqrt (y / x)) by rpos.
  apply ln_le_mono in R1; [|assumption]. apply ln_le_mono in R2; [|assumption]. rewrite ln_mult, ln_sqrt, ln_div in R2 by assumption. lra.
Qed.

Lemma F_up x y : 0 < x -> x <= y -> ln (F y) <= ln (F x) + / 2 * (ln y - ln x).
Proof.
  intros Hx Hy. rewrite !F_ln by lra. pose proof (zf_decr x y Hx Hy). pose proof (rl_ln x y Hx Hy). lra.
Qed.
Lemma F_down x y : 0 < x -> x <= y -> ln (F x) <= ln (F y) + 2.4 * (ln y - ln x).
Proof.
  intros Hx Hy. rewrite !F_ln by lra. pose proof (zf_slope x y Hx Hy). pose proof (rl_ln x y Hx Hy). lra.
Qed.

Lemma F_unique p q : 0 < p -> 0 < q -> F p = p -> F q = q -> p = q.
Proof.
  assert (W : forall p q, 0 < p -> F p = p -> F q = q -> ~ p < q).
  { intros a b Ha Ea Eb Lt. pose proof (F_up a b Ha ltac:(lra)) as E. rewrite Ea, Eb in E. pose proof (ln_increasing a b Ha Lt). lra. }
  intros Hp Hq Ep Eq. pose proof (W p q Hp Ep Eq). pose proof (W q p Hq Eq Ep). lra.
Qed.

Lemma F_lip x y : 0 < x -> 0 < y -> Rabs (ln (F x) - ln (F y)) <= 2.4 * Rabs (ln x - ln y).
Proof.
  assert (W : forall x y, 0 < x -> x <= y -> Rabs (ln (F x) - ln (F y)) <= 2.4 * Rabs (ln x - ln y)).
  { intros a b Ha Hb. pose proof (F_up a b Ha Hb). pose proof (F_down a b Ha Hb). pose proof (ln_le_mono a b Ha Hb).
    rewrite (Rabs_left1 (ln a - ln b)) by lra. apply Rabs_le. lra. }
  intros Hx Hy. destruct (Rle_or_lt x y); [apply W; assumption|].
  rewrite Rabs_minus_sym, (Rabs_minus_sym (ln x)). apply W; lra.
Qed.

Lemma F_exists : exists p, 0 < p /\ F p = p.
Proof.
  pose proof L_pos as PL. set (M := F L * F L / L). assert (PF : 0 < F L) by (apply F_pos; assumption). pose proof (F_lower L PL) as FL.
  assert (PM : 0 < M) by (unfold M; rpos). assert (LM : ln M = 2 * ln (F L) - ln L) by (unfold M; rewrite ln_div, ln_mult by rpos; ring).
  assert (Ll : ln L < ln (F L)) by (apply ln_increasing; assumption).
  set (h := fun t => t - ln (F (exp t))).
  assert (Ch : continuity h).
  { intros t. unfold continuity_pt, continue_in, limit1_in, limit_in. intros eps He. exists (eps / 4). split; [lra|].
    intros u [_ Hu]. cbn [dist R_met Base] in *. unfold R_dist in *. unfold h.
    pose proof (F_lip (exp u) (exp t) (exp_pos u) (exp_pos t)) as E. rewrite !ln_exp in E.
    replace (u - ln (F (exp u)) - (t - ln (F (exp t)))) with ((u - t) - (ln (F (exp u)) - ln (F (exp t)))) by ring.
    pose proof (Rabs_sub_le (u - t) (ln (F (exp u)) - ln (F (exp t)))). lra. }
  destruct (IVT_cor h (ln L) (ln M)) as (t & _ & Et); [assumption|lra| |].
  - assert (h (ln L) <= 0) by (unfold h; rewrite exp_ln by assumption; lra).
    assert (0 <= h (ln M)).
    { unfold h. rewrite exp_ln by assumption. assert (L <= M) by (apply ln_le_iff; try assumption; lra). pose proof (F_up L M PL H0). lra. }
    nra.
  - exists (exp t). split; [apply exp_pos|]. apply ln_inv; [apply F_pos, exp_pos|apply exp_pos|]. rewrite ln_exp. unfold h in Et. lra.
Qed.

Lemma F_near p x tol : 0 < p -> F p = p -> 0 < x -> 0 <= tol -> tol <= Rc / (10.2 * gf) -> Rabs (F x - x) <= tol ->
  Rabs (F x - p) <= 2 * tol.
Proof.
  intros Hp Fix Hx Ht Hs Lt. pose proof (F_pos x Hx) as PF. pose proof (F_lower x Hx) as Lb.
  assert (G : F x * F x = exp (2 * ln (F x))).
  { replace (2 * ln (F x)) with (ln (F x) + ln (F x)) by ring. rewrite exp_plus, exp_ln by assumption. reflexivity. }
  assert (G' : x * p = exp (ln x + ln p)) by (rewrite exp_plus, !exp_ln by assumption; reflexivity).
  assert (M : forall a b, a <= b -> exp a <= exp b).
  { intros a b [Q| ->]; [left; apply exp_increasing; assumption|right; reflexivity]. }
  destruct (near_root p x (F x) tol) as [C|C]; try assumption.
  - intros Q. rewrite G, G'. apply M. pose proof (F_up p x Hp Q) as E. rewrite Fix in E. lra.
  - intros Q. rewrite G, G'. apply M. pose proof (F_up x p Hx Q) as E. rewrite Fix in E. lra.
  - exfalso. replace (Rc / (10.2 * gf)) with (L / 2) in Hs by (unfold L; rfield; lra). lra.
Qed.

Lemma ustep x : 0 < x ->
  invert_for_u1p (Fin phi) (Fin S) (Fin x) (Fin T) (Fin rear) (Fin N) (Fin D) (calculate_buoyant_density_Delta (Fin rs) (Fin rw)) (Fin cs) = Fin (uf x).
Proof.
  intros Hx. rewrite Delta_fin by lra. fold De. unfold invert_for_u1p. rewrite exp_fin by lra. fold (wf x). pose proof (wf_pos x). pose proof De_pos.
  assert (0 < sqrt N) by rpos. assert (0 < 1 / cs * (S / sqrt N) * Rpower phi 2.5 * (1 / wf x)) by rpos. nfin. reflexivity.
Qed.
Lemma zstep0 x : 0 < x ->
  invert_for_zXp (Fin x) (Fin (uf x)) (Fin Rc) (Fin B) (Fin gf) (Fin gc) cu1_default cu2_default g_default = Fin (zf x).
Proof.
  intros Hx. unfold invert_for_zXp, cu1_default, cu2_default. change g_default with (Fin g0). pose proof g0_pos. pose proof (cr_pos x Hx).
  assert (0 < g0 * x) by rpos. assert (0 < sqrt (g0 * x)) by rpos. assert (0 < 1.7 * sqrt gc) by rpos. nfin. reflexivity.
Qed.
Lemma zstep x : 0 < x ->
  invert_for_zXp (Fin x) (invert_for_u1p (Fin phi) (Fin S) (Fin x) (Fin T) (Fin rear) (Fin N) (Fin D)
     (calculate_buoyant_density_Delta (Fin rs) (Fin rw)) (Fin cs)) (Fin Rc) (Fin B) (Fin gf) (Fin gc) cu1_default cu2_default g_default = Fin (zf x).
Proof. intros Hx. rewrite ustep by assumption. apply zstep0. assumption. Qed.
Lemma hstep x : 0 < x -> invert_for_Hs (Fin x) (Fin (zf x)) (Fin T) (Fin gf) (Fin cot) invert_c0 invert_c1 = Fin (F x).
Proof. intros. unfold invert_c0, invert_c1. rewrite invert_fin by (assumption || lra). reflexivity. Qed.

(** The fixed points are the wave heights with run-up above the crest and
    damage S. *)
Lemma fixed_iff H m50 : 0 < H ->
  F H = H <->
  (exists z, calculate_wave_runup_height_z1p (Fin H) (Fin T) (Fin gf) (Fin cot) z1p_c0 z1p_c1 = Fin z /\ Rc < z)
  /\ value (calculate_damage_number_S (Fin cot) (Fin phi) (Fin gf) (Fin gc) (Fin H) (Fin T) (Fin Rc) (Fin rear) (Fin B)
             (Fin N) (Fin D) m50 (Fin rs) (Fin rw) (Fin cs)) = Ok (Fin S).
Proof.
  intros HH. pose proof (rl_pos H HH) as PR. pose proof (zf_above H HH) as PZ. pose proof g0_pos as Pg. pose proof (uf_pos H) as PU.
  set (z := gf * H * rl H). assert (Ez : calculate_wave_runup_height_z1p (Fin H) (Fin T) (Fin gf) (Fin cot) z1p_c0 z1p_c1 = Fin z).
  { rewrite z1_fin by assumption. reflexivity. }
  assert (E1 : F H = H <-> z = zf H).
  { unfold F, z. split; intros E.
    - rewrite <- E at 1. field. lra.
    - rewrite <- E. field. lra. }
  rewrite E1.
  assert (Inv : Rc <= z -> (crest_velocity 1.7 0.1 g0 H z Rc B gf gc = uf H <-> z = zf H)).
  { intros Lz. pose proof (C22_inverse H z (uf H) Rc B gf gc 1.7 0.1 g0 HH HB Hgf Hgc ltac:(lra) ltac:(lra) Pg ltac:(lra) Lz) as I.
    rewrite velocity_fin in I by (assumption || lra). pose proof (zstep0 H HH) as Z0. unfold cu1_default, cu2_default in Z0. change g_default with (Fin g0) in Z0.
    rewrite Z0 in I. split; intros E.
    - rewrite E in I. destruct I as [I _]. specialize (I eq_refl). injection I as I. symmetry; assumption.
    - rewrite <- E in I. destruct I as [_ I]. specialize (I eq_refl). injection I as I. assumption. }
  assert (Ag : Rc < z -> (value (calculate_damage_number_S (Fin cot) (Fin phi) (Fin gf) (Fin gc) (Fin H) (Fin T) (Fin Rc) (Fin rear) (Fin B)
             (Fin N) (Fin D) m50 (Fin rs) (Fin rw) (Fin cs)) = Ok (Fin S) <-> crest_velocity 1.7 0.1 g0 H z Rc B gf gc = uf H)).
  { intros Lz. pose proof (C50_functions_agree_with_relation cot phi gf gc H T Rc rear B N D m50 rs rw cs z S Hcot Hphi Hgf Hgc HH HT HB HN HD Hrw Hrs Hcs HS Ez Lz) as A.
    pose proof (C50_each_function_alone cot phi gf gc H T Rc rear B N D m50 rs rw cs z S Hcot Hphi Hgf Hgc HH HT HB HN HD Hrw Hrs Hcs HS Ez Lz) as A2.
    cbv zeta in A. rewrite ustep in A by assumption.
    pose proof (u_pos H z Rc B gf gc HH Lz HB Hgf Hgc) as Pu. set (u := crest_velocity 1.7 0.1 g0 H z Rc B gf gc) in *. fold (buoyant rs rw) in A. fold De in A. pose proof De_pos as PD.
    assert (U1 : invert_for_u1p (Fin phi) (Fin S) (Fin H) (Fin T) (Fin rear) (Fin N) (Fin D) (Fin De) (Fin cs) = Fin u <-> pozueta cs u T De D phi rear H N S)
      by (apply u1p_iff; assumption).
    pose proof (ustep H HH) as Us. rewrite Delta_fin in Us by lra. fold De in Us. rewrite Us in U1. split.
    - intros E. assert (Q : pozueta cs u T De D phi rear H N S).
      { apply damage_iff; try assumption. revert E. unfold calculate_damage_number_S. rewrite usage_fin, bind_ret_l. mval. rewrite !checks_p. mval.
        rewrite Ez, Delta_fin by lra. rewrite u_fin by (assumption || lra). fold u. rewrite !exp_fin by lra. fold De.
        pose proof (wave_factor_pos rear H) as W. assert (0 < sqrt De * D) by rpos. nfin. intros E. injection E as E. exact E. }
      apply U1 in Q. injection Q as Q. symmetry; assumption.
    - intros E. apply A. apply U1. rewrite E. reflexivity. }
  split.
  - intros E. assert (Lz : Rc < z) by lra. split; [exists z; split; assumption|]. apply Ag; [assumption|]. apply Inv; [lra|assumption].
  - intros ((z' & Ez' & Lz) & Es). rewrite Ez in Ez'. injection Ez' as <-. apply Inv; [lra|]. apply Ag; assumption.
Qed.

Lemma start_above : L <= (Rc + 0.5) / (2.552 * gf).
Proof.
  unfold L. apply (Rmult_le_reg_r (5.1 * gf)); [rpos|]. replace (Rc / (5.1 * gf) * (5.1 * gf)) with Rc by (rfield; lra).
  replace ((Rc + 0.5) / (2.552 * gf) * (5.1 * gf)) with ((Rc + 0.5) * (5.1 / 2.552)) by (rfield; lra).
  assert (5.1 / 2.552 >= 1) by lra. nra.
Qed.

Lemma F_stops tol : 0.51 * gf * B <= 0.4 * Rc -> 0 < tol ->
  exists n, Rabs (iter F (Datatypes.S n) ((Rc + 0.5) / (2.552 * gf)) - iter F n ((Rc + 0.5) / (2.552 * gf))) <= tol.
Proof.
  intros Hn Ht. set (x0 := (Rc + 0.5) / (2.552 * gf)). pose proof start_above as SA. fold x0 in SA. pose proof L_pos as PL.
  set (Fc := fun x => F (Rmax x L)).
  assert (Pm : forall x, L <= Rmax x L) by (intros; apply Rmax_r).
  assert (Fcp : forall x, 0 < x -> 0 < Fc x) by (intros x Hx; apply F_pos; pose proof (Pm x); lra).
  assert (W : forall x y, 0 < x -> x <= y -> Rabs (ln (Fc x) - ln (Fc y)) <= 0.98 * Rabs (ln x - ln y)).
  { intros x y Hx Hy. unfold Fc. pose proof (Pm x) as Mx. assert (Mxy : Rmax x L <= Rmax y L) by (apply Rle_max_compat_r; assumption).
    assert (Pa : 0 < Rmax x L) by lra. assert (Pb : 0 < Rmax y L) by lra.
    assert (Lip : ln (Rmax y L) - ln (Rmax x L) <= ln y - ln x).
    { pose proof (ln_le_mono x y Hx Hy). unfold Rmax. destruct (Rle_dec x L), (Rle_dec y L); try lra.
      - pose proof (ln_le_mono x L Hx r). lra. }
    pose proof (F_up _ _ Pa Mxy) as U. pose proof (zf_slope_narrow _ _ Hn Mx Mxy) as V. pose proof (rl_ln _ _ Pa Mxy) as Rl.
    pose proof (ln_le_mono _ _ Pa Mxy) as Q. pose proof (ln_le_mono _ _ Hx Hy) as Q0. rewrite !F_ln in * by assumption.
    rewrite (Rabs_left1 (ln x - ln y)) by lra. apply Rabs_le. lra. }
  assert (Lc : forall x y, 0 < x -> 0 < y -> Rabs (ln (Fc x) - ln (Fc y)) <= 0.98 * Rabs (ln x - ln y)).
  { intros x y Hx Hy. destruct (Rle_or_lt x y); [apply W; assumption|].
    rewrite Rabs_minus_sym, (Rabs_minus_sym (ln x)). apply W; lra. }
  assert (Eit : forall n, L <= iter F n x0 /\ iter Fc n x0 = iter F n x0).
  { induction n as [|n [I1 I2]]; [split; [assumption|reflexivity]|]. rewrite !iter_S. split.
    - apply Rlt_le, F_lower. apply Rlt_le_trans with L; assumption.
    - rewrite I2. unfold Fc. rewrite Rmax_left by assumption. reflexivity. }
  destruct (log_contraction_stops Fc 0.98 ltac:(lra) Fcp Lc x0 tol ltac:(lra) Ht) as (n & Hs). exists n. specialize (Hs n ltac:(lia)).
  destruct (Eit n) as [_ E0]. destruct (Eit (Datatypes.S n)) as [_ E1]. rewrite <- E0, <- E1. lra.
Qed.

Lemma run_value m50 tol n : 0 < tol ->
  let x0 := (Rc + 0.5) / (2.552 * gf) in
  exists todo y, 0 < y /\ (todo = 0%nat \/ Rabs (F y - y) <= tol)
    /\ ((exists m, (m < n)%nat /\ Rabs (iter F (Datatypes.S m) x0 - iter F m x0) <= tol) -> todo <> 0%nat)
    /\ let run := calculate_maximum_significant_wave_height_Hs (Fin cot) (Fin phi) (Fin gf) (Fin gc) (Fin S) (Fin T) (Fin Rc) (Fin rear)
                    (Fin B) (Fin N) (Fin D) m50 (Fin rs) (Fin rw) (Fin cs) (Fin tol) (Datatypes.S n) in
       value run = Ok (Fin (F y)) /\ (In max_warning (warns run) <-> todo = 0%nat).
Proof.
  intros Ht x0. pose proof start_above as SA. fold x0 in SA. pose proof L_pos as PL.
  destruct (search_start (fun Hs_i0 => invert_for_zXp Hs_i0 (invert_for_u1p (Fin phi) (Fin S) Hs_i0 (Fin T) (Fin rear) (Fin N) (Fin D)
              (calculate_buoyant_density_Delta (Fin rs) (Fin rw)) (Fin cs)) (Fin Rc) (Fin B) (Fin gf) (Fin gc) cu1_default cu2_default g_default)
              (fun Hs_i0 z1p => invert_for_Hs Hs_i0 z1p (Fin T) (Fin gf) (Fin cot) invert_c0 invert_c1)
              zf F (fun x => 0 < x) tol zstep hstep F_pos n x0 ltac:(lra)) as (todo & y & Hy & E & St & Te).
  exists todo, y. split; [assumption|]. split; [assumption|]. split; [assumption|]. cbv zeta.
  unfold calculate_maximum_significant_wave_height_Hs. rewrite usage_fin, bind_ret_l.
  assert (Es : ((Fin Rc + #0.5) / (#2.552 * Fin gf))%num = Fin x0).
  { assert (0 < 2.552 * gf) by rpos. rewrite nadd_fin, nmul_fin, ndiv_fin by lra. reflexivity. }
  rewrite Es. rewrite E. split.
  - mval. destruct (Nat.eqb todo 0); cbn [when]; mval; rewrite checks_p; reflexivity.
  - rewrite warns_bind. destruct todo; cbn [Nat.eqb when].
    + split; [reflexivity|]. intros _. apply in_or_app. left. left. reflexivity.
    + split; [|discriminate]. intros I. exfalso. cbn [warns fst ret value snd app] in I.
      rewrite warns_bind in I. rewrite checks_p in I. apply in_app_or in I. destruct I as [I|I]; [|exact I].
      exact (no_max_in_checks _ _ _ _ _ _ _ _ _ _ _ _ _ I).
Qed.

Lemma wave_height_main m50 :
    exists H, 0 < H
      /\ (forall H', 0 < H' ->
           ((exists z, calculate_wave_runup_height_z1p (Fin H') (Fin T) (Fin gf) (Fin cot) z1p_c0 z1p_c1 = Fin z /\ Rc < z)
            /\ value (calculate_damage_number_S (Fin cot) (Fin phi) (Fin gf) (Fin gc) (Fin H') (Fin T) (Fin Rc) (Fin rear) (Fin B)
                        (Fin N) (Fin D) m50 (Fin rs) (Fin rw) (Fin cs)) = Ok (Fin S))
           <-> H' = H)
      /\ forall tol, 0 < tol ->
         (forall max_iterations, exists Hc,
            let run := calculate_maximum_significant_wave_height_Hs (Fin cot) (Fin phi) (Fin gf) (Fin gc) (Fin S) (Fin T) (Fin Rc) (Fin rear)
                    (Fin B) (Fin N) (Fin D) m50 (Fin rs) (Fin rw) (Fin cs) (Fin tol) (Datatypes.S max_iterations) in
            value run = Ok (Fin Hc) /\ Rc / (5.1 * gf) < Hc
            /\ (~ In max_warning (warns run) -> tol <= Rc / (10.2 * gf) -> Rabs (Hc - H) <= 2 * tol))
         /\ (1.275 * gf * B <= Rc -> exists enough, forall max_iterations, (enough <= max_iterations)%nat ->
            ~ In max_warning (warns (calculate_maximum_significant_wave_height_Hs (Fin cot) (Fin phi) (Fin gf) (Fin gc) (Fin S) (Fin T) (Fin Rc)
                    (Fin rear) (Fin B) (Fin N) (Fin D) m50 (Fin rs) (Fin rw) (Fin cs) (Fin tol) max_iterations))).
Proof.
  destruct F_exists as (p & Pp & Fix). exists p. split; [assumption|]. split.
  - intros H' HH'. split.
    + intros Q. apply F_unique; try assumption. apply (fixed_iff H' m50); assumption.
    + intros ->. apply (fixed_iff p m50); assumption.
  - intros tol Ht. split.
    + intros n. destruct (run_value m50 tol n Ht) as (todo & y & Hy & St & _ & V & W). exists (F y). cbv zeta in *.
      split; [exact V|]. split; [apply F_lower; assumption|]. intros NW Ls. destruct St as [->|St]; [tauto|].
      apply F_near; try assumption; lra.
    + intros Hn. destruct (F_stops tol ltac:(lra) Ht) as (n0 & Hn0).
      exists (Datatypes.S (Datatypes.S n0)). intros [|n] Hle; [lia|].
      destruct (run_value m50 tol n Ht) as (todo & y & Hy & _ & Te & V & W). cbv zeta in *. rewrite W.
      apply Te. exists n0. split; [lia|]. exact Hn0.
Qed.
End WaveHeight.

(** For every damage level there is exactly one wave height with run-up above
    the crest that causes it.  The search returns a number; unless it reports
    that the maximum number of iterations was reached, the number is within
    twice the tolerance of that wave height (for tolerances up to
    Rc/(10.2 gamma_f)).  On crests not too wide for their height it does not
    report that when enough iterations are allowed. *)
Theorem C50_wave_height_search :
  forall cot phi gf gc T Rc rear B N D rs rw cs S m50,
    0 < cot -> 0 < phi -> 0 < gf -> 0 < gc -> 0 < T -> 0 < Rc -> 0 <= rear -> 0 <= B -> 0 < N -> 0 < D -> 0 < rw -> rw < rs ->
    0 < cs -> 0 < S ->
    exists H, 0 < H
      /\ (forall H', 0 < H' ->
           ((exists z, calculate_wave_runup_height_z1p (Fin H') (Fin T) (Fin gf) (Fin cot) z1p_c0 z1p_c1 = Fin z /\ Rc < z)
            /\ value (calculate_damage_number_S (Fin cot) (Fin phi) (Fin gf) (Fin gc) (Fin H') (Fin T) (Fin Rc) (Fin rear) (Fin B)
                        (Fin N) (Fin D) m50 (Fin rs) (Fin rw) (Fin cs)) = Ok (Fin S))
           <-> H' = H)
      /\ forall tol, 0 < tol ->
         (forall max_iterations, exists Hc,
            let run := calculate_maximum_significant_wave_height_Hs (Fin cot) (Fin phi) (Fin gf) (Fin gc) (Fin S) (Fin T) (Fin Rc) (Fin rear)
                    (Fin B) (Fin N) (Fin D) m50 (Fin rs) (Fin rw) (Fin cs) (Fin tol) (Datatypes.S max_iterations) in
            value run = Ok (Fin Hc) /\ Rc / (5.1 * gf) < Hc
            /\ (~ In max_warning (warns run) -> tol <= Rc / (10.2 * gf) -> Rabs (Hc - H) <= 2 * tol))
         /\ (1.275 * gf * B <= Rc -> exists enough, forall max_iterations, (enough <= max_iterations)%nat ->
            ~ In max_warning (warns (calculate_maximum_significant_wave_height_Hs (Fin cot) (Fin phi) (Fin gf) (Fin gc) (Fin S) (Fin T) (Fin Rc)
                    (Fin rear) (Fin B) (Fin N) (Fin D) m50 (Fin rs) (Fin rw) (Fin cs) (Fin tol) max_iterations))).
Proof. intros. apply wave_height_main; assumption. Qed.

(** With no iterations allowed there is nothing to return. *)
Theorem C50_zero_iterations_fail :
  forall cot phi gf gc S T Rc rear B N D m50 rs rw cs tol,
    value (calculate_maximum_significant_wave_height_Hs cot phi gf gc S T Rc rear B N (Fin D) m50 rs rw cs tol 0) = Err UnboundLocalError.
Proof. intros. reflexivity. Qed.

Example C50_example :
  exists H, 0 < H
    /\ value (calculate_damage_number_S #2 #2 #0.5 #0.5 (Fin H) #6 #3 #2 #4 #2500 #0.5 NaN #2650 #1025 cs_default) = Ok #10
    /\ exists enough, forall n, (enough <= n)%nat -> exists Hc,
       value (calculate_maximum_significant_wave_height_Hs #2 #2 #0.5 #0.5 #10 #6 #3 #2 #4 #2500 #0.5 NaN #2650 #1025 cs_default #0.001 n) = Ok (Fin Hc)
       /\ Rabs (Hc - H) <= 0.002.
Proof.
  assert (Ec : cs_default = Fin (0.008 ^ 6)) by (unfold cs_default; rewrite npow_fin_6; reflexivity). rewrite Ec.
  destruct (C50_wave_height_search 2 2 0.5 0.5 6 3 2 4 2500 0.5 2650 1025 (0.008 ^ 6) 10 NaN) as (H & PH & U & C); try lra; try (apply pow_lt; lra).
  exists H. split; [assumption|]. split; [apply (U H PH); reflexivity|].
  destruct (C 0.001 ltac:(lra)) as (V & W). destruct (W ltac:(lra)) as (enough & W'). exists (Datatypes.S enough). intros [|n] Hn; [lia|].
  destruct (V n) as (Hc & E & _ & Bd). exists Hc. split; [exact E|].
  replace 0.002 with (2 * 0.001) by lra. apply Bd; [apply W'; lia|lra].
Qed.
