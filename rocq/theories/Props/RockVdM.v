(** Properties C43 and C44: Van der Meer (1988), the modified formulas and the
    2021 rewrite. *)
From Coq Require Import Reals Lra Lia List Bool String Psatz.
From Verif.Lib Require Import Num Monad RTac NTac.
From Verif.Spec Require Import Waves Rock.
From Verif.Model Require Import CoreUtility CorePhysics.
From Verif.Model Require VanderMeer1988 VanderMeer1988Modified.
From Verif.Proofs Require Import Core CheckTac VdM.
Import ListNotations.
Open Scope R_scope.


Lemma checks88 a b c d e f h : value (VanderMeer1988.check_validity_range a b c d e f h) = Ok tt.
Proof. unfold VanderMeer1988.check_validity_range. mchecks. reflexivity. Qed.
Lemma checksM a b c d e f h i j : value (VanderMeer1988Modified.check_validity_range a b c d e f h i j) = Ok tt.
Proof. unfold VanderMeer1988Modified.check_validity_range. mchecks. reflexivity. Qed.

Lemma usage_fin D m rho : check_usage_Dn50_or_M50 (Fin D) m rho = ret (Fin D).
Proof. reflexivity. Qed.

(** ** The number-of-waves correction *)
Lemma exp_155 : exp (-(0.00031) * 5000) <= 3 / 13.
Proof.
  replace (-(0.00031) * 5000) with (- (0.0775 * INR 20)) by (simpl; lra).
  assert (E : exp (0.0775 * INR 20) = exp 0.0775 ^ 20).
  { replace (0.0775 * INR 20) with (INR 20 * 0.0775) by ring. rewrite <- Rpower_pow by apply exp_pos.
    unfold Rpower. rewrite ln_exp. reflexivity. }
  rewrite exp_Ropp, E.
  assert (1.0775 <= exp 0.0775) by (pose proof (exp_ineq1_le 0.0775); lra).
  assert (B : 1.0775 ^ 20 <= exp 0.0775 ^ 20) by (apply pow_incr; lra).
  assert (4.34 <= 1.0775 ^ 20).
  { replace (1.0775 ^ 20) with ((1.0775 ^ 4) ^ 5) by ring.
    assert (1.347 <= 1.0775 ^ 4) by (cbn [pow]; lra).
    apply (Rle_trans _ (1.347 ^ 5)); [cbn [pow]; lra|]. apply pow_incr. lra. }
  apply (Rle_trans _ (/ 4.34)); [apply Rinv_le_contravar; lra|lra].
Qed.

Lemma storm_pos N : 0 < N -> 0 < vdm_storm N.
Proof.
  intros. unfold vdm_storm. destruct (Rlt_dec N 1000); [rpos|]. destruct (Rle_dec N 5000); [rpos|].
  assert (exp (-(0.00031) * N) < 1) by (rewrite <- exp_0; apply exp_increasing; lra).
  apply Rmult_lt_0_compat; [|rpos]. apply Rmult_lt_0_compat; lra.
Qed.

Lemma gamma_N_fin N : 0 < N ->
  VanderMeer1988.calculate_correction_term_gamma_N (Fin N) = Fin (sqrt N / vdm_storm N).
Proof.
  intros. unfold VanderMeer1988.calculate_correction_term_gamma_N. pose proof (storm_pos N H) as HS.
  unfold vdm_storm in *. assert (0 < sqrt N) by rpos. assert (0 < 1000 / N) by rpos.
  assert (0 < sqrt 5000) by rpos. assert (0 < sqrt 1000) by rpos.
  assert (exp (-(0.00031) * N) < 1) by (rewrite <- exp_0; apply exp_increasing; lra).
  assert (0 < 1 - exp (-(0.00031) * N)) by lra.
  nfin. destruct (Rlt_dec N 1000).
  - rewrite (Rltb_false 5000), Rltb_true by lra. f_equal.
    apply Rsqr_inj; [rpos|rpos|]. rewrite Rsqr_div'. rewrite !Rsqr_sqrt by rpos.
    replace (Rsqr (N / sqrt 1000)) with (N ^ 2 / 1000). { field. lra. }
    rewrite Rsqr_div'. rewrite Rsqr_sqrt by lra. unfold Rsqr. field.
  - destruct (Rle_dec N 5000).
    + rewrite (Rltb_false 5000), Rltb_false by lra. f_equal. field. lra.
    + rewrite Rltb_true by lra. f_equal. field. repeat split; try lra.
Qed.

(** The damage never decreases when the storm lasts longer. *)
Lemma storm_increasing N N' : 0 < N -> N <= N' -> vdm_storm N <= vdm_storm N'.
Proof.
  intros HN L. unfold vdm_storm.
  assert (S1 : forall x, 0 < x -> x <= 1000 -> x / sqrt 1000 <= sqrt 1000).
  { intros. apply (Rmult_le_reg_r (sqrt 1000)); [rpos|]. replace (x / sqrt 1000 * sqrt 1000) with x by (field; rpos).
    rewrite sqrt_sqrt; lra. }
  assert (S3 : forall x, 5000 <= x -> sqrt 5000 <= 1.3 * (1 - exp (-(0.00031) * x)) * sqrt 5000).
  { intros. assert (exp (-(0.00031) * x) <= exp (-(0.00031) * 5000)).
    { destruct (Req_dec x 5000) as [->|]; [lra|]. apply Rlt_le, exp_increasing. lra. }
    pose proof exp_155. assert (0 < sqrt 5000) by rpos. nra. }
  assert (S2 : forall x y, 0 <= x -> x <= y -> sqrt x <= sqrt y) by (intros; apply sqrt_le_1; lra).
  destruct (Rlt_dec N 1000), (Rlt_dec N' 1000); try lra.
  - apply Rmult_le_compat_r; [apply Rlt_le; rpos|lra].
  - specialize (S1 N). pose proof (S2 1000 N'). destruct (Rle_dec N' 5000); [lra|].
    pose proof (S3 N'). pose proof (S2 1000 5000). lra.
  - destruct (Rle_dec N 5000), (Rle_dec N' 5000); try lra.
    + apply S2; lra.
    + pose proof (S3 N'). pose proof (S2 N 5000). lra.
    + apply Rmult_le_compat_r; [apply Rlt_le; rpos|]. apply Rmult_le_compat_l; [lra|].
      assert (exp (-(0.00031) * N') <= exp (-(0.00031) * N)).
      { destruct (Req_dec N N') as [->|]; [lra|]. apply Rlt_le, exp_increasing. lra. }
      lra.
Qed.

Lemma critical_fin cp cs P cot : 0 < cp -> 0 < cs -> 0 < P -> 0 < cot ->
  calculate_critical_Iribarren_number_ksi_mc (Fin cp) (Fin cs) (Fin P) (Fin cot) = Fin (xi_critical cp cs P cot).
Proof.
  intros. unfold calculate_critical_Iribarren_number_ksi_mc, xi_critical.
  assert (0 < 1 / cot) by rpos. nfin. reflexivity.
Qed.

Section Bridge.
Variables (H D T N cot P rs rw cp cs r : R) (m50 : num).
Hypotheses (HH : 0 < H) (HD : 0 < D) (HT : 0 < T) (HN : 0 < N) (Hc : 0 < cot) (HP : 0 < P)
  (Hrw : 0 < rw) (Hrs : rw < rs) (Hcp : 0 < cp) (Hcs : 0 < cs) (Hr : 0 < r).
Let De := buoyant rs rw.
Let X := iribarren g0 H T (1 / cot).
Lemma De_pos : 0 < De. Proof. apply buoyant_pos; assumption. Qed.
Lemma X_pos : 0 < X. Proof. apply iribarren_pos; try apply g0_pos; try assumption. rpos. Qed.

Lemma regime_sel (A : Type) (a b : A) :
  (if (Rltb X (xi_critical cp cs P cot) || Rleb 4 cot)%bool then a else b)
  = (if Rltb X (xi_critical cp cs P cot) then a else if Rleb 4 cot then a else b).
Proof. destruct (Rltb X _), (Rleb 4 cot); reflexivity. Qed.

Lemma regime_cases (A : Type) (a b : A) (d x : R) :
  vdm cp cs P cot X De D H r d ->
  (r * H / (De * D) = vdm_plunging cp P X d -> a = b) ->
  forall c, (r * H / (De * D) = vdm_surging cs P cot X d -> c = b) ->
  (if (Rltb X (xi_critical cp cs P cot) || Rleb 4 cot)%bool then a else c) = b.
Proof.
  intros E Ha c Hc'. unfold vdm, plunging in E.
  destruct (Rltb_spec X (xi_critical cp cs P cot)), (Rleb_spec 4 cot); simpl;
    destruct E as [(E1 & E2)|(E1 & E2)]; tauto.
Qed.

Ltac prep := pose proof De_pos; pose proof X_pos; fold De; unfold De in *.

(** *** 1988 *)
Lemma damage88 S : 0 < S -> vdm cp cs P cot X De D H r (S / vdm_storm N) ->
  value (VanderMeer1988.calculate_damage_number_S (Fin H) (Fin (r * H)) (Fin T) (Fin N) (Fin cot) (Fin P)
           (Fin rs) (Fin D) m50 (Fin cp) (Fin cs) (Fin rw)) = Ok (Fin S).
Proof.
  intros HS E. unfold VanderMeer1988.calculate_damage_number_S. rewrite usage_fin, bind_ret_l. mval. rewrite checks88. mval.
  rewrite iribarren_fin, critical_fin, Ns_fin, gamma_N_fin by (assumption || lra).
  fold X. fold De. pose proof De_pos as HDe. pose proof X_pos as HX. pose proof (storm_pos N HN) as Hst.
  assert (0 < sqrt cot) by rpos. assert (0 < De * D) by rpos. assert (0 < sqrt N) by rpos.
  assert (0 < sqrt N / vdm_storm N) by rpos.
  assert (0 < S / vdm_storm N) by rpos. assert (0 < sqrt X) by rpos.
  nfin. f_equal. apply (regime_cases _ _ _ (S / vdm_storm N) 0 E); intros E'; f_equal.
  - assert (B : H / (De * D) * (r * H / H) * (1 / cp) * Rpower P (-(0.18)) * Rpower X 0.5
                = Rpower (S / vdm_storm N) 0.2).
    { apply (f_equal ln) in E'. unfold vdm_plunging in E'. revert E'. ln_push. intros E'.
      ln_eq. rewrite ln_1. lra. }
    rewrite B, <- Rpower_pow, Rpower_mult by rpos. replace (0.2 * INR 5) with 1 by (simpl; lra).
    rewrite Rpower_1 by assumption. field. split; lra.
  - assert (B : H / (De * D) * (r * H / H) * (1 / cs) * Rpower P 0.13 * (1 / sqrt cot) * Rpower X (- P)
                = Rpower (S / vdm_storm N) 0.2).
    { apply (f_equal ln) in E'. unfold vdm_surging in E'. revert E'. ln_push. intros E'.
      ln_eq. rewrite ln_1. lra. }
    rewrite B, <- Rpower_pow, Rpower_mult by rpos. replace (0.2 * INR 5) with 1 by (simpl; lra).
    rewrite Rpower_1 by assumption. field. split; lra.
Qed.

Lemma pow_neg_02 d : 0 < d -> Rpower d (-(0.2)) = / Rpower d 0.2.
Proof. intros. apply Rpower_Ropp. Qed.

Lemma storm_arg S : 0 < S -> sqrt N / vdm_storm N * S / sqrt N = S / vdm_storm N.
Proof. intros. pose proof (storm_pos N HN). assert (0 < sqrt N) by rpos. field. split; lra. Qed.

Lemma diameter88 S : 0 < S -> vdm cp cs P cot X De D H r (S / vdm_storm N) ->
  value (VanderMeer1988.calculate_nominal_rock_diameter_Dn50 (Fin H) (Fin (r * H)) (Fin T) (Fin N) (Fin cot)
           (Fin P) (Fin rs) (Fin S) (Fin cp) (Fin cs) (Fin rw)) = Ok (Fin D).
Proof.
  intros HS E. unfold VanderMeer1988.calculate_nominal_rock_diameter_Dn50. mval. rewrite checks88. mval.
  rewrite iribarren_fin, critical_fin, Delta_fin, gamma_N_fin by (assumption || lra).
  fold X. fold De. pose proof De_pos as HDe. pose proof X_pos as HX. pose proof (storm_pos N HN) as Hst.
  assert (0 < sqrt cot) by rpos. assert (0 < De * D) by rpos. assert (0 < sqrt N) by rpos.
  assert (0 < S / vdm_storm N) by rpos. assert (0 < sqrt X) by rpos.
  assert (0 < sqrt N / vdm_storm N * S / sqrt N) by (rewrite storm_arg; assumption).
  nfin. rewrite storm_arg by assumption.
  f_equal. apply (regime_cases _ _ _ (S / vdm_storm N) 0 E); intros E'; f_equal;
    apply (f_equal ln) in E'; unfold vdm_plunging, vdm_surging in E'; revert E';
    set (d := S / vdm_storm N) in *; ln_push; intros E'; ln_eq; rewrite ln_1; lra.
Qed.

Lemma height88 S : 0 < S -> vdm cp cs P cot X De D H r (S / vdm_storm N) ->
  value (VanderMeer1988.calculate_significant_wave_height_Hs (Fin r) (Fin T) (Fin N) (Fin cot) (Fin P) (Fin rs)
           (Fin S) (Fin D) m50 (Fin cp) (Fin cs) (Fin g0) (Fin rw)) = Ok (Fin H).
Proof.
  intros HS E. unfold VanderMeer1988.calculate_significant_wave_height_Hs. rewrite usage_fin, bind_ret_l.
  mval. rewrite checks88. mval.
  rewrite critical_fin, Delta_fin, gamma_N_fin by (assumption || lra).
  fold De. pose proof De_pos as HDe. pose proof (storm_pos N HN) as Hst.
  assert (0 < sqrt N) by rpos. assert (0 < S / vdm_storm N) by rpos.
  assert (0 < sqrt N / vdm_storm N * S / sqrt N) by (rewrite storm_arg; assumption).
  assert (0 < 1 / cot) by rpos. pose proof g0_pos. assert (0 < 2 * PI / g0 * (1 / T ^ 2)) by rpos.
  nfin. rewrite storm_arg by assumption.
  replace (2 * PI / g0 * (1 / T ^ 2)) with (K g0 T) by (unfold K; field; split; lra).
  fold (H_pl cp P cot g0 T De D r (S / vdm_storm N)). fold (H_su cs P cot g0 T De D r (S / vdm_storm N)).
  rewrite !iribarren_fin by (try apply H_pl_pos; try apply H_su_pos; assumption || lra).
  nfin.
  pose proof (select_wave_height cp cs P cot g0 T De D r ltac:(assumption) ltac:(assumption) ltac:(assumption)
    ltac:(assumption) ltac:(assumption) ltac:(assumption) ltac:(assumption) ltac:(assumption) ltac:(assumption)
    H (S / vdm_storm N) ltac:(assumption) ltac:(assumption) E) as SW.
  unfold xi, xc in SW. f_equal. rewrite <- SW.
  destruct (Rltb _ _ && Rltb _ _ || Rleb _ _)%bool; reflexivity.
Qed.

(** *** modified *)
Lemma damageM S : 0 < S -> vdm cp cs P cot X De D H r (S / sqrt N) ->
  value (VanderMeer1988Modified.calculate_damage_number_S (Fin H) (Fin (r * H)) (Fin T) (Fin N) (Fin cot) (Fin P)
           (Fin rs) (Fin D) m50 (Fin cp) (Fin cs) (Fin rw)) = Ok (Fin S).
Proof.
  intros HS E. unfold VanderMeer1988Modified.calculate_damage_number_S. rewrite usage_fin, bind_ret_l.
  mval. rewrite checksM. mval.
  rewrite iribarren_fin, critical_fin, Ns_fin by (assumption || lra).
  fold X. fold De. pose proof De_pos as HDe. pose proof X_pos as HX.
  assert (0 < sqrt cot) by rpos. assert (0 < De * D) by rpos. assert (0 < sqrt N) by rpos.
  assert (0 < S / sqrt N) by rpos. assert (0 < sqrt X) by rpos. assert (0 < 1 / cot) by rpos.
  nfin. f_equal. apply (regime_cases _ _ _ (S / sqrt N) 0 E); intros E'; f_equal.
  - assert (B : 1 / cp * Rpower P (-(0.18)) * Rpower X 0.5 * (H / (De * D)) * (r * H / H)
                = Rpower (S / sqrt N) 0.2).
    { apply (f_equal ln) in E'. unfold vdm_plunging in E'. revert E'. ln_push. intros E'.
      ln_eq. rewrite ln_1. lra. }
    rewrite B, <- Rpower_pow, Rpower_mult by rpos. replace (0.2 * INR 5) with 1 by (simpl; lra).
    rewrite Rpower_1 by assumption. field. lra.
  - assert (B : 1 / cs * Rpower P 0.13 * Rpower X (- P) * sqrt (1 / cot) * (H / (De * D)) * (r * H / H)
                = Rpower (S / sqrt N) 0.2).
    { apply (f_equal ln) in E'. unfold vdm_surging in E'. revert E'. ln_push. intros E'.
      ln_eq. rewrite ln_1. lra. }
    rewrite B, <- Rpower_pow, Rpower_mult by rpos. replace (0.2 * INR 5) with 1 by (simpl; lra).
    rewrite Rpower_1 by assumption. field. lra.
Qed.

Lemma diameterM S : 0 < S -> vdm cp cs P cot X De D H r (S / sqrt N) ->
  value (VanderMeer1988Modified.calculate_nominal_rock_diameter_Dn50 (Fin H) (Fin (r * H)) (Fin T) (Fin N)
           (Fin cot) (Fin P) (Fin rs) (Fin S) (Fin cp) (Fin cs) (Fin rw)) = Ok (Fin D).
Proof.
  intros HS E. unfold VanderMeer1988Modified.calculate_nominal_rock_diameter_Dn50. mval. rewrite checksM. mval.
  rewrite iribarren_fin, critical_fin, Delta_fin by (assumption || lra).
  fold X. fold De. pose proof De_pos as HDe. pose proof X_pos as HX.
  assert (0 < sqrt cot) by rpos. assert (0 < De * D) by rpos. assert (0 < sqrt N) by rpos.
  assert (0 < S / sqrt N) by rpos. assert (0 < sqrt X) by rpos.
  nfin.
  f_equal. apply (regime_cases _ _ _ (S / sqrt N) 0 E); intros E'; f_equal;
    apply (f_equal ln) in E'; unfold vdm_plunging, vdm_surging in E'; revert E';
    set (d := S / sqrt N) in *; ln_push; intros E'; ln_eq; rewrite ln_1; lra.
Qed.

Lemma heightM S : 0 < S -> vdm cp cs P cot X De D H r (S / sqrt N) ->
  value (VanderMeer1988Modified.calculate_significant_wave_height_Hs (Fin r) (Fin T) (Fin N) (Fin cot) (Fin P)
           (Fin rs) (Fin S) (Fin D) m50 (Fin cp) (Fin cs) (Fin g0) (Fin rw)) = Ok (Fin H).
Proof.
  intros HS E. unfold VanderMeer1988Modified.calculate_significant_wave_height_Hs. rewrite usage_fin, bind_ret_l.
  mval. rewrite checksM. mval.
  rewrite critical_fin, Delta_fin by (assumption || lra).
  fold De. pose proof De_pos as HDe.
  assert (0 < sqrt N) by rpos. assert (0 < S / sqrt N) by rpos.
  assert (0 < 1 / cot) by rpos. pose proof g0_pos. assert (0 < 2 * PI / g0 * (1 / T ^ 2)) by rpos.
  nfin.
  replace (2 * PI / g0 * (1 / T ^ 2)) with (K g0 T) by (unfold K; field; split; lra).
  fold (H_pl cp P cot g0 T De D r (S / sqrt N)). fold (H_su cs P cot g0 T De D r (S / sqrt N)).
  rewrite !iribarren_fin by (try apply H_pl_pos; try apply H_su_pos; assumption || lra).
  nfin.
  pose proof (select_wave_height cp cs P cot g0 T De D r ltac:(assumption) ltac:(assumption) ltac:(assumption)
    ltac:(assumption) ltac:(assumption) ltac:(assumption) ltac:(assumption) ltac:(assumption) ltac:(assumption)
    H (S / sqrt N) ltac:(assumption) ltac:(assumption) E) as SW.
  unfold xi, xc in SW. f_equal. rewrite <- SW.
  destruct (Rltb _ _ && Rltb _ _ || Rleb _ _)%bool; reflexivity.
Qed.
End Bridge.

(** ** C43: Van der Meer (1988) *)

(** On every point of the published relation each of the three functions
    returns the corresponding coordinate: damage S, diameter D, wave height H. *)
Theorem C43_functions_agree_with_relation :
  forall H D T N cot P rs rw cp cs r S m50,
    0 < H -> 0 < D -> 0 < T -> 0 < N -> 0 < cot -> 0 < P -> 0 < rw -> rw < rs -> 0 < cp -> 0 < cs ->
    0 < r -> 0 < S ->
    vdm cp cs P cot (iribarren g0 H T (1 / cot)) (rs / rw - 1) D H r (S / vdm_storm N) ->
    value (VanderMeer1988.calculate_damage_number_S (Fin H) (Fin (r * H)) (Fin T) (Fin N) (Fin cot) (Fin P)
           (Fin rs) (Fin D) m50 (Fin cp) (Fin cs) (Fin rw)) = Ok (Fin S)
    /\ value (VanderMeer1988.calculate_nominal_rock_diameter_Dn50 (Fin H) (Fin (r * H)) (Fin T) (Fin N) (Fin cot)
           (Fin P) (Fin rs) (Fin S) (Fin cp) (Fin cs) (Fin rw)) = Ok (Fin D)
    /\ value (VanderMeer1988.calculate_significant_wave_height_Hs (Fin r) (Fin T) (Fin N) (Fin cot) (Fin P)
           (Fin rs) (Fin S) (Fin D) m50 (Fin cp) (Fin cs) (Fin g0) (Fin rw)) = Ok (Fin H).
Proof.
  intros. split; [|split].
  - apply damage88; assumption.
  - apply diameter88; assumption.
  - apply height88; assumption.
Qed.

(** The relation determines each quantity from the other two, so the functions
    invert one another on all positive inputs. *)
Theorem C43_damage_total :
  forall H D T N cot P rs rw cp cs r,
    0 < H -> 0 < D -> 0 < T -> 0 < N -> 0 < cot -> 0 < P -> 0 < rw -> rw < rs -> 0 < cp -> 0 < cs -> 0 < r ->
    exists S, 0 < S /\ vdm cp cs P cot (iribarren g0 H T (1 / cot)) (rs / rw - 1) D H r (S / vdm_storm N).
Proof.
  intros. destruct (vdm_damage_exists cp cs P cot g0 T (rs / rw - 1) D r) with (H := H) as (d & Hd & E);
    try assumption; try apply g0_pos; [apply buoyant_pos; assumption|].
  pose proof (storm_pos N ltac:(assumption)). exists (d * vdm_storm N). split; [rpos|].
  replace (d * vdm_storm N / vdm_storm N) with d by (field; lra). exact E.
Qed.
Theorem C43_diameter_total :
  forall H T N cot P rs rw cp cs r S,
    0 < H -> 0 < T -> 0 < N -> 0 < cot -> 0 < P -> 0 < rw -> rw < rs -> 0 < cp -> 0 < cs -> 0 < r -> 0 < S ->
    exists D, 0 < D /\ vdm cp cs P cot (iribarren g0 H T (1 / cot)) (rs / rw - 1) D H r (S / vdm_storm N).
Proof.
  intros. pose proof (storm_pos N ltac:(assumption)).
  apply (vdm_diameter_exists cp cs P cot g0 T (rs / rw - 1) r); try assumption; try apply g0_pos;
    [apply buoyant_pos; assumption|rpos].
Qed.
Theorem C43_wave_height_total :
  forall D T N cot P rs rw cp cs r S,
    0 < D -> 0 < T -> 0 < N -> 0 < cot -> 0 < P -> 0 < rw -> rw < rs -> 0 < cp -> 0 < cs -> 0 < r -> 0 < S ->
    exists H, 0 < H /\ vdm cp cs P cot (iribarren g0 H T (1 / cot)) (rs / rw - 1) D H r (S / vdm_storm N).
Proof.
  intros. pose proof (storm_pos N ltac:(assumption)).
  apply (vdm_wave_height_exists cp cs P cot g0 T (rs / rw - 1) D r); try assumption; try apply g0_pos;
    [apply buoyant_pos; assumption|rpos].
Qed.

(** At the critical Iribarren number both branches of the formula agree. *)
Theorem C43_branches_meet :
  forall cp cs P cot d, 0 < cp -> 0 < cs -> 0 < P -> 0 < cot -> 0 < d ->
    calculate_critical_Iribarren_number_ksi_mc (Fin cp) (Fin cs) (Fin P) (Fin cot) = Fin (xi_critical cp cs P cot)
    /\ vdm_plunging cp P (xi_critical cp cs P cot) d = vdm_surging cs P cot (xi_critical cp cs P cot) d.
Proof.
  intros. split; [apply critical_fin; assumption|].
  apply regimes_meet; assumption.
Qed.

(** Higher waves, larger ratio of wave heights, smaller stones: more damage. *)
Theorem C43_damage_increases_with_wave_height :
  forall H H' D T N cot P rs rw cp cs r m50,
    0 < H -> H < H' -> 0 < D -> 0 < T -> 0 < N -> 0 < cot -> 0 < P -> 0 < rw -> rw < rs -> 0 < cp -> 0 < cs ->
    0 < r ->
    exists S S', 0 < S < S'
      /\ value (VanderMeer1988.calculate_damage_number_S (Fin H) (Fin (r * H)) (Fin T) (Fin N) (Fin cot) (Fin P)
           (Fin rs) (Fin D) m50 (Fin cp) (Fin cs) (Fin rw)) = Ok (Fin S)
      /\ value (VanderMeer1988.calculate_damage_number_S (Fin H') (Fin (r * H')) (Fin T) (Fin N) (Fin cot) (Fin P)
           (Fin rs) (Fin D) m50 (Fin cp) (Fin cs) (Fin rw)) = Ok (Fin S').
Proof.
  intros.
  destruct (C43_damage_total H D T N cot P rs rw cp cs r) as (S & HS & E); try assumption.
  destruct (C43_damage_total H' D T N cot P rs rw cp cs r) as (S' & HS' & E'); try assumption; [lra|].
  pose proof (storm_pos N ltac:(assumption)) as HN.
  exists S, S'. split; [split; [assumption|]|split; apply damage88; try assumption; lra].
  assert (L : S / vdm_storm N < S' / vdm_storm N).
  { apply (damage_increasing cp cs P cot g0 T (rs / rw - 1) D r) with (H1 := H) (H2 := H'); try assumption;
      try apply g0_pos; try (apply buoyant_pos; assumption); rpos. }
  apply (Rmult_lt_reg_r (/ vdm_storm N)); [rpos|exact L].
Qed.

Theorem C43_damage_by_diameter :
  forall H D D' T N cot P rs rw cp cs r m50,
    0 < H -> 0 < D -> 0 < D' -> 0 < T -> 0 < N -> 0 < cot -> 0 < P -> 0 < rw -> rw < rs -> 0 < cp -> 0 < cs ->
    0 < r ->
    exists S, 0 < S
      /\ value (VanderMeer1988.calculate_damage_number_S (Fin H) (Fin (r * H)) (Fin T) (Fin N) (Fin cot) (Fin P)
           (Fin rs) (Fin D) m50 (Fin cp) (Fin cs) (Fin rw)) = Ok (Fin S)
      /\ value (VanderMeer1988.calculate_damage_number_S (Fin H) (Fin (r * H)) (Fin T) (Fin N) (Fin cot) (Fin P)
           (Fin rs) (Fin D') m50 (Fin cp) (Fin cs) (Fin rw)) = Ok (Fin (S * (D / D') ^ 5)).
Proof.
  intros. destruct (C43_damage_total H D T N cot P rs rw cp cs r) as (S & HS & E); try assumption.
  pose proof (storm_pos N ltac:(assumption)) as HN.
  exists S. split; [assumption|]. split; [apply damage88; assumption|].
  apply damage88; try assumption; [rpos|].
  replace (S * (D / D') ^ 5 / vdm_storm N) with (S / vdm_storm N * (D / D') ^ 5) by (field; split; rpos).
  apply (damage_diameter cp cs P cot g0 T); try assumption; try apply g0_pos; [apply buoyant_pos; assumption|rpos].
Qed.

(** Longer storms never give less damage, and the damage is bounded. *)
Theorem C43_damage_by_storm_duration :
  forall H D T N N' cot P rs rw cp cs r m50,
    0 < H -> 0 < D -> 0 < T -> 0 < N -> N <= N' -> 0 < cot -> 0 < P -> 0 < rw -> rw < rs -> 0 < cp -> 0 < cs ->
    0 < r ->
    exists d, 0 < d
      /\ value (VanderMeer1988.calculate_damage_number_S (Fin H) (Fin (r * H)) (Fin T) (Fin N) (Fin cot) (Fin P)
           (Fin rs) (Fin D) m50 (Fin cp) (Fin cs) (Fin rw)) = Ok (Fin (d * vdm_storm N))
      /\ value (VanderMeer1988.calculate_damage_number_S (Fin H) (Fin (r * H)) (Fin T) (Fin N') (Fin cot) (Fin P)
           (Fin rs) (Fin D) m50 (Fin cp) (Fin cs) (Fin rw)) = Ok (Fin (d * vdm_storm N'))
      /\ 0 < vdm_storm N <= vdm_storm N' /\ vdm_storm N' <= 1.3 * sqrt 5000.
Proof.
  intros. assert (HN' : 0 < N') by lra.
  destruct (C43_damage_total H D T N cot P rs rw cp cs r) as (S & HS & E); try assumption.
  pose proof (storm_pos N ltac:(assumption)) as PN. pose proof (storm_pos N' HN') as PN'.
  exists (S / vdm_storm N). split; [rpos|].
  replace (S / vdm_storm N * vdm_storm N) with S by (field; lra).
  split; [apply damage88; assumption|]. split.
  - apply damage88; try assumption; [rpos|].
    replace (S / vdm_storm N * vdm_storm N' / vdm_storm N') with (S / vdm_storm N) by (field; split; lra).
    assumption.
  - split; [split; [assumption|apply storm_increasing; assumption]|].
    unfold vdm_storm. assert (0 < sqrt 5000) by rpos. assert (0 < sqrt 1000) by rpos.
    destruct (Rlt_dec N' 1000).
    + assert (N' / sqrt 1000 <= sqrt 1000).
      { apply (Rmult_le_reg_r (sqrt 1000)); [rpos|]. replace (N' / sqrt 1000 * sqrt 1000) with N' by (field; rpos).
        rewrite sqrt_sqrt; lra. }
      assert (sqrt 1000 <= sqrt 5000) by (apply sqrt_le_1; lra). lra.
    + destruct (Rle_dec N' 5000).
      * assert (sqrt N' <= sqrt 5000) by (apply sqrt_le_1; lra). lra.
      * pose proof (exp_pos (-(0.00031) * N')). nra.
Qed.

(** The stone size may be given as a mass instead of a diameter. *)
Theorem C43_mass_or_diameter :
  forall H H2p D T N cot P rs S cp cs g rw r,
    0 < D -> 0 < rs ->
    value (VanderMeer1988.calculate_damage_number_S H H2p T N cot P (Fin rs) NaN (Fin (rs * D ^ 3)) cp cs rw)
    = value (VanderMeer1988.calculate_damage_number_S H H2p T N cot P (Fin rs) (Fin D) NaN cp cs rw)
    /\ value (VanderMeer1988.calculate_significant_wave_height_Hs r T N cot P (Fin rs) S NaN (Fin (rs * D ^ 3)) cp cs g rw)
    = value (VanderMeer1988.calculate_significant_wave_height_Hs r T N cot P (Fin rs) S (Fin D) NaN cp cs g rw).
Proof.
  intros * HD Hrs.
  assert (U : check_usage_Dn50_or_M50 NaN (Fin (rs * D ^ 3)) (Fin rs) = ret (Fin D)).
  { unfold check_usage_Dn50_or_M50. cbn [isnan andb negb]. rewrite Dn50_fin by rpos.
    fold (mass_of rs D). rewrite cube_root_mass by assumption. reflexivity. }
  unfold VanderMeer1988.calculate_damage_number_S, VanderMeer1988.calculate_significant_wave_height_Hs.
  rewrite U, usage_fin. split; reflexivity.
Qed.

(** With another gravity the wave-height function is off: on slopes of 1:4 and
    flatter by exactly the factor (9.81/g)^(1/3). *)
Lemma height_other_g H D T N cot P rs rw cp cs r S g m50 :
    0 < H -> 0 < D -> 0 < T -> 0 < N -> 4 <= cot -> 0 < P -> 0 < rw -> rw < rs -> 0 < cp -> 0 < cs ->
    0 < r -> 0 < S -> 0 < g ->
    vdm cp cs P cot (iribarren g0 H T (1 / cot)) (rs / rw - 1) D H r (S / vdm_storm N) ->
    value (VanderMeer1988.calculate_significant_wave_height_Hs (Fin r) (Fin T) (Fin N) (Fin cot) (Fin P)
           (Fin rs) (Fin S) (Fin D) m50 (Fin cp) (Fin cs) (Fin g) (Fin rw)) = Ok (Fin (H * Rpower (g0 / g) (1 / 3))).
Proof.
  intros HH HD HT HN Hcot HP Hrw Hrs Hcp Hcs Hr HS Hg E.
  assert (0 < cot) by lra. set (De := rs / rw - 1) in *. assert (HDe : 0 < De) by (apply buoyant_pos; assumption).
  unfold VanderMeer1988.calculate_significant_wave_height_Hs. rewrite usage_fin, bind_ret_l.
  mval. rewrite checks88. mval.
  rewrite critical_fin, Delta_fin, gamma_N_fin by (assumption || lra). fold De.
  pose proof (storm_pos N HN) as Hst.
  assert (0 < sqrt N) by rpos. assert (0 < S / vdm_storm N) by rpos.
  assert (0 < sqrt N / vdm_storm N * S / sqrt N) by (rewrite storm_arg; assumption).
  assert (0 < 1 / cot) by rpos. pose proof g0_pos. assert (0 < 2 * PI / g * (1 / T ^ 2)) by rpos.
  unfold buoyant. fold De.
  nfin. rewrite storm_arg by assumption.
  replace (2 * PI / g * (1 / T ^ 2)) with (K g T) by (unfold K; field; split; lra).
  fold (H_pl cp P cot g T De D r (S / vdm_storm N)). fold (H_su cs P cot g T De D r (S / vdm_storm N)).
  rewrite !iribarren_fin by (try apply H_pl_pos; try apply H_su_pos; assumption || lra).
  nfin. rewrite (Rleb_true 4) by assumption. rewrite orb_true_r. do 2 f_equal.
  assert (Ep : r * H / (De * D) = vdm_plunging cp P (xi cot g0 T H) (S / vdm_storm N)).
  { unfold vdm, plunging in E. unfold xi. tauto. }
  apply pl_log in Ep; try assumption.
  unfold H_pl. pose proof (K_pos g T Hg HT). set (d := S / vdm_storm N) in *.
  assert (EK : ln (K g T) = ln (K g0 T) + ln g0 - ln g).
  { unfold K. assert (0 < 2 * PI) by rpos. ln_push. lra. }
  pose proof (K_pos g0 T ltac:(assumption) HT).
  ln_eq. rewrite EK, ln_1. lra.
Qed.

Theorem C43_wave_height_ignores_other_gravity_refuted :
  exists H D T N cot P rs rw r S g H',
    value (VanderMeer1988.calculate_damage_number_S (Fin H) (Fin (r * H)) (Fin T) (Fin N) (Fin cot) (Fin P)
           (Fin rs) (Fin D) NaN VanderMeer1988.c_pl_default VanderMeer1988.c_s_default (Fin rw)) = Ok (Fin S)
    /\ value (VanderMeer1988.calculate_significant_wave_height_Hs (Fin r) (Fin T) (Fin N) (Fin cot) (Fin P)
           (Fin rs) (Fin S) (Fin D) NaN VanderMeer1988.c_pl_default VanderMeer1988.c_s_default (Fin g) (Fin rw))
       = Ok (Fin H')
    /\ H' <> H.
Proof.
  destruct (C43_damage_total 2 1 6 2000 4 0.4 2650 1025 8.7 1.4 1.4) as (S & HS & E); try lra.
  exists 2, 1, 6, 2000, 4, 0.4, 2650, 1025, 1.4, S, (g0 / 8), (2 * Rpower (g0 / (g0 / 8)) (1 / 3)).
  split; [|split].
  - apply damage88; try assumption; lra.
  - apply height_other_g; try assumption; try (unfold g0; lra).
  - replace (g0 / (g0 / 8)) with (2 ^ 3) by (unfold g0; simpl; lra).
    rewrite <- Rpower_3, Rpower_cancel by lra. lra.
Qed.

Example C43_example :
  exists S, (value (VanderMeer1988.calculate_damage_number_S #2 #2.8 #6 #2000 #2 #0.4 #2650 #1.2 NaN
           VanderMeer1988.c_pl_default VanderMeer1988.c_s_default #1025) = Ok (Fin S)
    /\ value (VanderMeer1988.calculate_significant_wave_height_Hs #1.4 #6 #2000 #2 #0.4 #2650 (Fin S) #1.2 NaN
           VanderMeer1988.c_pl_default VanderMeer1988.c_s_default #9.81 #1025) = Ok #2
    /\ value (VanderMeer1988.calculate_nominal_rock_diameter_Dn50 #2 #2.8 #6 #2000 #2 #0.4 #2650 (Fin S)
           VanderMeer1988.c_pl_default VanderMeer1988.c_s_default #1025) = Ok #1.2)%num.
Proof.
  destruct (C43_damage_total 2 1.2 6 2000 2 0.4 2650 1025 8.7 1.4 1.4) as (S & HS & E); try lra.
  exists S. destruct (C43_functions_agree_with_relation 2 1.2 6 2000 2 0.4 2650 1025 8.7 1.4 1.4 S NaN) as (A & B & C);
    try lra; try assumption.
  replace (1.4 * 2) with 2.8 in * by lra. auto.
Qed.

(** ** C44: modified Van der Meer and the 2021 rewrite *)
Theorem C44_modified_functions_agree_with_relation :
  forall H D T N cot P rs rw cp cs r S m50,
    0 < H -> 0 < D -> 0 < T -> 0 < N -> 0 < cot -> 0 < P -> 0 < rw -> rw < rs -> 0 < cp -> 0 < cs ->
    0 < r -> 0 < S ->
    vdm cp cs P cot (iribarren g0 H T (1 / cot)) (rs / rw - 1) D H r (S / sqrt N) ->
    value (VanderMeer1988Modified.calculate_damage_number_S (Fin H) (Fin (r * H)) (Fin T) (Fin N) (Fin cot) (Fin P)
           (Fin rs) (Fin D) m50 (Fin cp) (Fin cs) (Fin rw)) = Ok (Fin S)
    /\ value (VanderMeer1988Modified.calculate_nominal_rock_diameter_Dn50 (Fin H) (Fin (r * H)) (Fin T) (Fin N)
           (Fin cot) (Fin P) (Fin rs) (Fin S) (Fin cp) (Fin cs) (Fin rw)) = Ok (Fin D)
    /\ value (VanderMeer1988Modified.calculate_significant_wave_height_Hs (Fin r) (Fin T) (Fin N) (Fin cot) (Fin P)
           (Fin rs) (Fin S) (Fin D) m50 (Fin cp) (Fin cs) (Fin g0) (Fin rw)) = Ok (Fin H).
Proof.
  intros. split; [|split].
  - apply damageM; assumption.
  - apply diameterM; assumption.
  - apply heightM; assumption.
Qed.

Theorem C44_any_two_determine_the_third :
  forall T N cot P rs rw cp cs r,
    0 < T -> 0 < N -> 0 < cot -> 0 < P -> 0 < rw -> rw < rs -> 0 < cp -> 0 < cs -> 0 < r ->
    let rel H D S := vdm cp cs P cot (iribarren g0 H T (1 / cot)) (rs / rw - 1) D H r (S / sqrt N) in
    (forall H D, 0 < H -> 0 < D -> exists S, 0 < S /\ rel H D S)
    /\ (forall H S, 0 < H -> 0 < S -> exists D, 0 < D /\ rel H D S)
    /\ (forall D S, 0 < D -> 0 < S -> exists H, 0 < H /\ rel H D S).
Proof.
  intros * HT HN Hc HP Hrw Hrs Hcp Hcs Hr rel. unfold rel.
  assert (HDe : 0 < rs / rw - 1) by (apply buoyant_pos; assumption). pose proof g0_pos.
  assert (HS : 0 < sqrt N) by rpos.
  split; [|split]; intros a b Ha Hb.
  - destruct (vdm_damage_exists cp cs P cot g0 T (rs / rw - 1) b r) with (H := a) as (d & Hd & E); try assumption.
    exists (d * sqrt N). split; [rpos|]. replace (d * sqrt N / sqrt N) with d by (field; lra). exact E.
  - apply (vdm_diameter_exists cp cs P cot g0 T (rs / rw - 1) r); try assumption. rpos.
  - apply (vdm_wave_height_exists cp cs P cot g0 T (rs / rw - 1) a r); try assumption. rpos.
Qed.

Theorem C44_modified_damage_increases_with_wave_height :
  forall H H' D T N cot P rs rw cp cs r m50,
    0 < H -> H < H' -> 0 < D -> 0 < T -> 0 < N -> 0 < cot -> 0 < P -> 0 < rw -> rw < rs -> 0 < cp -> 0 < cs ->
    0 < r ->
    exists S S', 0 < S < S'
      /\ value (VanderMeer1988Modified.calculate_damage_number_S (Fin H) (Fin (r * H)) (Fin T) (Fin N) (Fin cot)
           (Fin P) (Fin rs) (Fin D) m50 (Fin cp) (Fin cs) (Fin rw)) = Ok (Fin S)
      /\ value (VanderMeer1988Modified.calculate_damage_number_S (Fin H') (Fin (r * H')) (Fin T) (Fin N) (Fin cot)
           (Fin P) (Fin rs) (Fin D) m50 (Fin cp) (Fin cs) (Fin rw)) = Ok (Fin S').
Proof.
  intros H H' D T N cot P rs rw cp cs r m50 HH L HD HT HN Hc HP Hrw Hrs Hcp Hcs Hr. assert (HH' : 0 < H') by lra.
  destruct (C44_any_two_determine_the_third T N cot P rs rw cp cs r HT HN Hc HP Hrw Hrs Hcp Hcs Hr) as (A & _).
  destruct (A H D HH HD) as (S & HS & E). destruct (A H' D HH' HD) as (S' & HS' & E').
  assert (PN : 0 < sqrt N) by rpos.
  exists S, S'. split; [split; [assumption|]|split; apply damageM; assumption].
  assert (LL : S / sqrt N < S' / sqrt N).
  { apply (damage_increasing cp cs P cot g0 T (rs / rw - 1) D r) with (H1 := H) (H2 := H'); try assumption;
      try apply g0_pos; try (apply buoyant_pos; assumption); rpos. }
  apply (Rmult_lt_reg_r (/ sqrt N)); [rpos|exact LL].
Qed.

Lemma checks21 a b c d e : value (VanderMeer1988Modified.check_2021 a b c d e) = Ok tt.
Proof. apply checks88. Qed.

(** The 2021 functions are the modified ones with H2% = Hs. *)
Theorem C44_2021_is_the_modified_formula :
  forall Hs T N cot P rs D m50 S cp cs mp ms g,
    value (VanderMeer1988Modified.damage_number_S_2021 Hs T N cot P rs D m50 cp cs mp ms)
    = value (VanderMeer1988Modified.calculate_damage_number_S Hs Hs T N cot P rs D m50
               (nmul cp mp) (nmul cs ms) (Fin 1025))
    /\ value (VanderMeer1988Modified.nominal_rock_diameter_Dn50_2021 Hs T N cot P rs S cp cs mp ms)
    = value (VanderMeer1988Modified.calculate_nominal_rock_diameter_Dn50 Hs Hs T N cot P rs S
               (nmul cp mp) (nmul cs ms) (Fin 1025))
    /\ value (VanderMeer1988Modified.significant_wave_height_Hs_2021 T N cot P rs S D m50 cp cs mp ms g)
    = value (VanderMeer1988Modified.calculate_significant_wave_height_Hs (Fin 1) T N cot P rs S D m50
               (nmul cp mp) (nmul cs ms) g (Fin 1025)).
Proof.
  intros. unfold VanderMeer1988Modified.damage_number_S_2021, VanderMeer1988Modified.nominal_rock_diameter_Dn50_2021,
    VanderMeer1988Modified.significant_wave_height_Hs_2021. mval.
  split; [|split]; match goal with |- context [value ?x] => destruct (value x) end; mval;
    rewrite ?checks21; reflexivity.
Qed.

Theorem C44_2021_functions_agree_with_relation :
  forall H D T N cot P rs cp cs mp ms S m50,
    0 < H -> 0 < D -> 0 < T -> 0 < N -> 0 < cot -> 0 < P -> 1025 < rs -> 0 < cp -> 0 < cs ->
    0 < mp -> 0 < ms -> 0 < S ->
    vdm (cp * mp) (cs * ms) P cot (iribarren g0 H T (1 / cot)) (rs / 1025 - 1) D H 1 (S / sqrt N) ->
    value (VanderMeer1988Modified.damage_number_S_2021 (Fin H) (Fin T) (Fin N) (Fin cot) (Fin P) (Fin rs) (Fin D) m50
             (Fin cp) (Fin cs) (Fin mp) (Fin ms)) = Ok (Fin S)
    /\ value (VanderMeer1988Modified.nominal_rock_diameter_Dn50_2021 (Fin H) (Fin T) (Fin N) (Fin cot) (Fin P) (Fin rs)
             (Fin S) (Fin cp) (Fin cs) (Fin mp) (Fin ms)) = Ok (Fin D)
    /\ value (VanderMeer1988Modified.significant_wave_height_Hs_2021 (Fin T) (Fin N) (Fin cot) (Fin P) (Fin rs) (Fin S)
             (Fin D) m50 (Fin cp) (Fin cs) (Fin mp) (Fin ms) (Fin g0)) = Ok (Fin H).
Proof.
  intros.
  destruct (C44_2021_is_the_modified_formula (Fin H) (Fin T) (Fin N) (Fin cot) (Fin P) (Fin rs) (Fin D) m50 (Fin S)
    (Fin cp) (Fin cs) (Fin mp) (Fin ms) (Fin g0)) as (-> & -> & ->).
  nfin. replace H with (1 * H) at 2 4 by ring.
  apply C44_modified_functions_agree_with_relation; try assumption; try lra; rpos.
Qed.

Example C44_example :
  exists S, (value (VanderMeer1988Modified.damage_number_S_2021 #2 #6 #2000 #2 #0.4 #2650 #1.2 NaN
           VanderMeer1988Modified.c_pl_default_2021 VanderMeer1988Modified.c_s_default_2021 #1 #1) = Ok (Fin S)
    /\ value (VanderMeer1988Modified.significant_wave_height_Hs_2021 #6 #2000 #2 #0.4 #2650 (Fin S) #1.2 NaN
           VanderMeer1988Modified.c_pl_default_2021 VanderMeer1988Modified.c_s_default_2021 #1 #1 #9.81) = Ok #2)%num.
Proof.
  destruct (C44_any_two_determine_the_third 6 2000 2 0.4 2650 1025 (6.49 * 1) (0.97 * 1) 1) as (A & _); try lra.
  destruct (A 2 1.2) as (S & HS & E); try lra.
  exists S. destruct (C44_2021_functions_agree_with_relation 2 1.2 6 2000 2 0.4 2650 6.49 0.97 1 1 S NaN) as (B & _ & C);
    try lra; try assumption. auto.
Qed.
