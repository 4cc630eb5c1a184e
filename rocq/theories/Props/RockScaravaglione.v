(** Property C48: Scaravaglione et al. (2025). *)
From Coq Require Import Reals Lra Lia List Bool String Psatz.
From Verif.Lib Require Import Num Monad RTac NTac.
From Verif.Spec Require Import Waves Rock.
From Verif.Model Require Import CoreUtility CorePhysics Scaravaglione2025.
From Verif.Proofs Require Import Core CheckTac VdM.
Import ListNotations.
Open Scope R_scope.

Lemma checks_sc a b c d e f h i j : value (check_validity_range a b c d e f h i j) = Ok tt.
Proof. unfold check_validity_range. mchecks. reflexivity. Qed.
Lemma usage_fin D m rho : check_usage_Dn50_or_M50 (Fin D) m rho = ret (Fin D).
Proof. reflexivity. Qed.

Section Bridge.
Variables (H D T N cot rs rw Dc c S : R) (m50 mc rc : num).
Hypotheses (HH : 0 < H) (HD : 0 < D) (HT : 0 < T) (HN : 0 < N) (Hcot : 0 < cot) (Hrw : 0 < rw) (Hrs : rw < rs)
  (HDc : 0 < Dc) (Hc : 0 < c) (HS : 0 < S).
Hypothesis E : scaravaglione c N cot (steepness g0 H T) (rs / rw - 1) D Dc S H.

Let s := steepness g0 H T.
Lemma s_p : 0 < s. Proof. apply steepness_pos; try assumption. apply g0_pos. Qed.
Lemma E_log : ln H - ln (rs / rw - 1) - ln D
  = ln c + / 2 * ln cot + 0.1 * ln s + 0.2 * (ln S - / 2 * ln N) + ln (1 + Dc / D).
Proof.
  assert (0 < rs / rw - 1) by (apply buoyant_pos; assumption). pose proof s_p as Hs.
  assert (0 < Dc / D) by rpos. assert (0 < 1 + Dc / D) by lra. assert (0 < sqrt N) by rpos.
  pose proof E as E'. unfold scaravaglione in E'. fold s in E'. apply (f_equal ln) in E'. revert E'. ln_push. lra.
Qed.

Lemma sc_damage : value (calculate_damage_number_S (Fin H) (Fin T) (Fin N) (Fin cot) (Fin rs) rc (Fin D) (Fin Dc)
  m50 mc (Fin c) (Fin rw)) = Ok (Fin S).
Proof.
  unfold calculate_damage_number_S. rewrite !usage_fin, !bind_ret_l. mval. rewrite checks_sc. mval.
  change g_default with (Fin g0). rewrite steepness_fin, Ns_fin by (assumption || apply g0_pos). fold s.
  assert (HDe : 0 < buoyant rs rw) by (apply buoyant_pos; assumption). pose proof s_p as Hs.
  assert (0 < Dc / D) by rpos. assert (0 < 1 + Dc / D) by lra. assert (0 < sqrt N) by rpos.
  assert (0 < 1 / cot) by rpos. assert (0 < buoyant rs rw * D) by rpos.
  nfin. do 2 f_equal. pose proof E_log as L. unfold buoyant in *. ln_eq. rewrite ?ln_1. lra.
Qed.

Lemma sc_diameter : value (calculate_nominal_rock_diameter_Dn50 (Fin H) (Fin T) (Fin N) (Fin cot) (Fin rs) rc (Fin S)
  (Fin Dc) mc (Fin c) (Fin rw)) = Ok (Fin D).
Proof.
  unfold calculate_nominal_rock_diameter_Dn50. rewrite !usage_fin, !bind_ret_l. mval. rewrite checks_sc. mval.
  change g_default with (Fin g0). rewrite steepness_fin, Delta_fin by (assumption || lra || apply g0_pos). fold s.
  assert (HDe : 0 < buoyant rs rw) by (apply buoyant_pos; assumption). pose proof s_p as Hs.
  assert (0 < Dc / D) by rpos. assert (0 < 1 + Dc / D) by lra. assert (0 < sqrt N) by rpos.
  assert (0 < S / sqrt N) by rpos. assert (0 < sqrt cot) by rpos.
  nfin. do 2 f_equal. pose proof E_log as L. unfold buoyant in *.
  assert (Q : H / (rs / rw - 1) * (1 / c) * Rpower (S / sqrt N) (- (0.2)) * (1 / sqrt cot) * Rpower s (- (0.1)) = D * (1 + Dc / D)).
  { ln_eq. rewrite ?ln_1. lra. }
  rewrite Q. field. lra.
Qed.

Lemma sc_height : value (calculate_significant_wave_height_Hm0 (Fin T) (Fin N) (Fin cot) (Fin rs) rc (Fin S) (Fin D)
  (Fin Dc) m50 mc (Fin c) (Fin g0) (Fin rw)) = Ok (Fin H).
Proof.
  unfold calculate_significant_wave_height_Hm0. rewrite !usage_fin, !bind_ret_l. mval. rewrite checks_sc. mval.
  rewrite Delta_fin by (assumption || lra). pose proof g0_pos.
  assert (HDe : 0 < buoyant rs rw) by (apply buoyant_pos; assumption). pose proof s_p as Hs.
  assert (0 < Dc / D) by rpos. assert (0 < 1 + Dc / D) by lra. assert (0 < sqrt N) by rpos.
  assert (0 < S / sqrt N) by rpos. assert (0 < sqrt cot) by rpos. assert (0 < 2 * PI / (g0 * T ^ 2)) by rpos.
  nfin. do 2 f_equal. pose proof E_log as L. unfold buoyant in *.
  assert (Q : ln s = ln (2 * PI / (g0 * T ^ 2)) + ln H).
  { rewrite <- ln_mult by assumption. f_equal. unfold s, steepness. field. split; lra. }
  rewrite Q in L. set (q := 2 * PI / (g0 * T ^ 2)) in *. ln_eq. rewrite ?ln_1. lra.
Qed.
End Bridge.

(** On every point of the published relation the three functions return the
    corresponding coordinates. *)
Theorem C48_functions_agree_with_relation :
  forall H D T N cot rs rw Dc c S m50 mc rc,
    0 < H -> 0 < D -> 0 < T -> 0 < N -> 0 < cot -> 0 < rw -> rw < rs -> 0 < Dc -> 0 < c -> 0 < S ->
    scaravaglione c N cot (steepness g0 H T) (rs / rw - 1) D Dc S H ->
    value (calculate_damage_number_S (Fin H) (Fin T) (Fin N) (Fin cot) (Fin rs) rc (Fin D) (Fin Dc) m50 mc (Fin c)
             (Fin rw)) = Ok (Fin S)
    /\ value (calculate_nominal_rock_diameter_Dn50 (Fin H) (Fin T) (Fin N) (Fin cot) (Fin rs) rc (Fin S) (Fin Dc) mc
             (Fin c) (Fin rw)) = Ok (Fin D)
    /\ value (calculate_significant_wave_height_Hm0 (Fin T) (Fin N) (Fin cot) (Fin rs) rc (Fin S) (Fin D) (Fin Dc) m50
             mc (Fin c) (Fin g0) (Fin rw)) = Ok (Fin H).
Proof.
  intros. split; [|split]; [apply sc_damage|apply sc_diameter|apply sc_height]; assumption.
Qed.

(** Each point (H, D) has a damage level and each (S, D) a wave height. *)
Theorem C48_damage_total :
  forall H D T N cot rs rw Dc c, 0 < H -> 0 < D -> 0 < T -> 0 < N -> 0 < cot -> 0 < rw -> rw < rs -> 0 < Dc -> 0 < c ->
    exists S, 0 < S /\ scaravaglione c N cot (steepness g0 H T) (rs / rw - 1) D Dc S H.
Proof.
  intros. assert (0 < rs / rw - 1) by (apply buoyant_pos; assumption).
  assert (0 < steepness g0 H T) by (apply steepness_pos; try assumption; apply g0_pos).
  assert (0 < Dc / D) by rpos. assert (0 < 1 + Dc / D) by lra. assert (0 < sqrt N) by rpos. assert (0 < sqrt cot) by rpos.
  set (s := steepness g0 H T) in *.
  exists (Rpower (H / ((rs / rw - 1) * D) / (c * sqrt cot * Rpower s 0.1 * (1 + Dc / D))) 5 * sqrt N).
  split; [rpos|]. unfold scaravaglione.
  replace (Rpower (H / ((rs / rw - 1) * D) / (c * sqrt cot * Rpower s 0.1 * (1 + Dc / D))) 5 * sqrt N / sqrt N)
    with (Rpower (H / ((rs / rw - 1) * D) / (c * sqrt cot * Rpower s 0.1 * (1 + Dc / D))) 5) by (field; lra).
  rewrite Rpower_cancel by (try lra; rpos). pose proof (Rpower_pos s 0.1). field. repeat split; lra.
Qed.
Theorem C48_wave_height_total :
  forall D T N cot rs rw Dc c S, 0 < D -> 0 < T -> 0 < N -> 0 < cot -> 0 < rw -> rw < rs -> 0 < Dc -> 0 < c -> 0 < S ->
    exists H, 0 < H /\ scaravaglione c N cot (steepness g0 H T) (rs / rw - 1) D Dc S H.
Proof.
  intros. assert (0 < rs / rw - 1) by (apply buoyant_pos; assumption). pose proof g0_pos.
  assert (0 < Dc / D) by rpos. assert (0 < 1 + Dc / D) by lra. assert (0 < sqrt N) by rpos. assert (0 < sqrt cot) by rpos.
  set (q := 2 * PI / (g0 * T ^ 2)). assert (0 < q) by (unfold q; rpos). assert (0 < S / sqrt N) by rpos.
  set (h := Rpower ((rs / rw - 1) * D * c * sqrt cot * Rpower q 0.1 * Rpower (S / sqrt N) 0.2 * (1 + Dc / D)) (1 / 0.9)).
  assert (0 < h) by apply Rpower_pos. exists h. split; [assumption|]. unfold scaravaglione.
  replace (steepness g0 h T) with (q * h) by (unfold q, steepness; field; split; lra).
  assert (L : 0.9 * ln h = ln ((rs / rw - 1) * D * c * sqrt cot * Rpower q 0.1 * Rpower (S / sqrt N) 0.2 * (1 + Dc / D))).
  { unfold h. rewrite ln_Rpower. lra. }
  revert L. set (d := S / sqrt N) in *. set (De := rs / rw - 1) in *. ln_push. intros L. ln_eq. lra.
Qed.

(** The diameter solves the relation exactly when what the formula leaves after
    subtracting the core diameter is positive; otherwise no diameter has the
    prescribed damage and the function returns a non-positive one. *)
Theorem C48_diameter_exists_or_nonpositive :
  forall H T N cot rs rw Dc c S mc rc,
    0 < H -> 0 < T -> 0 < N -> 0 < cot -> 0 < rw -> rw < rs -> 0 < Dc -> 0 < c -> 0 < S ->
    exists D, value (calculate_nominal_rock_diameter_Dn50 (Fin H) (Fin T) (Fin N) (Fin cot) (Fin rs) rc (Fin S)
                       (Fin Dc) mc (Fin c) (Fin rw)) = Ok (Fin D)
      /\ (0 < D -> scaravaglione c N cot (steepness g0 H T) (rs / rw - 1) D Dc S H)
      /\ (D <= 0 -> forall D', 0 < D' -> ~ scaravaglione c N cot (steepness g0 H T) (rs / rw - 1) D' Dc S H).
Proof.
  intros H T N cot rs rw Dc c S mc rc HH HT HN Hcot Hrw Hrs HDc Hc HS.
  assert (HDe : 0 < buoyant rs rw) by (apply buoyant_pos; assumption).
  assert (Hs : 0 < steepness g0 H T) by (apply steepness_pos; try assumption; apply g0_pos).
  assert (0 < sqrt N) by rpos. assert (0 < S / sqrt N) by rpos. assert (0 < sqrt cot) by rpos.
  set (s := steepness g0 H T) in *.
  set (A := H / buoyant rs rw * (1 / c) * Rpower (S / sqrt N) (- (0.2)) * (1 / sqrt cot) * Rpower s (- (0.1))).
  exists (A - Dc). split; [|split].
  - unfold calculate_nominal_rock_diameter_Dn50. rewrite !usage_fin, !bind_ret_l. mval. rewrite checks_sc. mval.
    change g_default with (Fin g0). rewrite steepness_fin, Delta_fin by (assumption || lra || apply g0_pos).
    fold s. nfin. reflexivity.
  - intros HD. set (D := A - Dc) in *. unfold scaravaglione.
    assert (EA : D * (1 + Dc / D) = A) by (unfold D in *; field; lra).
    assert (0 < 1 + Dc / D) by (assert (0 < Dc / D) by rpos; lra).
    assert (0 < A) by (unfold A; rpos).
    assert (LA : ln D + ln (1 + Dc / D) = ln A) by (rewrite <- ln_mult by assumption; f_equal; exact EA).
    revert LA. unfold A. set (d := S / sqrt N) in *. ln_push. rewrite ?ln_1. intros LA. unfold buoyant in *.
    set (De := rs / rw - 1) in *. ln_eq. lra.
  - intros L D' HD' E.
    pose proof (sc_diameter H D' T N cot rs rw Dc c S mc rc HH HD' HT HN Hcot Hrw Hrs HDc Hc HS E) as V.
    unfold calculate_nominal_rock_diameter_Dn50 in V. rewrite !usage_fin, !bind_ret_l in V. revert V. mval.
    rewrite checks_sc. mval.
    change g_default with (Fin g0). rewrite steepness_fin, Delta_fin by (assumption || lra || apply g0_pos).
    fold s. nfin. fold A. intros V. injection V as V. lra.
Qed.

(** Damage grows with the wave height to the power 4.5. *)
Theorem C48_damage_by_wave_height :
  forall H k D T N cot rs rw Dc c m50 mc rc,
    0 < H -> 0 < k -> 0 < D -> 0 < T -> 0 < N -> 0 < cot -> 0 < rw -> rw < rs -> 0 < Dc -> 0 < c ->
    exists S, 0 < S
      /\ value (calculate_damage_number_S (Fin H) (Fin T) (Fin N) (Fin cot) (Fin rs) rc (Fin D) (Fin Dc) m50 mc (Fin c)
             (Fin rw)) = Ok (Fin S)
      /\ value (calculate_damage_number_S (Fin (k * H)) (Fin T) (Fin N) (Fin cot) (Fin rs) rc (Fin D) (Fin Dc) m50 mc
             (Fin c) (Fin rw)) = Ok (Fin (S * Rpower k 4.5)).
Proof.
  intros H k D T N cot rs rw Dc c m50 mc rc HH Hk HD HT HN Hcot Hrw Hrs HDc Hc.
  destruct (C48_damage_total H D T N cot rs rw Dc c) as (S & HS & E); try assumption.
  exists S. split; [assumption|]. split; [apply sc_damage; assumption|].
  apply sc_damage; try assumption; try rpos.
  pose proof (E_log H D T N cot rs rw Dc c S HH HD HT HN Hcot Hrw Hrs HDc Hc HS E) as L.
  assert (0 < rs / rw - 1) by (apply buoyant_pos; assumption). pose proof g0_pos.
  assert (0 < Dc / D) by rpos. assert (0 < 1 + Dc / D) by lra. assert (0 < sqrt N) by rpos. assert (0 < sqrt cot) by rpos.
  assert (Hs : 0 < steepness g0 H T) by (apply steepness_pos; assumption).
  unfold scaravaglione. replace (steepness g0 (k * H) T) with (k * steepness g0 H T) by (unfold steepness; field; split; lra).
  set (s := steepness g0 H T) in *. set (De := rs / rw - 1) in *. ln_eq. lra.
Qed.

Example C48_example :
  exists S, (value (calculate_damage_number_S #2 #6 #2000 #2 #2650 NaN #1 #0.3 NaN NaN c_VGnew_default #1025) = Ok (Fin S)
    /\ value (calculate_nominal_rock_diameter_Dn50 #2 #6 #2000 #2 #2650 NaN (Fin S) #0.3 NaN c_VGnew_default #1025) = Ok #1
    /\ value (calculate_significant_wave_height_Hm0 #6 #2000 #2 #2650 NaN (Fin S) #1 #0.3 NaN NaN c_VGnew_default #9.81 #1025)
       = Ok #2)%num.
Proof.
  destruct (C48_damage_total 2 1 6 2000 2 2650 1025 0.3 3.3) as (S & HS & E); try lra.
  exists S. apply C48_functions_agree_with_relation; try lra; assumption.
Qed.
