(** Properties C13 to C16: overtopping of TAW (2002). *)
From Coq Require Import Reals Lra Lia List Bool String Psatz.
From Verif.Lib Require Import Num Monad RTac NTac.
From Verif.Spec Require Import Waves Ranges Reports Taw Overtopping.
From Verif.Model Require Import CoreUtility CorePhysics RunupTAW2002 OvertoppingTAW2002.
From Verif.Proofs Require Import Core CheckTac Warns Reports Taw Overtopping.
From Verif.Props Require Import RunupTAW.
Import ListNotations.
Open Scope R_scope.

(** ** Evaluation *)
Lemma taw_q_check_ok H T beta cot cd cu gf gb gbeta gv : value (check_validity_range H T beta cot cd cu gf gb gbeta gv) = Ok tt.
Proof. unfold check_validity_range. mchecks. reflexivity. Qed.

(** The factors of a simple slope. *)
Definition angle_factor (beta : num) (x : R) : Prop := exists b, beta = Fin b /\ x = taw_oblique 0.0033 b.
Definition berm_factor (H T cot B : R) (db : num) (gbeta : R) (gf : num) (x : R) : Prop :=
  value (iteration_procedure_gamma_b (Fin H) (Fin T) (Fin cot) (Fin B) (Fin (1 * H * cot + B + 1 * H * cot)) db (Fin gbeta)
           c1_default RunupTAW2002.c2_default c3_default c4_default false gf) = Ok (Fin x).

Lemma factors_simple H T cot (cu beta db gbeta' gb' : num) B gf gbeta gb : 0 < H -> 0 < T -> 0 < cot ->
  known_or (angle_factor beta) gbeta' gbeta ->
  known_or (berm_factor H T cot B db gbeta (Fin gf)) gb' gb ->
  let xi := iribarren g0 H T (1 / cot) in
  value (influence_factors (Fin H) (Fin T) (Fin cot) NaN cu beta (Fin B) db gbeta' gb' (Fin gf))
  = Ok (Fin gbeta, Fin cot, Fin xi, Fin gb, Fin (taw_roughness gf gb xi)).
Proof.
  intros HH HT HC HB HG xi. unfold influence_factors.
  assert (G : exists cg, check_calculate_gamma_beta beta gbeta' = ret cg
     /\ (if cg then calculate_influence_oblique_waves_gamma_beta beta c_gamma_beta_default max_angle_default else gbeta') = Fin gbeta).
  { destruct HB as [x|x (b & -> & ->)].
    - exists false. rewrite beta_known. split; reflexivity.
    - exists true. split; [reflexivity|]. unfold calculate_influence_oblique_waves_gamma_beta, c_gamma_beta_default.
      change max_angle_default with RunupTAW2002.max_angle_default. apply oblique_fin. }
  destruct G as (cg & -> & Ecg). rewrite bind_ret_l. cbv zeta. rewrite Ecg.
  rewrite simple_slope, !bind_ret_l. rewrite iribarren_fin by lra. fold xi.
  destruct HG as [x|x V].
  - cbn [isnan]. rewrite bind_ret_l, roughness_fin. reflexivity.
  - cbn [isnan]. assert (L : calculate_berm_length (Fin H) (Fin B) (Fin cot) NaN cu = ret (Fin (1 * H * cot + B + 1 * H * cot))).
    { unfold calculate_berm_length. rewrite simple_slope, bind_ret_l. cbv iota. nfin. reflexivity. }
    rewrite L, bind_ret_l. unfold berm_factor in V. mval. rewrite V. mval. rewrite roughness_fin. reflexivity.
Qed.

Lemma bind_ext {A B} (m : M A) (k k' : A -> M B) : (forall a, k a = k' a) -> bind m k = bind m k'.
Proof. intros E. destruct m as [w [a|e]]; [|reflexivity]. unfold bind. rewrite E. reflexivity. Qed.

Lemma roughness_pos gf gb xi : 0 < gf <= 1 -> 0 < gb <= 1 -> 0 < xi -> 0 < taw_roughness gf gb xi.
Proof.
  intros. unfold taw_roughness. destruct (Rle_dec 1.8 (gb * xi)); [destruct (Rle_dec (gb * xi) 10)|]; try lra.
  assert (1.8 <= xi) by nra. assert (0 <= (1 - gf) * ((xi - 1.8) / 8.2)) by (apply Rmult_le_pos; lra). lra.
Qed.

Lemma coefficients_fin bf sigma c1 c3 : taw_coefficients bf sigma c1 c3 ->
  exists a b cor1 cor3, coefficients bf = (Fin a, Fin b) /\ corrections (Fin sigma) bf = ret (Some (Fin cor1, Fin cor3))
    /\ c1 = a + cor1 /\ c3 = b + cor3.
Proof.
  destruct 1 as [|sigma]; unfold coefficients, corrections; nfin.
  - exists 4.3, 2.3, 0, 0. rewrite Reqb_true by reflexivity. repeat split; lra.
  - exists 4.75, 2.6, (0.5 * sigma), (0.35 * sigma). destruct (Reqb sigma 0) eqn:E; [|repeat split; reflexivity].
    apply Reqb_iff in E. subst. repeat split. do 3 f_equal; f_equal; lra.
Qed.

Section Simple.
Variables (H T cot B gf gbeta gb gv sigma c1 c3 : R) (cu beta db gbeta' gb' : num) (bf : bool).
Hypotheses (HH : 0 < H) (HT : 0 < T) (HC : 0 < cot).
Hypothesis (Hcoef : taw_coefficients bf sigma c1 c3).
Hypothesis (HB : known_or (angle_factor beta) gbeta' gbeta).
Hypothesis (HG : known_or (berm_factor H T cot B db gbeta (Fin gf)) gb' gb).
Hypotheses (Hgf : 0 < gf <= 1) (Hgb : 0 < gb <= 1) (Hgbeta : 0 < gbeta) (Hgv : 0 < gv).

Let xi := iribarren g0 H T (1 / cot).
Let f := taw_roughness gf gb xi.
Let A1 := 0.067 / sqrt (1 / cot) * gb * xi.
Let B1 := xi * gb * f * gbeta * gv / c1.
Let B2 := f * gbeta / c3.

Lemma xi_positive : 0 < xi.
Proof. apply iribarren_pos; try assumption; [apply g0_pos|rpos]. Qed.
Lemma f_positive : 0 < f.
Proof. apply roughness_pos; try assumption. apply xi_positive. Qed.
Lemma A1_positive : 0 < A1.
Proof. pose proof xi_positive. unfold A1. assert (0 < sqrt (1 / cot)) by (apply sqrt_lt_R0; rpos). rpos. Qed.
Lemma B1_positive : 0 < c1 -> 0 < B1.
Proof. intros. pose proof xi_positive. pose proof f_positive. unfold B1. rpos. Qed.
Lemma B2_positive : 0 < c3 -> 0 < B2.
Proof. intros. pose proof f_positive. unfold B2. rpos. Qed.

Lemma slope_regime r : 0 < c1 -> taw_q_slope c1 (1 / cot) gb f gbeta gv xi r = regime A1 B1 r.
Proof.
  intros. pose proof xi_positive. pose proof f_positive. unfold taw_q_slope, regime, A1, B1. do 3 f_equal. field. repeat split; lra.
Qed.
Lemma max_regime r : 0 < c3 -> taw_q_max c3 f gbeta r = regime 0.2 B2 r.
Proof.
  intros. pose proof f_positive. unfold taw_q_max, regime, B2. do 3 f_equal. field. repeat split; lra.
Qed.

Lemma discharge_value Rc g : 0 < g ->
  value (calculate_overtopping_discharge_q (Fin H) (Fin T) (Fin Rc) (Fin cot) NaN cu beta (Fin B) db gbeta' gb' (Fin gf) (Fin gv) (Fin sigma) (Fin g) bf)
  = Ok (Fin (taw_q c1 c3 (1 / cot) gb gf gbeta gv xi (Rc / H) * q_unit g H),
        Reqb (taw_q c1 c3 (1 / cot) gb gf gbeta gv xi (Rc / H)) (taw_q_max c3 f gbeta (Rc / H))).
Proof.
  intros Hg. pose proof xi_positive as X. pose proof f_positive as F.
  destruct (coefficients_fin bf sigma c1 c3 Hcoef) as (a & b & cor1 & cor3 & E1 & E2 & E3 & E4).
  unfold calculate_overtopping_discharge_q, calculate_dimensionless_overtopping_discharge_q.
  rewrite E1, E2, bind_ret_l. mval.
  rewrite (factors_simple H T cot cu beta db gbeta' gb' B gf gbeta gb HH HT HC HB HG). fold xi f. mval.
  rewrite taw_q_check_ok. mval. unfold q_diml_max_equation, c2_default.
  assert (S : 0 < sqrt (1 / cot)) by (apply sqrt_lt_R0; rpos).
  assert (P1 : xi * gb * f * gbeta * gv <> 0) by (apply Rgt_not_eq; rpos). assert (P2 : f * gbeta <> 0) by (apply Rgt_not_eq; rpos).
  rewrite q_unit_fin by assumption. nfin.
  assert (Q1 : 0.067 / sqrt (1 / cot) * xi * gb * exp (- (1) * (a + cor1) * (Rc / H) * (1 / (xi * gb * f * gbeta * gv))) = taw_q_slope c1 (1 / cot) gb f gbeta gv xi (Rc / H)).
  { unfold taw_q_slope. rewrite E3. replace (0.067 / sqrt (1 / cot) * xi * gb) with (0.067 / sqrt (1 / cot) * gb * xi) by ring. do 2 f_equal. field. repeat split; lra. }
  assert (Q2 : 0.2 * exp (- (1) * (b + cor3) * (Rc / H) * (1 / (f * gbeta))) = taw_q_max c3 f gbeta (Rc / H)).
  { unfold taw_q_max. rewrite E4. do 2 f_equal. field. repeat split; lra. }
  rewrite Q1, Q2. reflexivity.
Qed.

Lemma freeboard_value q g : 0 < c1 -> 0 < c3 -> 0 < g -> 0 < q ->
  let Rmax := solve_regime 0.2 B2 (q / q_unit g0 H) in
  let R := Rmin (solve_regime A1 B1 (q / q_unit g H)) Rmax in
  value (calculate_crest_freeboard_Rc (Fin H) (Fin T) (Fin q) (Fin cot) NaN cu beta (Fin B) db gbeta' gb' (Fin gf) (Fin gv) (Fin sigma) (Fin g) bf)
  = Ok (Fin (R * H), Reqb R Rmax).
Proof.
  intros P1 P3 Hg Hq Rmax R0. pose proof xi_positive as X. pose proof f_positive as F.
  destruct (coefficients_fin bf sigma c1 c3 Hcoef) as (a & b & cor1 & cor3 & E1 & E2 & E3 & E4).
  unfold calculate_crest_freeboard_Rc, calculate_dimensionless_crest_freeboard.
  rewrite E1, E2, bind_ret_l. mval.
  rewrite (factors_simple H T cot cu beta db gbeta' gb' B gf gbeta gb HH HT HC HB HG). fold xi f. mval.
  rewrite taw_q_check_ok. mval. unfold Rc_diml_max_equation, c2_default.
  assert (S : 0 < sqrt (1 / cot)) by (apply sqrt_lt_R0; rpos).
  unfold g_default. fold g0. pose proof g0_pos as G0. pose proof (q_unit_pos g H Hg HH) as U. pose proof (q_unit_pos g0 H G0 HH) as U0.
  rewrite !q_unit_fin by assumption.
  nfin.
  assert (Z1 : 0 < 1 / 0.067 * sqrt (1 / cot) * (1 / gb) * (1 / xi) * q / q_unit g H) by rpos.
  assert (Z2 : 0 < 1 / 0.2 * q / q_unit g0 H) by rpos.
  assert (Q1 : ln (1 / 0.067 * sqrt (1 / cot) * (1 / gb) * (1 / xi) * q / q_unit g H) * (- (1) / (a + cor1)) * xi * gb * f * gbeta * gv = solve_regime A1 B1 (q / q_unit g H)).
  { unfold solve_regime, B1. rewrite <- E3.
    replace (ln A1 - ln (q / q_unit g H)) with (- ln (1 / 0.067 * sqrt (1 / cot) * (1 / gb) * (1 / xi) * q / q_unit g H)).
    - field. lra.
    - unfold A1. assert (0 < q / q_unit g H) by rpos. assert (0 < 0.067 / sqrt (1 / cot) * gb * xi) by rpos. rewrite <- (ln_div (0.067 / sqrt (1 / cot) * gb * xi)) by assumption.
      rewrite <- ln_Rinv by assumption. f_equal. rfield; lra. }
  assert (Q2 : ln (1 / 0.2 * q / q_unit g0 H) * (- (1) / (b + cor3)) * f * gbeta = Rmax).
  { unfold Rmax, solve_regime, B2. rewrite <- E4.
    replace (ln 0.2 - ln (q / q_unit g0 H)) with (- ln (1 / 0.2 * q / q_unit g0 H)).
    - field. lra.
    - assert (0 < q / q_unit g0 H) by rpos. rewrite <- (ln_div 0.2) by (assumption || lra).
      rewrite <- ln_Rinv by assumption. f_equal. rfield; lra. }
  rewrite Q1, Q2. reflexivity.
Qed.
End Simple.

(** ** C13: discharge and freeboard *)

(** The discharge over a simple slope is the smaller of the published formula and
    its maximum, the flag tells which; the factors for the angle and the berm are
    those given, or else calculated. *)
Theorem C13_discharge : forall H T Rc cot B gf gbeta gb gv sigma c1 c3 g (cu beta db gbeta' gb' : num) bf,
  0 < H -> 0 < T -> 0 < cot -> 0 < g -> taw_coefficients bf sigma c1 c3 ->
  known_or (angle_factor beta) gbeta' gbeta -> known_or (berm_factor H T cot B db gbeta (Fin gf)) gb' gb ->
  0 < gf <= 1 -> 0 < gb <= 1 -> 0 < gbeta -> 0 < gv ->
  let xi := iribarren g0 H T (1 / cot) in
  let f := taw_roughness gf gb xi in
  exists reached,
  value (calculate_overtopping_discharge_q (Fin H) (Fin T) (Fin Rc) (Fin cot) NaN cu beta (Fin B) db gbeta' gb' (Fin gf) (Fin gv) (Fin sigma) (Fin g) bf)
  = Ok (Fin (taw_q c1 c3 (1 / cot) gb gf gbeta gv xi (Rc / H) * q_unit g H), reached)
  /\ (reached = true <-> taw_q_max c3 f gbeta (Rc / H) <= taw_q_slope c1 (1 / cot) gb f gbeta gv xi (Rc / H)).
Proof.
  intros H T Rc cot B gf gbeta gb gv sigma c1 c3 g cu beta db gbeta' gb' bf HH HT HC Hg Hc HB HG Hgf Hgb Hgbeta Hgv xi f.
  eexists. rewrite (discharge_value H T cot B gf gbeta gb gv sigma c1 c3) by assumption. split; [reflexivity|].
  apply reached_iff.
Qed.

(** At standard gravity the two functions are exact inverses of each other, and
    report the same regime. *)
Theorem C13_round_trip : forall H T Rc q cot B gf gbeta gb gv sigma c1 c3 (cu beta db gbeta' gb' : num) bf reached,
  0 < H -> 0 < T -> 0 < cot -> taw_coefficients bf sigma c1 c3 -> -7 < sigma ->
  known_or (angle_factor beta) gbeta' gbeta -> known_or (berm_factor H T cot B db gbeta (Fin gf)) gb' gb ->
  0 < gf <= 1 -> 0 < gb <= 1 -> 0 < gbeta -> 0 < gv -> 0 < q ->
  (value (calculate_overtopping_discharge_q (Fin H) (Fin T) (Fin Rc) (Fin cot) NaN cu beta (Fin B) db gbeta' gb' (Fin gf) (Fin gv) (Fin sigma) g_default bf)
     = Ok (Fin q, reached)
   <-> value (calculate_crest_freeboard_Rc (Fin H) (Fin T) (Fin q) (Fin cot) NaN cu beta (Fin B) db gbeta' gb' (Fin gf) (Fin gv) (Fin sigma) g_default bf)
     = Ok (Fin Rc, reached)).
Proof.
  intros H T Rc q cot B gf gbeta gb gv sigma c1 c3 cu beta db gbeta' gb' bf reached HH HT HC Hc Hs HB HG Hgf Hgb Hgbeta Hgv Hq.
  unfold g_default. fold g0. pose proof g0_pos as G0. pose proof (q_unit_pos g0 H G0 HH) as U.
  assert (P : 0 < c1 /\ 0 < c3) by (destruct Hc; lra). destruct P as [P1 P3].
  rewrite (discharge_value H T cot B gf gbeta gb gv sigma c1 c3) by assumption.
  rewrite (freeboard_value H T cot B gf gbeta gb gv sigma c1 c3) by assumption.
  set (xi := iribarren g0 H T (1 / cot)). set (f := taw_roughness gf gb xi).
  set (A1 := 0.067 / sqrt (1 / cot) * gb * xi). set (B1 := xi * gb * f * gbeta * gv / c1). set (B2 := f * gbeta / c3).
  assert (PA : 0 < A1) by (apply (A1_positive H T cot gb); assumption).
  assert (PB1 : 0 < B1) by (apply (B1_positive H T cot gf gbeta gb gv c1); assumption).
  assert (PB2 : 0 < B2) by (apply (B2_positive H T cot gf gbeta gb c3); assumption).
  assert (ES : taw_q_slope c1 (1 / cot) gb f gbeta gv xi (Rc / H) = regime A1 B1 (Rc / H)) by (apply (slope_regime H T cot gf gbeta gb gv c1); assumption).
  assert (EM : taw_q_max c3 f gbeta (Rc / H) = regime 0.2 B2 (Rc / H)) by (apply (max_regime H T cot gf gbeta gb c3); assumption).
  unfold taw_q. cbv zeta. fold f. rewrite ES, EM.
  set (Q := q / q_unit g0 H). assert (PQ : 0 < Q) by (unfold Q; rpos). assert (EQ : q = Q * q_unit g0 H) by (unfold Q; field; lra).
  assert (P02 : 0 < 0.2) by lra.
  pose proof (two_regimes A1 B1 0.2 B2 (Rc / H) Q PA PB1 P02 PB2 PQ) as TR.
  pose proof (two_regimes_governing A1 B1 0.2 B2 (Rc / H) Q PA PB1 P02 PB2 PQ) as TG.
  assert (FL : Q = Rmin (regime A1 B1 (Rc / H)) (regime 0.2 B2 (Rc / H)) ->
    Reqb (Rmin (regime A1 B1 (Rc / H)) (regime 0.2 B2 (Rc / H))) (regime 0.2 B2 (Rc / H))
    = Reqb (Rmin (solve_regime A1 B1 Q) (solve_regime 0.2 B2 Q)) (solve_regime 0.2 B2 Q)).
  { intros E. specialize (TG E). apply Bool.eq_iff_eq_true. rewrite !reached_iff. exact TG. }
  split; intros E; injection E as E <-.
  - assert (E' : Q = Rmin (regime A1 B1 (Rc / H)) (regime 0.2 B2 (Rc / H))) by (unfold Q; rewrite <- E; field; lra).
    rewrite FL by exact E'. apply TR in E'. rewrite <- E'. do 3 f_equal. field. lra.
  - assert (E' : Rc / H = Rmin (solve_regime A1 B1 Q) (solve_regime 0.2 B2 Q)) by (rewrite <- E; field; lra).
    apply TR in E'. rewrite <- FL by exact E'. rewrite <- E'. rewrite EQ. reflexivity.
Qed.

(** The freeboard function ignores its argument g where the maximum governs: for
    any other gravity the freeboard it returns is wrong there, too low for a larger
    and too high for a smaller one. *)
Theorem C13_other_gravity : forall H T Rc cot B gf gbeta gb gv sigma c1 c3 g (cu beta db gbeta' gb' : num) bf,
  0 < H -> 0 < T -> 0 < cot -> taw_coefficients bf sigma c1 c3 -> -7 < sigma ->
  known_or (angle_factor beta) gbeta' gbeta -> known_or (berm_factor H T cot B db gbeta (Fin gf)) gb' gb ->
  0 < gf <= 1 -> 0 < gb <= 1 -> 0 < gbeta -> 0 < gv -> 0 < g -> g <> 9.81 ->
  let xi := iribarren g0 H T (1 / cot) in
  let f := taw_roughness gf gb xi in
  taw_q_max c3 f gbeta (Rc / H) < taw_q_slope c1 (1 / cot) gb f gbeta gv xi (Rc / H) ->
  exists q Rc' reached reached',
    value (calculate_overtopping_discharge_q (Fin H) (Fin T) (Fin Rc) (Fin cot) NaN cu beta (Fin B) db gbeta' gb' (Fin gf) (Fin gv) (Fin sigma) (Fin g) bf)
      = Ok (Fin q, reached)
    /\ value (calculate_crest_freeboard_Rc (Fin H) (Fin T) (Fin q) (Fin cot) NaN cu beta (Fin B) db gbeta' gb' (Fin gf) (Fin gv) (Fin sigma) (Fin g) bf)
      = Ok (Fin Rc', reached')
    /\ (if Rlt_dec 9.81 g then Rc' < Rc else Rc < Rc').
Proof.
  intros H T Rc cot B gf gbeta gb gv sigma c1 c3 g cu beta db gbeta' gb' bf HH HT HC Hc Hs HB HG Hgf Hgb Hgbeta Hgv Hg Ng xi f M.
  pose proof g0_pos as G0. pose proof (q_unit_pos g0 H G0 HH) as U0. pose proof (q_unit_pos g H Hg HH) as U.
  assert (P : 0 < c1 /\ 0 < c3) by (destruct Hc; lra). destruct P as [P1 P3].
  set (A1 := 0.067 / sqrt (1 / cot) * gb * xi). set (B1 := xi * gb * f * gbeta * gv / c1). set (B2 := f * gbeta / c3).
  assert (PA : 0 < A1) by (apply (A1_positive H T cot gb); assumption).
  assert (PB1 : 0 < B1) by (apply (B1_positive H T cot gf gbeta gb gv c1); assumption).
  assert (PB2 : 0 < B2) by (apply (B2_positive H T cot gf gbeta gb c3); assumption).
  assert (ES : taw_q_slope c1 (1 / cot) gb f gbeta gv xi (Rc / H) = regime A1 B1 (Rc / H)) by (apply (slope_regime H T cot gf gbeta gb gv c1); assumption).
  assert (EM : taw_q_max c3 f gbeta (Rc / H) = regime 0.2 B2 (Rc / H)) by (apply (max_regime H T cot gf gbeta gb c3); assumption).
  rewrite ES, EM in M. set (Q := regime 0.2 B2 (Rc / H)) in *. assert (PQ : 0 < Q) by (apply regime_pos; lra).
  exists (Q * q_unit g H). eexists. eexists. eexists.
  split; [|split].
  - rewrite (discharge_value H T cot B gf gbeta gb gv sigma c1 c3) by assumption. fold xi f.
    unfold taw_q. cbv zeta. fold f. rewrite ES, EM. rewrite Rmin_right by lra. reflexivity.
  - rewrite (freeboard_value H T cot B gf gbeta gb gv sigma c1 c3) by (assumption || rpos). reflexivity.
  - fold xi f. fold A1 B1 B2. replace (Q * q_unit g H / q_unit g H) with Q by (field; lra).
    assert (S1 : Rc / H < solve_regime A1 B1 Q) by (apply regime_lt; assumption).
    assert (S2 : solve_regime 0.2 B2 (Q * q_unit g H / q_unit g0 H) = Rc / H - B2 * (/ 2 * ln (g / g0))).
    { assert (E : Rc / H = solve_regime 0.2 B2 Q) by (apply regime_eq; (assumption || lra || reflexivity)).
      rewrite E. unfold solve_regime. rewrite ln_div by (try assumption; rpos). rewrite ln_mult by assumption.
      rewrite (q_unit_gravity g g0 H) by assumption. ring. }
    rewrite S2. assert (ER : Rc = Rc / H * H) by (field; lra).
    destruct (Rlt_dec 9.81 g) as [L|L].
    + assert (0 < ln (g / g0)). { rewrite <- ln_1. apply ln_increasing; [lra|]. apply (Rmult_lt_reg_r g0); [assumption|]. unfold Rdiv. rewrite Rmult_assoc, Rinv_l by lra. unfold g0. lra. }
      assert (0 < B2 * (/ 2 * ln (g / g0))) by rpos.
      rewrite Rmin_right by lra. rewrite ER at 2. apply Rmult_lt_compat_r; lra.
    + assert (ln (g / g0) < 0). { rewrite <- ln_1. apply ln_increasing; [rpos|]. apply (Rmult_lt_reg_r g0); [assumption|]. unfold Rdiv. rewrite Rmult_assoc, Rinv_l by lra. unfold g0. lra. }
      assert (B2 * (/ 2 * ln (g / g0)) < 0). { assert (0 < B2 * (/ 2 * - ln (g / g0))) by rpos. lra. }
      rewrite ER at 1. apply Rmult_lt_compat_r; [assumption|]. apply Rmin_glb_lt; lra.
Qed.

Lemma known_given {P} x : known_or P (Fin x) x. Proof. constructor. Qed.

(** A configuration where this happens for every other gravity: waves of 1 m on a
    smooth slope of 1:1 with a freeboard of 2 m. *)
Theorem C13_gravity_refuted : exists T, 0 < T /\ forall g, 0 < g -> g <> 9.81 -> exists q Rc' reached reached',
  value (calculate_overtopping_discharge_q #1 (Fin T) #2 #1 NaN NaN NaN #0 #0 #1 #1 #1 #1 #0 (Fin g) false) = Ok (Fin q, reached)
  /\ value (calculate_crest_freeboard_Rc #1 (Fin T) (Fin q) #1 NaN NaN NaN #0 #0 #1 #1 #1 #1 #0 (Fin g) false) = Ok (Fin Rc', reached')
  /\ Rc' <> 2.
Proof.
  set (T := sqrt (2 * PI * 1 / (g0 * 0.04))).
  assert (HT : 0 < T) by (apply sqrt_lt_R0; pose proof g0_pos; pose proof PI_RGT_0; rpos).
  assert (X : iribarren g0 1 T (1 / 1) = 5).
  { unfold iribarren, T. rewrite period_of by lra. replace (sqrt 0.04) with 0.2 by (replace 0.04 with (0.2 ^ 2) by lra; rewrite sqrt_pow2; lra). lra. }
  exists T. split; [exact HT|]. intros g Hg Ng.
  destruct (C13_other_gravity 1 T 2 1 0 1 1 1 1 0 4.3 2.3 g NaN NaN #0 #1 #1 false) as (q & Rc' & r & r' & V1 & V2 & D); try lra; try (constructor; fail).
  - rewrite X. unfold taw_roughness, taw_q_max, taw_q_slope.
    assert (F : (if Rle_dec 1.8 (1 * 5) then if Rle_dec (1 * 5) 10 then 1 + (1 - 1) * ((5 - 1.8) / 8.2) else 1 else 1) = 1).
    { destruct (Rle_dec 1.8 (1 * 5)); [destruct (Rle_dec (1 * 5) 10)|]; lra. }
    rewrite F. replace (1 / 1) with 1 by lra. rewrite sqrt_1.
    replace (2.3 * (2 / 1) / (1 * 1)) with 4.6 by lra. replace (4.3 * (2 / 1) / (5 * 1 * 1 * 1 * 1)) with 1.72 by lra.
    assert (E : exp (- (4.6)) < exp (- (1.72))) by (apply exp_increasing; lra). pose proof (exp_pos (- (1.72))). lra.
  - exists q, Rc', r, r'. split; [exact V1|]. split; [exact V2|]. destruct (Rlt_dec 9.81 g); lra.
Qed.

(** A composite slope is treated as the simple slope with the average gradient of
    the run-up procedure; the berm factor is the given one or that of the berm
    procedure. *)
Theorem C13_composite : forall (H T x cot beta B db gbeta gb gf gv sigma g z c gb1 cu' : num) cd cu bf,
  gbeta <> NaN -> c <> NaN -> gb1 <> NaN ->
  value (iteration_procedure_z2p H T (Fin cd) (Fin cu) B db gf gbeta c1_default RunupTAW2002.c2_default c3_default c4_default
           false tolerance_default max_iter_default) = Ok z ->
  determine_average_slope H z (Fin cd) (Fin cu) B db = c ->
  (gb1 = gb \/ gb = NaN /\ exists L, value (calculate_berm_length H B NaN (Fin cd) (Fin cu)) = Ok L
     /\ value (iteration_procedure_gamma_b H T c B L db gbeta c1_default RunupTAW2002.c2_default c3_default c4_default false gf) = Ok gb1) ->
  value (calculate_overtopping_discharge_q H T x cot (Fin cd) (Fin cu) beta B db gbeta gb gf gv sigma g bf)
    = value (calculate_overtopping_discharge_q H T x c NaN cu' beta B db gbeta gb1 gf gv sigma g bf)
  /\ value (calculate_crest_freeboard_Rc H T x cot (Fin cd) (Fin cu) beta B db gbeta gb gf gv sigma g bf)
    = value (calculate_crest_freeboard_Rc H T x c NaN cu' beta B db gbeta gb1 gf gv sigma g bf).
Proof.
  intros H T x cot beta B db gbeta gb gf gv sigma g z c gb1 cu' cd cu bf Ng Nc Nb V A D.
  assert (I : value (influence_factors H T cot (Fin cd) (Fin cu) beta B db gbeta gb gf) = value (influence_factors H T c NaN cu' beta B db gbeta gb1 gf)).
  { unfold influence_factors.
    assert (G : check_calculate_gamma_beta beta gbeta = ret false) by (destruct beta, gbeta; try reflexivity; congruence).
    assert (K : check_composite_slope c NaN cu' = ret false) by (destruct c; try reflexivity; congruence).
    rewrite G, composite_slope, K, !bind_ret_l. mval. rewrite V. mval. rewrite A.
    assert (isnan gb1 = false) as -> by (destruct gb1; try reflexivity; congruence). mval.
    destruct D as [->|(-> & L & VL & VG)].
    - assert (isnan gb = false) as -> by (destruct gb; try reflexivity; congruence). mval. reflexivity.
    - cbn [isnan]. mval.
      assert (EL : calculate_berm_length H B c (Fin cd) (Fin cu) = calculate_berm_length H B NaN (Fin cd) (Fin cu)) by (unfold calculate_berm_length; rewrite !composite_slope, !bind_ret_l; reflexivity).
      rewrite EL, VL. mval. rewrite VG. mval. reflexivity. }
  assert (CK : forall (a : num * num * num * num * num) u, (let '(x1, x2, x3, x4, x5) := a in value (check_validity_range H T beta x2 (Fin cd) (Fin cu) gf x4 x1 u)) = Ok tt) by (intros [[[[? ?] ?] ?] ?] u; apply taw_q_check_ok).
  split; unfold calculate_overtopping_discharge_q, calculate_crest_freeboard_Rc, calculate_dimensionless_overtopping_discharge_q, calculate_dimensionless_crest_freeboard;
    destruct (coefficients bf) as [a b]; mval; destruct (value (corrections sigma bf)) as [[[cor1 cor3]|]|e]; mval; try reflexivity;
    rewrite I; destruct (value (influence_factors H T c NaN cu' beta B db gbeta gb1 gf)) as [[[[[x1 x2] x3] x4] x5]|e]; mval; try reflexivity;
    rewrite !taw_q_check_ok; mval; reflexivity.
Qed.

(** ** C14: response of the discharge *)
Lemma regime_mono_B A B B' r : 0 < A -> 0 < B -> B <= B' -> 0 <= r -> regime A B r <= regime A B' r.
Proof.
  intros HA HB L Hr. unfold regime. apply Rmult_le_compat_l; [lra|].
  assert (E : - (r / B) <= - (r / B')).
  { apply Ropp_le_contravar. apply Rmult_le_compat_l; [assumption|]. apply Rinv_le_contravar; assumption. }
  destruct E as [E|E]; [left; apply exp_increasing; exact E|right; rewrite E; reflexivity].
Qed.
Lemma regime_mono_x A B x y : 0 < A -> 0 < B -> x <= y -> regime A B y <= regime A B x.
Proof. intros HA HB [L| ->]; [left; apply regime_decreasing; assumption|right; reflexivity]. Qed.
Lemma Rmin_mono a b c d : a <= c -> b <= d -> Rmin a b <= Rmin c d.
Proof. intros. apply Rmin_glb; [eapply Rle_trans; [apply Rmin_l|assumption]|eapply Rle_trans; [apply Rmin_r|assumption]]. Qed.

Lemma taw_q_regimes H T cot gf gbeta gb gv c1 c3 r : 0 < H -> 0 < T -> 0 < cot -> 0 < gf <= 1 -> 0 < gb <= 1 -> 0 < gbeta -> 0 < gv -> 0 < c1 -> 0 < c3 ->
  let xi := iribarren g0 H T (1 / cot) in let f := taw_roughness gf gb xi in
  0 < 0.067 / sqrt (1 / cot) * gb * xi /\ 0 < xi * gb * f * gbeta * gv / c1 /\ 0 < f * gbeta / c3 /\ 0 < xi /\ 0 < f
  /\ taw_q c1 c3 (1 / cot) gb gf gbeta gv xi r
     = Rmin (regime (0.067 / sqrt (1 / cot) * gb * xi) (xi * gb * f * gbeta * gv / c1) r) (regime 0.2 (f * gbeta / c3) r).
Proof.
  intros HH HT HC Hgf Hgb Hgbeta Hgv P1 P3 xi f.
  split; [apply (A1_positive H T cot gb); assumption|]. split; [apply (B1_positive H T cot gf gbeta gb gv c1); assumption|].
  split; [apply (B2_positive H T cot gf gbeta gb c3); assumption|]. split; [apply (xi_positive H T cot); assumption|].
  split; [apply (f_positive H T cot gf gb); assumption|].
  unfold taw_q. cbv zeta. fold f.
  rewrite <- (slope_regime H T cot gf gbeta gb gv c1 HH HT HC Hgf Hgb Hgbeta Hgv) by assumption.
  rewrite <- (max_regime H T cot gf gbeta gb c3 HH HT HC Hgf Hgb Hgbeta) by assumption. reflexivity.
Qed.

Definition discharge H T Rc cot gbeta gb gf gv sigma g bf : res (num * bool) :=
  value (calculate_overtopping_discharge_q (Fin H) (Fin T) (Fin Rc) (Fin cot) NaN NaN NaN #0 #0 (Fin gbeta) (Fin gb) (Fin gf) (Fin gv) (Fin sigma) (Fin g) bf).

Lemma discharge_given H T Rc cot gbeta gb gf gv sigma g bf c1 c3 : 0 < H -> 0 < T -> 0 < cot -> 0 < g ->
  taw_coefficients bf sigma c1 c3 -> 0 < gf <= 1 -> 0 < gb <= 1 -> 0 < gbeta -> 0 < gv ->
  exists reached, discharge H T Rc cot gbeta gb gf gv sigma g bf
    = Ok (Fin (taw_q c1 c3 (1 / cot) gb gf gbeta gv (iribarren g0 H T (1 / cot)) (Rc / H) * q_unit g H), reached).
Proof.
  intros. unfold discharge. eexists. apply (discharge_value H T cot 0 gf gbeta gb gv sigma c1 c3); try assumption; constructor.
Qed.

Lemma taw_coefs_exist bf sigma : (bf = true \/ sigma = 0) -> exists c1 c3, taw_coefficients bf sigma c1 c3.
Proof. intros [->| ->]; [|destruct bf]; repeat eexists; constructor. Qed.

Theorem C14_positive : forall H T Rc cot gbeta gb gf gv sigma g bf,
  0 < H -> 0 < T -> 0 < cot -> 0 < g -> (bf = true \/ sigma = 0) -> -7 < sigma ->
  0 < gf <= 1 -> 0 < gb <= 1 -> 0 < gbeta -> 0 < gv ->
  exists q reached, discharge H T Rc cot gbeta gb gf gv sigma g bf = Ok (Fin q, reached) /\ 0 < q.
Proof.
  intros H T Rc cot gbeta gb gf gv sigma g bf HH HT HC Hg Hs Hs7 Hgf Hgb Hgbeta Hgv.
  destruct (taw_coefs_exist bf sigma Hs) as (c1 & c3 & Hc). assert (P : 0 < c1 /\ 0 < c3) by (destruct Hc; lra). destruct P as [P1 P3].
  destruct (discharge_given H T Rc cot gbeta gb gf gv sigma g bf c1 c3) as (r & E); try assumption.
  eexists. exists r. split; [exact E|].
  destruct (taw_q_regimes H T cot gf gbeta gb gv c1 c3 (Rc / H)) as (A & B & C & D & F & ->); try assumption.
  apply Rmult_lt_0_compat; [|apply q_unit_pos; assumption]. apply Rmin_glb_lt; apply regime_pos; (assumption || lra).
Qed.

(** A higher crest strictly lowers the discharge. *)
Theorem C14_freeboard : forall H T Rc Rc' cot gbeta gb gf gv sigma g bf q q' r r',
  0 < H -> 0 < T -> 0 < cot -> 0 < g -> (bf = true \/ sigma = 0) -> -7 < sigma ->
  0 < gf <= 1 -> 0 < gb <= 1 -> 0 < gbeta -> 0 < gv -> Rc < Rc' ->
  discharge H T Rc cot gbeta gb gf gv sigma g bf = Ok (Fin q, r) ->
  discharge H T Rc' cot gbeta gb gf gv sigma g bf = Ok (Fin q', r') -> q' < q.
Proof.
  intros H T Rc Rc' cot gbeta gb gf gv sigma g bf q q' r r' HH HT HC Hg Hs Hs7 Hgf Hgb Hgbeta Hgv L E E'.
  destruct (taw_coefs_exist bf sigma Hs) as (c1 & c3 & Hc). assert (P : 0 < c1 /\ 0 < c3) by (destruct Hc; lra). destruct P as [P1 P3].
  destruct (discharge_given H T Rc cot gbeta gb gf gv sigma g bf c1 c3) as (r1 & E1); try assumption.
  destruct (discharge_given H T Rc' cot gbeta gb gf gv sigma g bf c1 c3) as (r2 & E2); try assumption.
  rewrite E in E1. injection E1 as -> _. rewrite E' in E2. injection E2 as -> _.
  destruct (taw_q_regimes H T cot gf gbeta gb gv c1 c3 (Rc / H)) as (A & B & C & D & F & ->); try assumption.
  destruct (taw_q_regimes H T cot gf gbeta gb gv c1 c3 (Rc' / H)) as (_ & _ & _ & _ & _ & ->); try assumption.
  apply Rmult_lt_compat_r; [apply q_unit_pos; assumption|].
  assert (LR : Rc / H < Rc' / H) by (apply Rmult_lt_compat_r; [apply Rinv_0_lt_compat|]; assumption).
  apply Rmin_glb_lt; [eapply Rle_lt_trans; [apply Rmin_l|]|eapply Rle_lt_trans; [apply Rmin_r|]]; apply regime_decreasing; (assumption || lra).
Qed.

(** Larger factors for the angle, the wall and the roughness never lower it. *)
Theorem C14_factors : forall H T Rc cot gbeta gb gf gv gbeta' gf' gv' sigma g bf q q' r r',
  0 < H -> 0 < T -> 0 < cot -> 0 < g -> (bf = true \/ sigma = 0) -> -7 < sigma -> 0 <= Rc ->
  0 < gf <= 1 -> 0 < gb <= 1 -> 0 < gbeta -> 0 < gv ->
  gbeta <= gbeta' -> gf <= gf' <= 1 -> gv <= gv' -> (gf = gf' \/ iribarren g0 H T (1 / cot) <= 10) ->
  discharge H T Rc cot gbeta gb gf gv sigma g bf = Ok (Fin q, r) ->
  discharge H T Rc cot gbeta' gb gf' gv' sigma g bf = Ok (Fin q', r') -> q <= q'.
Proof.
  intros H T Rc cot gbeta gb gf gv gbeta' gf' gv' sigma g bf q q' r r' HH HT HC Hg Hs Hs7 HR Hgf Hgb Hgbeta Hgv L1 L2 L3 LX E E'.
  destruct (taw_coefs_exist bf sigma Hs) as (c1 & c3 & Hc). assert (P : 0 < c1 /\ 0 < c3) by (destruct Hc; lra). destruct P as [P1 P3].
  destruct (discharge_given H T Rc cot gbeta gb gf gv sigma g bf c1 c3) as (r1 & E1); try assumption.
  destruct (discharge_given H T Rc cot gbeta' gb gf' gv' sigma g bf c1 c3) as (r2 & E2); try (assumption || lra).
  rewrite E in E1. injection E1 as -> _. rewrite E' in E2. injection E2 as -> _.
  destruct (taw_q_regimes H T cot gf gbeta gb gv c1 c3 (Rc / H)) as (A & B & C & D & F & ->); try assumption.
  destruct (taw_q_regimes H T cot gf' gbeta' gb gv' c1 c3 (Rc / H)) as (_ & B' & C' & _ & F' & ->); try (assumption || lra).
  set (xi := iribarren g0 H T (1 / cot)) in *.
  assert (FF : taw_roughness gf gb xi <= taw_roughness gf' gb xi).
  { unfold taw_roughness. destruct (Rle_dec 1.8 (gb * xi)); [destruct (Rle_dec (gb * xi) 10)|]; try lra.
    destruct LX as [->|LX]; [lra|]. assert ((xi - 1.8) / 8.2 <= 1) by lra.
    assert (0 <= (gf' - gf) * (1 - (xi - 1.8) / 8.2)) by (apply Rmult_le_pos; lra). lra. }
  set (f := taw_roughness gf gb xi) in *. set (f' := taw_roughness gf' gb xi) in *.
  assert (RH : 0 <= Rc / H) by (apply Rmult_le_pos; [assumption|left; apply Rinv_0_lt_compat; assumption]).
  assert (G2 : f * gbeta <= f' * gbeta') by (apply Rmult_le_compat; lra).
  assert (G0 : 0 < xi * gb) by rpos. assert (G1 : 0 < f * gbeta) by rpos.
  apply Rmult_le_compat_r; [left; apply q_unit_pos; assumption|]. apply Rmin_mono; apply regime_mono_B; try (assumption || lra).
  - unfold Rdiv. apply Rmult_le_compat_r; [left; apply Rinv_0_lt_compat; assumption|].
    replace (xi * gb * f * gbeta * gv) with (xi * gb * (f * gbeta * gv)) by ring. replace (xi * gb * f' * gbeta' * gv') with (xi * gb * (f' * gbeta' * gv')) by ring.
    apply Rmult_le_compat_l; [lra|]. apply Rmult_le_compat; lra.
  - unfold Rdiv. apply Rmult_le_compat_r; [left; apply Rinv_0_lt_compat; assumption|]. exact G2.
Qed.

(** Without adjustment of the roughness a larger berm factor never lowers it. *)
Theorem C14_berm : forall H T Rc cot gbeta gb gb' gf gv sigma g bf q q' r r',
  0 < H -> 0 < T -> 0 < cot -> 0 < g -> (bf = true \/ sigma = 0) -> -7 < sigma -> 0 <= Rc ->
  0 < gf <= 1 -> 0 < gb -> 0 < gbeta -> 0 < gv -> gb <= gb' <= 1 ->
  (gf = 1 \/ gb' * iribarren g0 H T (1 / cot) < 1.8) ->
  discharge H T Rc cot gbeta gb gf gv sigma g bf = Ok (Fin q, r) ->
  discharge H T Rc cot gbeta gb' gf gv sigma g bf = Ok (Fin q', r') -> q <= q'.
Proof.
  intros H T Rc cot gbeta gb gb' gf gv sigma g bf q q' r r' HH HT HC Hg Hs Hs7 HR Hgf Hgb Hgbeta Hgv L LX E E'.
  destruct (taw_coefs_exist bf sigma Hs) as (c1 & c3 & Hc). assert (P : 0 < c1 /\ 0 < c3) by (destruct Hc; lra). destruct P as [P1 P3].
  destruct (discharge_given H T Rc cot gbeta gb gf gv sigma g bf c1 c3) as (r1 & E1); try (assumption || lra).
  destruct (discharge_given H T Rc cot gbeta gb' gf gv sigma g bf c1 c3) as (r2 & E2); try (assumption || lra).
  rewrite E in E1. injection E1 as -> _. rewrite E' in E2. injection E2 as -> _.
  destruct (taw_q_regimes H T cot gf gbeta gb gv c1 c3 (Rc / H)) as (A & B & C & D & F & ->); try (assumption || lra).
  destruct (taw_q_regimes H T cot gf gbeta gb' gv c1 c3 (Rc / H)) as (A' & B' & C' & _ & F' & ->); try (assumption || lra).
  set (xi := iribarren g0 H T (1 / cot)) in *.
  assert (RF : forall b, 0 < b <= gb' -> taw_roughness gf b xi = gf).
  { intros b Hb. unfold taw_roughness. destruct LX as [->|LX].
    - destruct (Rle_dec 1.8 (b * xi)); [destruct (Rle_dec (b * xi) 10)|]; ring || reflexivity.
    - assert (b * xi <= gb' * xi) by (apply Rmult_le_compat_r; lra). destruct (Rle_dec 1.8 (b * xi)); [lra|reflexivity]. }
  rewrite !RF in * by lra.
  assert (RH : 0 <= Rc / H) by (apply Rmult_le_pos; [assumption|left; apply Rinv_0_lt_compat; assumption]).
  assert (0 < sqrt (1 / cot)) by (apply sqrt_lt_R0; rpos).
  apply Rmult_le_compat_r; [left; apply q_unit_pos; assumption|]. apply Rmin_mono; [|right; reflexivity].
  apply (Rle_trans _ (regime (0.067 / sqrt (1 / cot) * gb * xi) (xi * gb' * gf * gbeta * gv / c1) (Rc / H))).
  - apply regime_mono_B; try assumption. unfold Rdiv. apply Rmult_le_compat_r; [left; apply Rinv_0_lt_compat; assumption|].
    assert (0 < xi * gf * gbeta * gv) by rpos.
    replace (xi * gb * gf * gbeta * gv) with (gb * (xi * gf * gbeta * gv)) by ring. replace (xi * gb' * gf * gbeta * gv) with (gb' * (xi * gf * gbeta * gv)) by ring.
    apply Rmult_le_compat_r; lra.
  - unfold regime. apply Rmult_le_compat_r; [left; apply exp_pos|]. apply Rmult_le_compat_r; [lra|]. apply Rmult_le_compat_l; [left; rpos|lra].
Qed.

(** More standard deviations never raise it. *)
Theorem C14_sigma : forall H T Rc cot gbeta gb gf gv sigma sigma' g q q' r r',
  0 < H -> 0 < T -> 0 < cot -> 0 < g -> -7 < sigma -> sigma <= sigma' -> 0 <= Rc ->
  0 < gf <= 1 -> 0 < gb <= 1 -> 0 < gbeta -> 0 < gv ->
  discharge H T Rc cot gbeta gb gf gv sigma g true = Ok (Fin q, r) ->
  discharge H T Rc cot gbeta gb gf gv sigma' g true = Ok (Fin q', r') -> q' <= q.
Proof.
  intros H T Rc cot gbeta gb gf gv sigma sigma' g q q' r r' HH HT HC Hg Hs7 L HR Hgf Hgb Hgbeta Hgv E E'.
  destruct (discharge_given H T Rc cot gbeta gb gf gv sigma g true _ _ HH HT HC Hg (taw_best_fit sigma)) as (r1 & E1); try (assumption || lra).
  destruct (discharge_given H T Rc cot gbeta gb gf gv sigma' g true _ _ HH HT HC Hg (taw_best_fit sigma')) as (r2 & E2); try (assumption || lra).
  rewrite E in E1. injection E1 as -> _. rewrite E' in E2. injection E2 as -> _.
  destruct (taw_q_regimes H T cot gf gbeta gb gv (4.75 + 0.5 * sigma) (2.6 + 0.35 * sigma) (Rc / H)) as (A & B & C & D & F & ->); try (assumption || lra).
  destruct (taw_q_regimes H T cot gf gbeta gb gv (4.75 + 0.5 * sigma') (2.6 + 0.35 * sigma') (Rc / H)) as (A' & B' & C' & _ & F' & ->); try (assumption || lra).
  assert (RH : 0 <= Rc / H) by (apply Rmult_le_pos; [assumption|left; apply Rinv_0_lt_compat; assumption]).
  set (xi := iribarren g0 H T (1 / cot)) in *. set (f := taw_roughness gf gb xi) in *.
  assert (0 < xi * gb * f * gbeta * gv) by rpos. assert (0 < f * gbeta) by rpos.
  apply Rmult_le_compat_r; [left; apply q_unit_pos; assumption|].
  apply Rmin_mono; apply regime_mono_B; try (assumption || lra); apply Rmult_le_compat_l; try lra; apply Rinv_le_contravar; lra.
Qed.

(** Froude scaling. *)
Theorem C14_froude : forall l H T Rc cot gbeta gb gf gv sigma g bf,
  0 < l -> 0 < H -> 0 < T -> 0 < cot -> 0 < g -> (bf = true \/ sigma = 0) -> -7 < sigma ->
  0 < gf <= 1 -> 0 < gb <= 1 -> 0 < gbeta -> 0 < gv ->
  exists q reached, discharge H T Rc cot gbeta gb gf gv sigma g bf = Ok (Fin q, reached)
    /\ discharge (l * H) (sqrt l * T) (l * Rc) cot gbeta gb gf gv sigma g bf = Ok (Fin (Rpower l 1.5 * q), reached).
Proof.
  intros l H T Rc cot gbeta gb gf gv sigma g bf Hl HH HT HC Hg Hs Hs7 Hgf Hgb Hgbeta Hgv.
  destruct (taw_coefs_exist bf sigma Hs) as (c1 & c3 & Hc). assert (P : 0 < c1 /\ 0 < c3) by (destruct Hc; lra). destruct P as [P1 P3].
  assert (Hl' : 0 < sqrt l) by (apply sqrt_lt_R0; assumption).
  assert (X : iribarren g0 (l * H) (sqrt l * T) (1 / cot) = iribarren g0 H T (1 / cot)).
  { unfold iribarren. rewrite steepness_froude by (try assumption; apply g0_pos). reflexivity. }
  unfold discharge. eexists. eexists. split.
  - apply (discharge_value H T cot 0 gf gbeta gb gv sigma c1 c3); try assumption; constructor.
  - rewrite (discharge_value (l * H) (sqrt l * T) cot 0 gf gbeta gb gv sigma c1 c3); try (assumption || rpos); try (constructor; fail).
    rewrite X, q_unit_scale by assumption. replace (l * Rc / (l * H)) with (Rc / H) by (field; split; lra). do 3 f_equal. ring.
Qed.

(** With a rough slope, the berm factor pushes gamma_b * ksi over 10, where the
    adjustment of the roughness ends: a larger berm factor, a smaller discharge. *)
Theorem C14_berm_refuted : exists T q q' r r', 0 < T
  /\ discharge 1 T 1 1 1 0.95 0.5 1 0 g0 false = Ok (Fin q, r)
  /\ discharge 1 T 1 1 1 1 0.5 1 0 g0 false = Ok (Fin q', r') /\ q' < q.
Proof.
  set (T := sqrt (2 * PI * 1 / (g0 * ((1 / 10.5) ^ 2)))). pose proof g0_pos as G0.
  assert (HT : 0 < T) by (apply sqrt_lt_R0; pose proof PI_RGT_0; rpos).
  assert (X : iribarren g0 1 T (1 / 1) = 10.5).
  { unfold iribarren, T. rewrite period_of by lra. rewrite sqrt_pow2 by lra. lra. }
  destruct (discharge_given 1 T 1 1 1 0.95 0.5 1 0 g0 false _ _ ltac:(lra) HT ltac:(lra) G0 taw_design) as (r & E); try lra.
  destruct (discharge_given 1 T 1 1 1 1 0.5 1 0 g0 false _ _ ltac:(lra) HT ltac:(lra) G0 taw_design) as (r' & E'); try lra.
  exists T. do 2 eexists. exists r, r'. split; [exact HT|]. split; [exact E|]. split; [exact E'|].
  apply Rmult_lt_compat_r; [apply q_unit_pos; lra|]. rewrite X. unfold taw_q. cbv zeta.
  assert (F1 : taw_roughness 0.5 0.95 10.5 = 0.5 + 0.5 * (8.7 / 8.2)).
  { unfold taw_roughness. destruct (Rle_dec _ _); [|lra]. destruct (Rle_dec _ _); [|lra]. lra. }
  assert (F2 : taw_roughness 0.5 1 10.5 = 0.5).
  { unfold taw_roughness. destruct (Rle_dec _ _); [|lra]. destruct (Rle_dec _ _); [lra|]. reflexivity. }
  rewrite F1, F2. unfold taw_q_max, taw_q_slope. replace (1 / 1) with 1 by lra. rewrite sqrt_1.
  set (a := 2.3 * 1 / ((0.5 + 0.5 * (8.7 / 8.2)) * 1)). set (b := 2.3 * 1 / (0.5 * 1)). set (c := 4.3 * 1 / (10.5 * 0.95 * (0.5 + 0.5 * (8.7 / 8.2)) * 1 * 1)).
  assert (Ha : a < b) by (unfold a, b; lra). assert (Hc : c < 0.5) by (unfold c; lra).
  assert (E1 : exp (- b) < exp (- a)) by (apply exp_increasing; lra).
  assert (E2 : exp (- b) < 1) by (rewrite <- exp_0; apply exp_increasing; unfold b; lra).
  pose proof (exp_ineq1_le (- c)) as E3.
  eapply Rle_lt_trans; [apply Rmin_r|]. apply Rmin_glb_lt; lra.
Qed.

(** A smooth slope may have a smaller discharge than a rough one, as the adjusted
    roughness factor exceeds 1. *)
Theorem C14_roughness_refuted : exists T q q' r r', 0 < T
  /\ discharge 1 T 1 1 1 0.7 0.5 1 0 g0 false = Ok (Fin q, r)
  /\ discharge 1 T 1 1 1 0.7 1 1 0 g0 false = Ok (Fin q', r') /\ q' < q.
Proof.
  set (T := sqrt (2 * PI * 1 / (g0 * ((1 / 14) ^ 2)))). pose proof g0_pos as G0.
  assert (HT : 0 < T) by (apply sqrt_lt_R0; pose proof PI_RGT_0; rpos).
  assert (X : iribarren g0 1 T (1 / 1) = 14).
  { unfold iribarren, T. rewrite period_of by lra. rewrite sqrt_pow2 by lra. lra. }
  destruct (discharge_given 1 T 1 1 1 0.7 0.5 1 0 g0 false _ _ ltac:(lra) HT ltac:(lra) G0 taw_design) as (r & E); try lra.
  destruct (discharge_given 1 T 1 1 1 0.7 1 1 0 g0 false _ _ ltac:(lra) HT ltac:(lra) G0 taw_design) as (r' & E'); try lra.
  exists T. do 2 eexists. exists r, r'. split; [exact HT|]. split; [exact E|]. split; [exact E'|].
  apply Rmult_lt_compat_r; [apply q_unit_pos; lra|]. rewrite X. unfold taw_q. cbv zeta.
  assert (F1 : taw_roughness 0.5 0.7 14 = 0.5 + 0.5 * (12.2 / 8.2)).
  { unfold taw_roughness. destruct (Rle_dec _ _); [|lra]. destruct (Rle_dec _ _); [|lra]. lra. }
  assert (F2 : taw_roughness 1 0.7 14 = 1).
  { unfold taw_roughness. destruct (Rle_dec _ _); [|lra]. destruct (Rle_dec _ _); [lra|]. lra. }
  rewrite F1, F2. unfold taw_q_max, taw_q_slope. replace (1 / 1) with 1 by lra. rewrite sqrt_1.
  set (a := 2.3 * 1 / ((0.5 + 0.5 * (12.2 / 8.2)) * 1)). set (b := 2.3 * 1 / (1 * 1)). set (c := 4.3 * 1 / (14 * 0.7 * (0.5 + 0.5 * (12.2 / 8.2)) * 1 * 1)).
  assert (Ha : a < b) by (unfold a, b; lra). assert (Hc : c < 0.5) by (unfold c; lra).
  assert (E1 : exp (- b) < exp (- a)) by (apply exp_increasing; lra).
  assert (E2 : exp (- b) < 1) by (rewrite <- exp_0; apply exp_increasing; unfold b; lra).
  pose proof (exp_ineq1_le (- c)) as E3.
  eapply Rle_lt_trans; [apply Rmin_r|]. apply Rmin_glb_lt; lra.
Qed.

(** The factor of a wall: 1 up to 45 degrees, then linear, not continuous. *)
Theorem C14_wall : forall a, calculate_influence_crest_wall_gamma_v (Fin a) = Fin (taw_wall a)
  /\ (0 <= a <= 90 -> 0.648 <= taw_wall a <= 1) /\ (forall b, a <= b -> taw_wall b <= taw_wall a).
Proof.
  intros a. split; [|split].
  - unfold calculate_influence_crest_wall_gamma_v, taw_wall. nfin. destruct (Rleb_spec a 45), (Rle_dec a 45); try lra; nfin; reflexivity.
  - intros. unfold taw_wall. destruct (Rle_dec a 45); lra.
  - intros. unfold taw_wall. destruct (Rle_dec a 45), (Rle_dec b 45); lra.
Qed.

(** ** C15: sigma without best fit *)
Lemma corrections_sigma sigma : sigma <> #0 -> corrections sigma false = (warn (WText sigma_warning) ;; ret None).
Proof.
  intros Hs. unfold corrections. destruct (neqb sigma #0) eqn:E; [|reflexivity].
  exfalso. apply Hs. destruct sigma; try discriminate E. cbn in E. apply Reqb_iff in E. subst. reflexivity.
Qed.
Lemma corrections_zero : corrections #0 false = ret (Some (#0, #0)).
Proof. unfold corrections. nfin. rewrite Reqb_true by reflexivity. reflexivity. Qed.

(** The text of the warning. *)
Definition sigma_text : string :=
  "Sigma is only applicable to the best fit coefficients! The design values of the coefficients alreaddy account for uncertainty with conservative coefficient values.".

(** With the coefficients for a design, any non-zero sigma makes both functions
    warn first and then fail: with an unbound variable if the call is fine for
    sigma zero, with the same error otherwise. *)
Theorem C15_sigma : forall (H T x cot cd cu beta B db gbeta gb gf gv sigma g : num), sigma <> #0 ->
  (exists e ws, calculate_overtopping_discharge_q H T x cot cd cu beta B db gbeta gb gf gv sigma g false = (WText sigma_text :: ws, Err e)
    /\ e = match value (calculate_overtopping_discharge_q H T x cot cd cu beta B db gbeta gb gf gv #0 g false) with
           | Ok _ => UnboundLocalError | Err e' => e' end)
  /\ (exists e ws, calculate_crest_freeboard_Rc H T x cot cd cu beta B db gbeta gb gf gv sigma g false = (WText sigma_text :: ws, Err e)
    /\ e = match value (calculate_crest_freeboard_Rc H T x cot cd cu beta B db gbeta gb gf gv #0 g false) with
           | Ok _ => UnboundLocalError | Err e' => e' end).
Proof.
  intros H T x cot cd cu beta B db gbeta gb gf gv sigma g Hs.
  unfold calculate_overtopping_discharge_q, calculate_crest_freeboard_Rc, calculate_dimensionless_overtopping_discharge_q, calculate_dimensionless_crest_freeboard.
  cbn [coefficients]. rewrite (corrections_sigma sigma Hs), corrections_zero, !bind_ret_l.
  destruct (influence_factors H T cot cd cu beta B db gbeta gb gf) as [w [[[[[x1 x2] x3] x4] x5]|e]] eqn:EI.
  - split; (exists UnboundLocalError; eexists; split; [cbv beta iota delta [bind warn ret raise app]; reflexivity|]; mval;
      change (value (w, Ok (x1, x2, x3, x4, x5))) with (@Ok (num * num * num * num * num) (x1, x2, x3, x4, x5)); mval; rewrite taw_q_check_ok; mval; reflexivity).
  - split; (exists e; eexists; split; [cbv beta iota delta [bind warn ret raise app]; reflexivity|]; mval;
      change (value (w, Err e)) with (@Err (num * num * num * num * num) e); mval; reflexivity).
Qed.

(** ** C16: no berm *)
(** Without berm width the overtopping functions take the berm factor to be 1. *)
Theorem C16_overtopping_works : forall (H T x beta db gbeta gf gv sigma g cu : num) cot bf,
  calculate_overtopping_discharge_q H T x (Fin cot) NaN cu beta #0 db gbeta NaN gf gv sigma g bf
    = calculate_overtopping_discharge_q H T x (Fin cot) NaN cu beta #0 db gbeta #1 gf gv sigma g bf
  /\ calculate_crest_freeboard_Rc H T x (Fin cot) NaN cu beta #0 db gbeta NaN gf gv sigma g bf
    = calculate_crest_freeboard_Rc H T x (Fin cot) NaN cu beta #0 db gbeta #1 gf gv sigma g bf.
Proof.
  intros.
  assert (I : influence_factors H T (Fin cot) NaN cu beta #0 db gbeta NaN gf = influence_factors H T (Fin cot) NaN cu beta #0 db gbeta #1 gf).
  { unfold influence_factors. apply bind_ext. intros cg.
    rewrite simple_slope. rewrite !bind_ret_l. cbn [isnan]. unfold calculate_berm_length. rewrite simple_slope, !bind_ret_l.
    unfold iteration_procedure_gamma_b, iteration_procedure_gamma_b_body. nfin. rewrite Reqb_true by reflexivity. cbn [orb].
    rewrite !bind_ret_l. reflexivity. }
  split; unfold calculate_overtopping_discharge_q, calculate_crest_freeboard_Rc, calculate_dimensionless_overtopping_discharge_q, calculate_dimensionless_crest_freeboard;
    rewrite I; reflexivity.
Qed.

(** ** Warnings *)
Definition taw_overtopping_ranges (H T beta cot cd cu gf gb gbeta gv : num) : list xrange :=
  let F := "TAW (2002)"%string in
  [ XRange "Wave steepness sm-1,0" F (calculate_wave_steepness_s H T g_default) #0 #0.07;
    XRange "Iribarren number ksi_m-1,0" F (calculate_Iribarren_number_ksi H T cot) #0 #7;
    XRange "gamma_b * ksi_m-1,0" F (gb * calculate_Iribarren_number_ksi H T cot)%num #0.5 #10;
    XRange "Cotangent alpha lower slope" F cd #1 #7;
    XRange "Cotangent alpha upper slope" F cu #1 #7;
    XRange "Incident wave angle beta" F beta #0 #90;
    XRange "Influence factor berm gamma_b" F gb #0.4 #1;
    XRange "Influence factor roughness gamma_f" F gf #0.4 #1;
    XRange "Influence factor oblique waves gamma_beta" F gbeta #0.4 #1;
    XRange "Influence factor vertical wall gamma_v" F gv #0.4 #1 ].

Lemma taw_q_check_reports H T beta cot cd cu gf gb gbeta gv :
  reported (taw_overtopping_ranges H T beta cot cd cu gf gb gbeta gv) (warns (check_validity_range H T beta cot cd cu gf gb gbeta gv)).
Proof.
  rewrite <- (bind_ret_r (check_validity_range H T beta cot cd cu gf gb gbeta gv)).
  unfold taw_overtopping_ranges, check_validity_range. cbv zeta. reports.
Qed.

(** On a simple slope both functions report the ranges that are left, and nothing
    else. *)
Theorem C58_taw_overtopping : forall (H T x cot cu beta B db gbeta gb gf gv sigma g : num) bf,
  gbeta <> NaN -> gb <> NaN -> cot <> NaN -> (bf = true \/ sigma = #0) ->
  reported (taw_overtopping_ranges H T beta cot NaN cu gf gb gbeta gv)
    (warns (calculate_overtopping_discharge_q H T x cot NaN cu beta B db gbeta gb gf gv sigma g bf))
  /\ reported (taw_overtopping_ranges H T beta cot NaN cu gf gb gbeta gv)
    (warns (calculate_crest_freeboard_Rc H T x cot NaN cu beta B db gbeta gb gf gv sigma g bf)).
Proof.
  intros H T x cot cu beta B db gbeta gb gf gv sigma g bf Hg Hb Hc Hs.
  assert (C : exists a b, corrections sigma bf = ret (Some (a, b))).
  { unfold corrections. destruct Hs as [->| ->].
    - destruct (neqb sigma #0); repeat eexists.
    - nfin. rewrite Reqb_true by reflexivity. repeat eexists. }
  destruct C as (c & d & C).
  assert (I : exists i, influence_factors H T cot NaN cu beta B db gbeta gb gf = ret (gbeta, cot, i, gb, calculate_adjusted_influence_roughness_gamma_f gf gb i)).
  { unfold influence_factors.
    assert (G : check_calculate_gamma_beta beta gbeta = ret false) by (destruct beta, gbeta; try reflexivity; congruence).
    assert (K : check_composite_slope cot NaN cu = ret false) by (destruct cot; try reflexivity; congruence).
    rewrite G, bind_ret_l, K, !bind_ret_l. cbv iota zeta.
    replace (isnan gb) with false by (destruct gb; try reflexivity; congruence). rewrite !bind_ret_l. eexists. reflexivity. }
  destruct I as (i & I).
  unfold calculate_overtopping_discharge_q, calculate_crest_freeboard_Rc, calculate_dimensionless_overtopping_discharge_q, calculate_dimensionless_crest_freeboard.
  destruct (coefficients bf) as [a b]. rewrite C, I, !bind_ret_l. cbv zeta.
  split; rewrite ?bind_assoc; unfold taw_overtopping_ranges, check_validity_range; cbv zeta; reports.
Qed.

(** ** Example: waves of 2 m with a steepness of 4% on a smooth slope of 1:5
    (ksi 1) with a freeboard of 1 m. *)
Example C13_example : exists T, 0 < T /\ steepness g0 2 T = 0.04
  /\ value (calculate_overtopping_discharge_q #2 (Fin T) #1 #5 NaN NaN #0 #0 #0 NaN NaN #1 #1 #0 g_default false)
     = Ok (Fin (0.067 * sqrt 5 * exp (- (2.15)) * sqrt (9.81 * 2 ^ 3)), false)
  /\ value (calculate_crest_freeboard_Rc #2 (Fin T) (Fin (0.067 * sqrt 5 * exp (- (2.15)) * sqrt (9.81 * 2 ^ 3))) #5 NaN NaN #0 #0 #0 NaN NaN #1 #1 #0 g_default false)
     = Ok (#1, false).
Proof.
  pose proof g0_pos as G0. pose proof PI_RGT_0 as PI0. set (T := sqrt (2 * PI * 2 / (g0 * 0.04))).
  assert (HT : 0 < T) by (apply sqrt_lt_R0; rpos).
  assert (S : steepness g0 2 T = 0.04) by (apply period_of; lra).
  assert (X : iribarren g0 2 T (1 / 5) = 1).
  { unfold iribarren. rewrite S. replace (sqrt 0.04) with 0.2 by (replace 0.04 with (0.2 ^ 2) by lra; rewrite sqrt_pow2; lra). lra. }
  exists T. split; [exact HT|]. split; [exact S|].
  assert (KA : known_or (angle_factor #0) NaN 1).
  { constructor. exists 0. split; [reflexivity|]. unfold taw_oblique. rewrite Rabs_R0, Rmin_left by lra. lra. }
  assert (KB : known_or (berm_factor 2 T 5 0 #0 1 #1) NaN 1).
  { constructor. unfold berm_factor, iteration_procedure_gamma_b, iteration_procedure_gamma_b_body. nfin. rewrite Reqb_true by reflexivity. reflexivity. }
  assert (V : value (calculate_overtopping_discharge_q #2 (Fin T) #1 #5 NaN NaN #0 #0 #0 NaN NaN #1 #1 #0 g_default false)
     = Ok (Fin (0.067 * sqrt 5 * exp (- (2.15)) * sqrt (9.81 * 2 ^ 3)), false)).
  { destruct (C13_discharge 2 T 1 5 0 1 1 1 1 0 4.3 2.3 g0 NaN #0 #0 NaN NaN false) as (r & E & R); try (assumption || lra || constructor).
    unfold g_default. fold g0. rewrite E.
    assert (F : taw_roughness 1 1 1 = 1) by (unfold taw_roughness; destruct (Rle_dec _ _); lra).
    rewrite X, F in R.
    assert (Q1 : taw_q_slope 4.3 (1 / 5) 1 1 1 1 1 (1 / 2) = 0.067 * sqrt 5 * exp (- (2.15))).
    { unfold taw_q_slope. replace (4.3 * (1 / 2) / (1 * 1 * 1 * 1 * 1)) with 2.15 by lra.
      rewrite sqrt_div, sqrt_1 by lra. pose proof (sqrt_lt_R0 5 ltac:(lra)). field. lra. }
    assert (L : taw_q_slope 4.3 (1 / 5) 1 1 1 1 1 (1 / 2) < taw_q_max 2.3 1 1 (1 / 2)).
    { rewrite Q1. unfold taw_q_max. replace (2.3 * (1 / 2) / (1 * 1)) with 1.15 by lra.
      assert (sqrt 5 < 2.3). { rewrite <- (sqrt_pow2 2.3) by lra. apply sqrt_lt_1_alt. lra. }
      assert (E1 : exp (- (2.15)) < exp (- (1.15))) by (apply exp_increasing; lra). pose proof (exp_pos (- (2.15))). pose proof (sqrt_pos 5).
      assert (0.067 * sqrt 5 <= 0.2) by lra. assert (0.067 * sqrt 5 * exp (- (2.15)) <= 0.2 * exp (- (2.15))) by (apply Rmult_le_compat_r; lra). lra. }
    assert (Er : r = false). { destruct r; [|reflexivity]. destruct R as [R _]. specialize (R eq_refl). lra. }
    rewrite Er. unfold taw_q. cbv zeta. rewrite X, F. rewrite Rmin_left by lra. rewrite Q1. reflexivity. }
  split; [exact V|].
  apply (C13_round_trip 2 T 1 _ 5 0 1 1 1 1 0 4.3 2.3 NaN #0 #0 NaN NaN false false); try (assumption || lra || constructor).
  pose proof (exp_pos (- (2.15))). pose proof (sqrt_lt_R0 5 ltac:(lra)). assert (0 < sqrt (9.81 * 2 ^ 3)) by (apply sqrt_lt_R0; lra). rpos.
Qed.
