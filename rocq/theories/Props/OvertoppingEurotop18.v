(** Property C18: overtopping of EurOtop (2018). *)
From Coq Require Import Reals Lra List Bool String.
From Verif.Lib Require Import Num Monad RTac NTac.
From Verif.Spec Require Import Waves Ranges Reports Taw Overtopping.
From Verif.Model Require Import CoreUtility CorePhysics OvertoppingEurotop2018.
From Verif.Model Require RunupTAW2002 RunupEurotop2018.
From Verif.Proofs Require Import Core CheckTac Warns Reports Taw Overtopping Weibull.
From Verif.Props Require Import RunupTAW BermProcedure OvertoppingTAW.
Import ListNotations.
Open Scope R_scope.

(** The factor for the angle: that of the overtopping, for a smooth or a rough
    slope. *)
Definition angle18 (beta : num) (gf x : R) : Prop := exists b, beta = Fin b /\ x = eurotop_oblique 0.0033 gf b.

(** The slope and the length of the berm: given, or the average of two slopes. *)
Inductive slope18 (H T B db gf gbeta : R) (bf : bool) : num -> num -> num -> R -> R -> Prop :=
| one_slope cot (cu : num) : slope18 H T B db gf gbeta bf (Fin cot) NaN cu cot (H * cot + B + H * cot)
| two_slopes (cot' : num) cd cu z :
    value (RunupEurotop2018.iteration_procedure_z2p (Fin H) (Fin T) (Fin cd) (Fin cu) (Fin B) (Fin db) (Fin gf) (Fin gbeta)
             RunupEurotop2018.c1_default RunupEurotop2018.c2_default RunupEurotop2018.c3_default RunupEurotop2018.c4_default
             bf RunupEurotop2018.tolerance_default RunupEurotop2018.max_iter_default) = Ok (Fin z) ->
    1.5 * H + z <> 0 -> (1.5 * H - db) * cd + (z + db) * cu <> 0 ->
    slope18 H T B db gf gbeta bf cot' (Fin cd) (Fin cu) (average_cot H z cd cu db) (H * cd + B + H * cu).

Lemma angle18_factor (beta gbeta' : num) gf gbeta : known_or (angle18 beta gf) gbeta' gbeta -> factor_beta beta gbeta' (Fin gf) = ret (Fin gbeta).
Proof.
  unfold factor_beta. intros [x|x (b & -> & ->)].
  - rewrite beta_known, bind_ret_l. reflexivity.
  - rewrite beta_given, bind_ret_l. unfold calculate_influence_oblique_waves_gamma_beta, RunupEurotop2018.calculate_influence_oblique_waves_gamma_beta.
    unfold gamma_f_crit_default, c_gamma_beta_smooth_default, c_gamma_beta_rough_default, eurotop_oblique. nfin.
    change max_angle_default with RunupTAW2002.max_angle_default.
    destruct (Rltb_spec 0.6 gf), (Rlt_dec 0.6 gf); try lra; rewrite oblique_fin; reflexivity.
Qed.

Lemma slope18_value H T B db gf gbeta bf (cot' cd cu : num) cot L : slope18 H T B db gf gbeta bf cot' cd cu cot L ->
  value (slope (Fin H) (Fin T) cot' cd cu (Fin B) (Fin db) (Fin gf) (Fin gbeta) bf) = Ok (Fin cot)
  /\ value (RunupTAW2002.calculate_berm_length (Fin H) (Fin B) (Fin cot) cd cu) = Ok (Fin L).
Proof.
  unfold slope, RunupTAW2002.calculate_berm_length. intros [c u|c d u z V N1 N2].
  - rewrite simple_slope, !bind_ret_l. split; [reflexivity|]. nfin. mval. do 2 f_equal. ring.
  - rewrite !composite_slope, !bind_ret_l. cbv iota. mval. rewrite V. mval. rewrite average_fin by assumption. split; [reflexivity|].
    nfin. do 2 f_equal. ring.
Qed.

(** ** Dikes *)
Section Dike.
Variables (H T B db cot L gf gbeta gb gv gs c1 c2 c3 c4 k1 k2 k3 k4 : R) (cot' cd cu beta gbeta' gb' : num) (bf : bool).
Hypotheses (HH : 0 < H) (HT : 0 < T) (HC : 0 < cot) (Hgf : 0 < gf <= 1) (Hgbeta : 0 < gbeta) (Hgv : 0 < gv) (Hgs : 0 < gs).
Hypotheses (H1 : 0 < k1) (H2 : 0 < k2) (H3 : 0 < k3) (H4 : 0 < k4).
Hypothesis (Hcoef : eurotop_coefficients c1 c2 c3 c4 bf k1 k2 k3 k4).
Hypothesis (HB : known_or (angle18 beta gf) gbeta' gbeta).

Let xi := iribarren g0 H T (1 / cot).
Let f := taw_roughness gf gb xi.
Let A1 := k4 / sqrt (1 / cot) * gb * xi.
Let B1 := xi * gb * f * gbeta * gv / k1.
Let B2 := gf * gbeta * gs / k3.
Let B2' := f * gbeta * gs / k3.

Hypothesis (HG : berm_procedure (fun gb => taw_runup 1.75 4.3 1.5 1.07 gb gf gbeta xi * H) H B L db gb).

Lemma dike_gb : 0.6 <= gb <= 1.
Proof. destruct (C16_berm_factor_range (fun gb => taw_runup 1.75 4.3 1.5 1.07 gb gf gbeta xi * H) H B L db HH) as (x & _ & R & U). rewrite (U _ HG). exact R. Qed.
Lemma dike_xi : 0 < xi.
Proof. apply iribarren_pos; try assumption; [apply g0_pos|rpos]. Qed.
Lemma dike_f : 0 < f /\ gf <= f.
Proof.
  pose proof dike_gb. pose proof dike_xi as X. split; [apply roughness_pos; lra|].
  unfold f, taw_roughness. destruct (Rle_dec 1.8 (gb * xi)); [destruct (Rle_dec (gb * xi) 10)|]; try lra.
  assert (gb * xi <= 1 * xi) by (apply Rmult_le_compat_r; lra).
  assert (0 <= (1 - gf) * ((xi - 1.8) / 8.2)) by (apply Rmult_le_pos; lra). lra.
Qed.
Lemma dike_regimes : 0 < A1 /\ 0 < B1 /\ 0 < B2 /\ 0 < B2' /\ B2 <= B2'.
Proof.
  pose proof dike_gb. pose proof dike_xi. destruct dike_f as [F F'].
  assert (0 < sqrt (1 / cot)) by (apply sqrt_lt_R0; rpos). assert (0 < gb) by lra. assert (0 < gbeta * gs) by rpos.
  split; [unfold A1; rpos|]. split; [unfold B1; rpos|]. split; [unfold B2; rpos|]. split; [unfold B2'; rpos|].
  unfold B2, B2', Rdiv. apply Rmult_le_compat_r; [left; apply Rinv_0_lt_compat; assumption|].
  rewrite !Rmult_assoc. apply Rmult_le_compat_r; lra.
Qed.

Lemma dike_slope_weibull r : eurotop_q_slope k1 k4 (1 / cot) gb f gbeta gv xi r = weibull A1 B1 r.
Proof.
  pose proof dike_gb. pose proof dike_xi. destruct dike_f as [F _]. unfold eurotop_q_slope, weibull, A1, B1. do 4 f_equal. field. repeat split; lra.
Qed.
Lemma dike_max_weibull r : eurotop_q_max k2 k3 gf gbeta gs r = weibull k2 B2 r.
Proof. unfold eurotop_q_max, weibull, B2. do 4 f_equal. field. repeat split; lra. Qed.

Lemma dike_factors b0 : slope18 H T B db gf gbeta b0 cot' cd cu cot L ->
  value (slope (Fin H) (Fin T) cot' cd cu (Fin B) (Fin db) (Fin gf) (Fin gbeta) b0) = Ok (Fin cot)
  /\ value (berm_and_roughness (Fin H) (Fin T) (Fin cot) cd cu (Fin B) (Fin db) (Fin gf) (Fin gbeta)) = Ok (Fin xi, Fin gb, Fin f).
Proof.
  intros S. apply slope18_value in S. destruct S as [V VL]. split; [exact V|].
  unfold berm_and_roughness. cbv zeta. mval. rewrite VL. mval.
  pose proof (C16_berm_procedure_eurotop H T cot B L db gbeta gf 1.75 4.3 1.5 1.07 gb false HH HT HC) as P. cbv zeta iota in P.
  unfold RunupEurotop2018.c1_default, RunupEurotop2018.c2_default, RunupEurotop2018.c3_default, RunupEurotop2018.c4_default.
  apply P in HG. rewrite HG. mval. rewrite iribarren_fin by lra. fold xi. rewrite roughness_fin. reflexivity.
Qed.

Lemma dike_coefs : check_best_fit (Fin c1) (Fin c2) (Fin c3) (Fin c4) bf = (Fin k1, Fin k2, Fin k3, Fin k4).
Proof. destruct Hcoef; reflexivity. Qed.

Lemma dike_discharge Rc g : 0 < g -> 0 <= Rc -> slope18 H T B db gf gbeta bf cot' cd cu cot L ->
  value (calculate_overtopping_discharge_q (Fin H) (Fin T) (Fin Rc) beta gbeta' gb' (Fin gf) (Fin gv) (Fin gs) (Fin B) (Fin db) cot' cd cu (Fin c1) (Fin c2) (Fin c3) (Fin c4) bf (Fin g))
  = Ok (Fin (Rmin (weibull A1 B1 (Rc / H)) (weibull k2 B2 (Rc / H)) * q_unit g H),
        Reqb (Rmin (weibull A1 B1 (Rc / H)) (weibull k2 B2 (Rc / H))) (weibull k2 B2 (Rc / H))).
Proof.
  intros Hg HR S. apply dike_factors in S. destruct S as [VS VF].
  pose proof dike_gb as GB. pose proof dike_xi as X. destruct dike_f as [F _]. destruct dike_regimes as (PA1 & PB1 & PB2 & _).
  unfold calculate_overtopping_discharge_q, calculate_dimensionless_overtopping_discharge_q. rewrite dike_coefs.
  rewrite (angle18_factor beta gbeta' gf gbeta HB), bind_ret_l. mval. rewrite VS. mval. rewrite VF. mval.
  unfold q_diml_max_equation. rewrite q_unit_fin by assumption.
  assert (SQ : 0 < sqrt (1 / cot)) by (apply sqrt_lt_R0; rpos).
  assert (PG : 0 < gb) by lra.
  assert (P1 : xi * gb * f * gbeta * gv <> 0) by (apply Rgt_not_eq; rpos). assert (P2 : gf * gbeta * gs <> 0) by (apply Rgt_not_eq; rpos).
  assert (RH : 0 <= Rc / H) by (apply Rmult_le_pos; [assumption|left; apply Rinv_0_lt_compat; assumption]).
  nfin.
  assert (E1 : k1 * (Rc / H) * (1 / (xi * gb * f * gbeta * gv)) = Rc / H / B1) by (unfold B1; field; repeat split; lra).
  assert (E2 : k3 * (Rc / H) * (1 / (gf * gbeta * gs)) = Rc / H / B2) by (unfold B2; field; repeat split; lra).
  rewrite E1, E2.
  assert (0 <= Rc / H / B1) by (apply Rmult_le_pos; [assumption|left; apply Rinv_0_lt_compat; assumption]).
  assert (0 <= Rc / H / B2) by (apply Rmult_le_pos; [assumption|left; apply Rinv_0_lt_compat; assumption]).
  rewrite !npow_13 by assumption. nfin.
  assert (W1 : k4 / sqrt (1 / cot) * xi * gb * exp (- (1) * pow13 (Rc / H / B1)) = weibull A1 B1 (Rc / H)).
  { unfold weibull, A1. replace (- (1) * pow13 (Rc / H / B1)) with (- pow13 (Rc / H / B1)) by ring. ring. }
  assert (W2 : k2 * exp (- (1) * pow13 (Rc / H / B2)) = weibull k2 B2 (Rc / H)).
  { unfold weibull. replace (- (1) * pow13 (Rc / H / B2)) with (- pow13 (Rc / H / B2)) by ring. reflexivity. }
  rewrite W1, W2. reflexivity.
Qed.

Lemma dike_discharge_negative Rc g : 0 < g -> Rc < 0 -> slope18 H T B db gf gbeta bf cot' cd cu cot L ->
  value (calculate_overtopping_discharge_q (Fin H) (Fin T) (Fin Rc) beta gbeta' gb' (Fin gf) (Fin gv) (Fin gs) (Fin B) (Fin db) cot' cd cu (Fin c1) (Fin c2) (Fin c3) (Fin c4) bf (Fin g))
  = Ok (NaN, false).
Proof.
  intros Hg HR S. apply dike_factors in S. destruct S as [VS VF].
  pose proof dike_gb as GB. pose proof dike_xi as X. destruct dike_f as [F _].
  unfold calculate_overtopping_discharge_q, calculate_dimensionless_overtopping_discharge_q. rewrite dike_coefs.
  rewrite (angle18_factor beta gbeta' gf gbeta HB), bind_ret_l. mval. rewrite VS. mval. rewrite VF. mval.
  unfold q_diml_max_equation. rewrite q_unit_fin by assumption.
  assert (SQ : 0 < sqrt (1 / cot)) by (apply sqrt_lt_R0; rpos).
  assert (PG : 0 < gb) by lra.
  assert (P1 : 0 < xi * gb * f * gbeta * gv) by rpos. assert (P2 : 0 < gf * gbeta * gs) by rpos.
  nfin.
  assert (N : forall k d, 0 < k -> 0 < d -> k * (Rc / H) * (1 / d) < 0).
  { intros k d Hk Hd. assert (0 < k * (- Rc / H) * (1 / d)) by rpos. unfold Rdiv in *. lra. }
  rewrite !npow_13_neg by (apply N; assumption). reflexivity.
Qed.

Lemma dike_freeboard q g : 0 < g -> 0 < q -> slope18 H T B db gf gbeta false cot' cd cu cot L ->
  let Q := q / q_unit g H in
  value (calculate_crest_freeboard_Rc (Fin H) (Fin T) (Fin q) beta gbeta' gb' (Fin gf) (Fin gv) (Fin gs) (Fin B) (Fin db) cot' cd cu (Fin c1) (Fin c2) (Fin c3) (Fin c4) bf (Fin g))
  = Ok (if Rle_dec Q A1 then if Rle_dec Q k2
        then (Fin (Rmin (solve_weibull A1 B1 Q) (solve_weibull k2 B2' Q) * H), Reqb (Rmin (solve_weibull A1 B1 Q) (solve_weibull k2 B2' Q)) (solve_weibull k2 B2' Q))
        else (NaN, false) else (NaN, false)).
Proof.
  intros Hg Hq S Q. apply dike_factors in S. destruct S as [VS VF].
  pose proof dike_gb as GB. pose proof dike_xi as X. destruct dike_f as [F _]. destruct dike_regimes as (PA1 & PB1 & PB2 & PB2' & _).
  unfold calculate_crest_freeboard_Rc, calculate_dimensionless_crest_freeboard. rewrite dike_coefs.
  rewrite (angle18_factor beta gbeta' gf gbeta HB), bind_ret_l. mval. rewrite VS. mval. rewrite VF. mval.
  unfold Rc_diml_max_equation. rewrite q_unit_fin by assumption. pose proof (q_unit_pos g H Hg HH) as U.
  assert (SQ : 0 < sqrt (1 / cot)) by (apply sqrt_lt_R0; rpos).
  assert (PG : 0 < gb) by lra. assert (PQ : 0 < Q) by (unfold Q; rpos). assert (PGX : gb * xi <> 0) by (apply Rgt_not_eq; rpos).
  assert (Z1 : 0 < q / q_unit g H * sqrt (1 / cot) * (1 / k4) * (1 / (gb * xi))).
  { assert (0 < gb * xi) by rpos. rpos. }
  assert (Z2 : 0 < q / q_unit g H * (1 / k2)) by rpos.
  change (#1 / #1.3)%num with (Fin 1 / Fin 1.3)%num.
  assert (L1 : nlog (Fin q / Fin (q_unit g H) * nsqrt (#1 / Fin cot) * (#1 / Fin k4) * (#1 / (Fin gb * Fin xi)))%num = Fin (- (ln A1 - ln Q))).
  { nfin. f_equal. assert (ED : ln A1 - ln Q = ln (A1 / Q)) by (symmetry; apply ln_div; assumption). rewrite ED.
    assert (0 < A1 / Q) by rpos. rewrite <- ln_Rinv by assumption. f_equal. unfold A1, Q. field. repeat split; lra. }
  assert (L2 : nlog (Fin q / Fin (q_unit g H) * (#1 / Fin k2))%num = Fin (- (ln k2 - ln Q))).
  { nfin. f_equal. assert (ED : ln k2 - ln Q = ln (k2 / Q)) by (symmetry; apply ln_div; assumption). rewrite ED.
    assert (0 < k2 / Q) by rpos. rewrite <- ln_Rinv by assumption. f_equal. unfold Q. field. repeat split; lra. }
  rewrite L1, L2. clear L1 L2.
  assert (NN : forall x, (- Fin (- x))%num = Fin x) by (intros; cbn; f_equal; lra). rewrite !NN.
  assert (D1 : Q <= A1 <-> 0 <= ln A1 - ln Q).
  { split; [intros [l| ->]; [apply ln_increasing in l; lra|lra]|]. intros l. apply Rnot_lt_le. intros l'. apply ln_increasing in l'; lra. }
  assert (D2 : Q <= k2 <-> 0 <= ln k2 - ln Q).
  { split; [intros [l| ->]; [apply ln_increasing in l; lra|lra]|]. intros l. apply Rnot_lt_le. intros l'. apply ln_increasing in l'; lra. }
  destruct (Rle_dec Q A1) as [l1|l1].
  - rewrite (npow_root (ln A1 - ln Q)) by (apply D1; assumption).
    destruct (Rle_dec Q k2) as [l2|l2].
    + rewrite npow_root by (apply D2; assumption). nfin.
      assert (S1 : root13 (ln A1 - ln Q) * (1 / k1) * xi * gb * f * gbeta * gv = solve_weibull A1 B1 Q) by (unfold solve_weibull, B1; field; lra).
      assert (S2 : root13 (ln k2 - ln Q) * (1 / k3) * f * gbeta * gs = solve_weibull k2 B2' Q) by (unfold solve_weibull, B2'; field; lra).
      rewrite S1, S2. reflexivity.
    + rewrite npow_root_neg by (rewrite D2 in l2; lra). nfin. reflexivity.
  - rewrite (npow_root_neg (ln A1 - ln Q)) by (rewrite D1 in l1; lra). nfin. reflexivity.
Qed.
End Dike.

(** The discharge over a crest above still water is the smaller of the published
    formula and its maximum, and the flag tells which.  The roughness is adjusted
    for the formula, not for the maximum; a berm factor passed in is not used. *)
Theorem C18_discharge : forall H T B db cot L gf gbeta gb gv gs c1 c2 c3 c4 k1 k2 k3 k4 Rc g (cot' cd cu beta gbeta' gb' : num) (bf : bool),
  0 < H -> 0 < T -> 0 < cot -> 0 < gf <= 1 -> 0 < gbeta -> 0 < gv -> 0 < gs -> 0 < k1 -> 0 < k2 -> 0 < k3 -> 0 < k4 -> 0 < g -> 0 <= Rc ->
  eurotop_coefficients c1 c2 c3 c4 bf k1 k2 k3 k4 -> known_or (angle18 beta gf) gbeta' gbeta ->
  let xi := iribarren g0 H T (1 / cot) in
  slope18 H T B db gf gbeta bf cot' cd cu cot L ->
  berm_procedure (fun gb => taw_runup 1.75 4.3 1.5 1.07 gb gf gbeta xi * H) H B L db gb ->
  let q1 := eurotop_q_slope k1 k4 (1 / cot) gb (taw_roughness gf gb xi) gbeta gv xi (Rc / H) in
  let q2 := eurotop_q_max k2 k3 gf gbeta gs (Rc / H) in
  exists reached,
  value (calculate_overtopping_discharge_q (Fin H) (Fin T) (Fin Rc) beta gbeta' gb' (Fin gf) (Fin gv) (Fin gs) (Fin B) (Fin db) cot' cd cu (Fin c1) (Fin c2) (Fin c3) (Fin c4) bf (Fin g))
  = Ok (Fin (Rmin q1 q2 * q_unit g H), reached) /\ (reached = true <-> q2 <= q1).
Proof.
  intros H T B db cot L gf gbeta gb gv gs c1 c2 c3 c4 k1 k2 k3 k4 Rc g cot' cd cu beta gbeta' gb' bf HH HT HC Hgf Hgbeta Hgv Hgs H1 H2 H3 H4 Hg HR Hc HB xi S HG q1 q2.
  eexists. rewrite (dike_discharge H T B db cot L gf gbeta gb gv gs c1 c2 c3 c4 k1 k2 k3 k4) by assumption.
  unfold q1, q2, xi. rewrite (dike_slope_weibull H T B db cot L gf gbeta gb gv k1 k4) by assumption.
  rewrite (dike_max_weibull gf gbeta gs k2 k3) by assumption.
  split; [reflexivity|apply reached_iff].
Qed.

(** For a crest below still water there is no result. *)
Theorem C18_submerged : forall H T B db cot L gf gbeta gb gv gs c1 c2 c3 c4 k1 k2 k3 k4 Rc g (cot' cd cu beta gbeta' gb' : num) (bf : bool),
  0 < H -> 0 < T -> 0 < cot -> 0 < gf <= 1 -> 0 < gbeta -> 0 < gv -> 0 < gs -> 0 < k1 -> 0 < k2 -> 0 < k3 -> 0 < k4 -> 0 < g -> Rc < 0 ->
  eurotop_coefficients c1 c2 c3 c4 bf k1 k2 k3 k4 -> known_or (angle18 beta gf) gbeta' gbeta ->
  slope18 H T B db gf gbeta bf cot' cd cu cot L ->
  berm_procedure (fun gb => taw_runup 1.75 4.3 1.5 1.07 gb gf gbeta (iribarren g0 H T (1 / cot)) * H) H B L db gb ->
  value (calculate_overtopping_discharge_q (Fin H) (Fin T) (Fin Rc) beta gbeta' gb' (Fin gf) (Fin gv) (Fin gs) (Fin B) (Fin db) cot' cd cu (Fin c1) (Fin c2) (Fin c3) (Fin c4) bf (Fin g))
  = Ok (NaN, false).
Proof.
  intros. apply (dike_discharge_negative H T B db cot L gf gbeta gb gv gs c1 c2 c3 c4 k1 k2 k3 k4); assumption.
Qed.

(** Positive, and smaller for a higher crest. *)
Theorem C18_positive_decreasing : forall H T B db cot L gf gbeta gb gv gs c1 c2 c3 c4 k1 k2 k3 k4 Rc Rc' g (cot' cd cu beta gbeta' gb' : num) (bf : bool),
  0 < H -> 0 < T -> 0 < cot -> 0 < gf <= 1 -> 0 < gbeta -> 0 < gv -> 0 < gs -> 0 < k1 -> 0 < k2 -> 0 < k3 -> 0 < k4 -> 0 < g -> 0 <= Rc < Rc' ->
  eurotop_coefficients c1 c2 c3 c4 bf k1 k2 k3 k4 -> known_or (angle18 beta gf) gbeta' gbeta ->
  slope18 H T B db gf gbeta bf cot' cd cu cot L ->
  berm_procedure (fun gb => taw_runup 1.75 4.3 1.5 1.07 gb gf gbeta (iribarren g0 H T (1 / cot)) * H) H B L db gb ->
  let discharge Rc := value (calculate_overtopping_discharge_q (Fin H) (Fin T) (Fin Rc) beta gbeta' gb' (Fin gf) (Fin gv) (Fin gs) (Fin B) (Fin db) cot' cd cu (Fin c1) (Fin c2) (Fin c3) (Fin c4) bf (Fin g)) in
  exists q q' r r', discharge Rc = Ok (Fin q, r) /\ discharge Rc' = Ok (Fin q', r') /\ 0 < q' < q.
Proof.
  intros H T B db cot L gf gbeta gb gv gs c1 c2 c3 c4 k1 k2 k3 k4 Rc Rc' g cot' cd cu beta gbeta' gb' bf HH HT HC Hgf Hgbeta Hgv Hgs H1 H2 H3 H4 Hg HR Hc HB S HG discharge.
  unfold discharge. do 4 eexists.
  split; [apply (dike_discharge H T B db cot L gf gbeta gb gv gs c1 c2 c3 c4 k1 k2 k3 k4); (assumption || lra)|].
  split; [apply (dike_discharge H T B db cot L gf gbeta gb gv gs c1 c2 c3 c4 k1 k2 k3 k4); (assumption || lra)|].
  destruct (dike_regimes H T B db cot L gf gbeta gb gv gs k1 k3 k4) as (PA & PB1 & PB2 & _); try assumption.
  pose proof (q_unit_pos g H Hg HH) as U.
  assert (LR : Rc / H < Rc' / H) by (apply Rmult_lt_compat_r; [apply Rinv_0_lt_compat; assumption|lra]).
  assert (R0 : 0 <= Rc / H) by (apply Rmult_le_pos; [lra|left; apply Rinv_0_lt_compat; assumption]).
  split.
  - apply Rmult_lt_0_compat; [|assumption]. apply Rmin_glb_lt; apply weibull_pos; assumption.
  - apply Rmult_lt_compat_r; [assumption|]. apply Rmin_glb_lt; [eapply Rle_lt_trans; [apply Rmin_l|]|eapply Rle_lt_trans; [apply Rmin_r|]]; apply weibull_decreasing; assumption.
Qed.

(** Where the roughness needs no adjustment the freeboard function is the exact
    inverse of the discharge function for crests above still water, with the same
    flag and whatever the gravity. *)
Theorem C18_round_trip : forall H T B db cot L gf gbeta gb gv gs c1 c2 c3 c4 k1 k2 k3 k4 Rc q g (cot' cd cu beta gbeta' gb' : num) (bf reached : bool),
  0 < H -> 0 < T -> 0 < cot -> 0 < gf <= 1 -> 0 < gbeta -> 0 < gv -> 0 < gs -> 0 < k1 -> 0 < k2 -> 0 < k3 -> 0 < k4 -> 0 < g -> 0 < q ->
  eurotop_coefficients c1 c2 c3 c4 bf k1 k2 k3 k4 -> known_or (angle18 beta gf) gbeta' gbeta ->
  let xi := iribarren g0 H T (1 / cot) in
  slope18 H T B db gf gbeta bf cot' cd cu cot L -> slope18 H T B db gf gbeta false cot' cd cu cot L ->
  berm_procedure (fun gb => taw_runup 1.75 4.3 1.5 1.07 gb gf gbeta xi * H) H B L db gb ->
  (gf = 1 \/ gb * xi < 1.8 \/ 10 < gb * xi) ->
  (0 <= Rc /\ value (calculate_overtopping_discharge_q (Fin H) (Fin T) (Fin Rc) beta gbeta' gb' (Fin gf) (Fin gv) (Fin gs) (Fin B) (Fin db) cot' cd cu (Fin c1) (Fin c2) (Fin c3) (Fin c4) bf (Fin g))
     = Ok (Fin q, reached)
   <-> value (calculate_crest_freeboard_Rc (Fin H) (Fin T) (Fin q) beta gbeta' gb' (Fin gf) (Fin gv) (Fin gs) (Fin B) (Fin db) cot' cd cu (Fin c1) (Fin c2) (Fin c3) (Fin c4) bf (Fin g))
     = Ok (Fin Rc, reached)).
Proof.
  intros H T B db cot L gf gbeta gb gv gs c1 c2 c3 c4 k1 k2 k3 k4 Rc q g cot' cd cu beta gbeta' gb' bf reached HH HT HC Hgf Hgbeta Hgv Hgs H1 H2 H3 H4 Hg Hq Hc HB xi S S' HG NA.
  destruct (dike_regimes H T B db cot L gf gbeta gb gv gs k1 k3 k4) as (PA & PB1 & PB2 & _); try assumption.
  pose proof (q_unit_pos g H Hg HH) as U.
  assert (F : taw_roughness gf gb xi = gf).
  { unfold taw_roughness. destruct (Rle_dec 1.8 (gb * xi)); [destruct (Rle_dec (gb * xi) 10)|]; try lra. destruct NA as [->|[?|?]]; lra. }
  rewrite (dike_freeboard H T B db cot L gf gbeta gb gv gs c1 c2 c3 c4 k1 k2 k3 k4) by assumption.
  fold xi in PA, PB1 |- *. rewrite F in PB1 |- *.
  pose proof (fun P => dike_discharge H T B db cot L gf gbeta gb gv gs c1 c2 c3 c4 k1 k2 k3 k4 cot' cd cu beta gbeta' gb' bf HH HT HC Hgf Hgbeta Hgv Hgs H1 H2 H3 H4 Hc HB HG Rc g Hg P S) as D.
  cbv zeta in D. fold xi in D. rewrite F in D.
  set (A1 := k4 / sqrt (1 / cot) * gb * xi) in *. set (B1 := xi * gb * gf * gbeta * gv / k1) in *. set (B2 := gf * gbeta * gs / k3) in *.
  set (Q := q / q_unit g H). assert (PQ : 0 < Q) by (unfold Q; rpos). assert (EQ : q = Q * q_unit g H) by (unfold Q; field; lra).
  set (x := Rc / H) in *. assert (EX : Rc = x * H) by (unfold x; field; lra).
  split.
  - intros [HR V]. rewrite D in V by assumption.
    assert (X0 : 0 <= x) by (apply Rmult_le_pos; [assumption|left; apply Rinv_0_lt_compat; assumption]).
    injection V as E <-. rewrite EQ in E. apply Rmult_eq_reg_r in E; [|lra].
    pose proof (weibull_max A1 B1 x PA). pose proof (weibull_max k2 B2 x H2).
    pose proof (Rmin_l (weibull A1 B1 x) (weibull k2 B2 x)). pose proof (Rmin_r (weibull A1 B1 x) (weibull k2 B2 x)).
    destruct (Rle_dec Q A1); [|lra]. destruct (Rle_dec Q k2); [|lra].
    symmetry in E. assert (E' := E). apply two_weibulls in E'; try assumption; [|lra].
    rewrite <- E', <- EX. do 2 f_equal. apply Bool.eq_iff_eq_true. rewrite E' at 1. rewrite !reached_iff.
    symmetry. apply two_weibulls_governing; (assumption || lra).
  - destruct (Rle_dec Q A1); [|discriminate]. destruct (Rle_dec Q k2); [|discriminate].
    intros V. injection V as E <-. rewrite EX in E. apply Rmult_eq_reg_r in E; [|lra].
    assert (X0 : 0 <= x).
    { rewrite <- E. apply Rmin_glb; (apply Rmult_le_pos; [left; assumption|apply root13_nonneg]). }
    assert (HR : 0 <= Rc) by (rewrite EX; apply Rmult_le_pos; lra). split; [exact HR|]. rewrite D by assumption.
    symmetry in E. assert (E' := E). apply two_weibulls in E'; try assumption; [|lra].
    rewrite <- E', <- EQ. do 2 f_equal. apply Bool.eq_iff_eq_true. rewrite E' at 1. rewrite !reached_iff.
    apply two_weibulls_governing; (assumption || lra).
Qed.

(** Rough slopes: still exact where the formula governs. *)
Theorem C18_rough_formula : forall H T B db cot L gf gbeta gb gv gs c1 c2 c3 c4 k1 k2 k3 k4 Rc g (cot' cd cu beta gbeta' gb' : num) (bf : bool),
  0 < H -> 0 < T -> 0 < cot -> 0 < gf <= 1 -> 0 < gbeta -> 0 < gv -> 0 < gs -> 0 < k1 -> 0 < k2 -> 0 < k3 -> 0 < k4 -> 0 < g -> 0 <= Rc ->
  eurotop_coefficients c1 c2 c3 c4 bf k1 k2 k3 k4 -> known_or (angle18 beta gf) gbeta' gbeta ->
  let xi := iribarren g0 H T (1 / cot) in
  slope18 H T B db gf gbeta bf cot' cd cu cot L -> slope18 H T B db gf gbeta false cot' cd cu cot L ->
  berm_procedure (fun gb => taw_runup 1.75 4.3 1.5 1.07 gb gf gbeta xi * H) H B L db gb ->
  eurotop_q_slope k1 k4 (1 / cot) gb (taw_roughness gf gb xi) gbeta gv xi (Rc / H) <= eurotop_q_max k2 k3 gf gbeta gs (Rc / H) ->
  exists q r r',
  value (calculate_overtopping_discharge_q (Fin H) (Fin T) (Fin Rc) beta gbeta' gb' (Fin gf) (Fin gv) (Fin gs) (Fin B) (Fin db) cot' cd cu (Fin c1) (Fin c2) (Fin c3) (Fin c4) bf (Fin g))
    = Ok (Fin q, r)
  /\ value (calculate_crest_freeboard_Rc (Fin H) (Fin T) (Fin q) beta gbeta' gb' (Fin gf) (Fin gv) (Fin gs) (Fin B) (Fin db) cot' cd cu (Fin c1) (Fin c2) (Fin c3) (Fin c4) bf (Fin g))
    = Ok (Fin Rc, r').
Proof.
  intros H T B db cot L gf gbeta gb gv gs c1 c2 c3 c4 k1 k2 k3 k4 Rc g cot' cd cu beta gbeta' gb' bf HH HT HC Hgf Hgbeta Hgv Hgs H1 H2 H3 H4 Hg HR Hc HB xi S S' HG M.
  destruct (dike_regimes H T B db cot L gf gbeta gb gv gs k1 k3 k4) as (PA & PB1 & PB2 & PB2' & LB); try assumption.
  pose proof (q_unit_pos g H Hg HH) as U.
  unfold xi in M. rewrite (dike_slope_weibull H T B db cot L gf gbeta gb gv k1 k4) in M by assumption.
  rewrite (dike_max_weibull gf gbeta gs k2 k3) in M by assumption.
  do 3 eexists. split; [apply (dike_discharge H T B db cot L gf gbeta gb gv gs c1 c2 c3 c4 k1 k2 k3 k4); assumption|].
  fold xi in M |- *. fold xi in PA, PB1, PB2', LB.
  set (f := taw_roughness gf gb xi) in *. set (A1 := k4 / sqrt (1 / cot) * gb * xi) in *. set (B1 := xi * gb * f * gbeta * gv / k1) in *.
  set (B2 := gf * gbeta * gs / k3) in *. set (B2' := f * gbeta * gs / k3) in *. set (x := Rc / H) in *.
  rewrite Rmin_left by lra.
  pose proof (weibull_pos A1 B1 x PA) as PW.
  rewrite (dike_freeboard H T B db cot L gf gbeta gb gv gs c1 c2 c3 c4 k1 k2 k3 k4) by (assumption || rpos).
  fold xi. fold f. fold A1 B1 B2'. replace (weibull A1 B1 x * q_unit g H / q_unit g H) with (weibull A1 B1 x) by (field; lra).
  pose proof (weibull_max A1 B1 x PA). pose proof (weibull_max k2 B2 x H2).
  destruct (Rle_dec (weibull A1 B1 x) A1); [|exfalso; lra]. destruct (Rle_dec (weibull A1 B1 x) k2); [|exfalso; lra].
  assert (X0 : 0 <= x) by (apply Rmult_le_pos; [assumption|left; apply Rinv_0_lt_compat; assumption]).
  assert (E : x = solve_weibull A1 B1 (weibull A1 B1 x)) by (apply weibull_eq; (assumption || lra)).
  assert (E2 : x <= solve_weibull k2 B2 (weibull A1 B1 x)) by (apply weibull_le; (assumption || lra)).
  assert (E3 : solve_weibull k2 B2 (weibull A1 B1 x) <= solve_weibull k2 B2' (weibull A1 B1 x)) by (apply Rmult_le_compat_r; [apply root13_nonneg|assumption]).
  rewrite <- E. rewrite Rmin_left by lra. do 3 f_equal. unfold x. field. lra.
Qed.

(** But where the maximum governs and the roughness is adjusted, the freeboard
    returned is too high. *)
Theorem C18_rough_maximum : forall H T B db cot L gf gbeta gb gv gs c1 c2 c3 c4 k1 k2 k3 k4 Rc g (cot' cd cu beta gbeta' gb' : num) (bf : bool),
  0 < H -> 0 < T -> 0 < cot -> 0 < gf < 1 -> 0 < gbeta -> 0 < gv -> 0 < gs -> 0 < k1 -> 0 < k2 -> 0 < k3 -> 0 < k4 -> 0 < g -> 0 < Rc ->
  eurotop_coefficients c1 c2 c3 c4 bf k1 k2 k3 k4 -> known_or (angle18 beta gf) gbeta' gbeta ->
  let xi := iribarren g0 H T (1 / cot) in
  slope18 H T B db gf gbeta bf cot' cd cu cot L -> slope18 H T B db gf gbeta false cot' cd cu cot L ->
  berm_procedure (fun gb => taw_runup 1.75 4.3 1.5 1.07 gb gf gbeta xi * H) H B L db gb ->
  1.8 <= gb * xi <= 10 -> 1.8 < xi ->
  eurotop_q_max k2 k3 gf gbeta gs (Rc / H) < eurotop_q_slope k1 k4 (1 / cot) gb (taw_roughness gf gb xi) gbeta gv xi (Rc / H) ->
  exists q Rc' r r',
  value (calculate_overtopping_discharge_q (Fin H) (Fin T) (Fin Rc) beta gbeta' gb' (Fin gf) (Fin gv) (Fin gs) (Fin B) (Fin db) cot' cd cu (Fin c1) (Fin c2) (Fin c3) (Fin c4) bf (Fin g))
    = Ok (Fin q, r)
  /\ value (calculate_crest_freeboard_Rc (Fin H) (Fin T) (Fin q) beta gbeta' gb' (Fin gf) (Fin gv) (Fin gs) (Fin B) (Fin db) cot' cd cu (Fin c1) (Fin c2) (Fin c3) (Fin c4) bf (Fin g))
    = Ok (Fin Rc', r') /\ Rc < Rc'.
Proof.
  intros H T B db cot L gf gbeta gb gv gs c1 c2 c3 c4 k1 k2 k3 k4 Rc g cot' cd cu beta gbeta' gb' bf HH HT HC Hgf' Hgbeta Hgv Hgs H1 H2 H3 H4 Hg HR' Hc HB xi S S' HG RX XI M.
  assert (Hgf : 0 < gf <= 1) by lra. assert (HR : 0 <= Rc) by lra.
  destruct (dike_regimes H T B db cot L gf gbeta gb gv gs k1 k3 k4) as (PA & PB1 & PB2 & PB2' & _); try assumption.
  pose proof (q_unit_pos g H Hg HH) as U.
  unfold xi in M. rewrite (dike_slope_weibull H T B db cot L gf gbeta gb gv k1 k4) in M by assumption.
  rewrite (dike_max_weibull gf gbeta gs k2 k3) in M by assumption.
  do 4 eexists. split; [apply (dike_discharge H T B db cot L gf gbeta gb gv gs c1 c2 c3 c4 k1 k2 k3 k4); assumption|].
  fold xi in M |- *. fold xi in PA, PB1, PB2'.
  assert (F : gf < taw_roughness gf gb xi).
  { unfold taw_roughness. destruct (Rle_dec 1.8 (gb * xi)); [destruct (Rle_dec (gb * xi) 10)|]; try lra.
    assert (0 < (1 - gf) * ((xi - 1.8) / 8.2)) by (apply Rmult_lt_0_compat; lra). lra. }
  set (f := taw_roughness gf gb xi) in *. set (A1 := k4 / sqrt (1 / cot) * gb * xi) in *. set (B1 := xi * gb * f * gbeta * gv / k1) in *.
  set (B2 := gf * gbeta * gs / k3) in *. set (B2' := f * gbeta * gs / k3) in *. set (x := Rc / H) in *.
  assert (LB : B2 < B2').
  { unfold B2, B2', Rdiv. apply Rmult_lt_compat_r; [apply Rinv_0_lt_compat; assumption|]. rewrite !Rmult_assoc. apply Rmult_lt_compat_r; [rpos|exact F]. }
  rewrite Rmin_right by lra.
  pose proof (weibull_pos k2 B2 x H2) as PW.
  rewrite (dike_freeboard H T B db cot L gf gbeta gb gv gs c1 c2 c3 c4 k1 k2 k3 k4) by (assumption || rpos).
  fold xi. fold f. fold A1 B1 B2'. replace (weibull k2 B2 x * q_unit g H / q_unit g H) with (weibull k2 B2 x) by (field; lra).
  pose proof (weibull_max A1 B1 x PA). pose proof (weibull_max k2 B2 x H2).
  destruct (Rle_dec (weibull k2 B2 x) A1); [|exfalso; lra]. destruct (Rle_dec (weibull k2 B2 x) k2); [|exfalso; lra].
  split; [reflexivity|].
  assert (X0 : 0 < x) by (unfold x; rpos).
  assert (E : x < solve_weibull A1 B1 (weibull k2 B2 x)) by (apply weibull_lt; (assumption || lra)).
  assert (E2 : x = solve_weibull k2 B2 (weibull k2 B2 x)) by (apply weibull_eq; (assumption || lra)).
  assert (E3 : solve_weibull k2 B2 (weibull k2 B2 x) < solve_weibull k2 B2' (weibull k2 B2 x)).
  { unfold solve_weibull in *. set (y := root13 (ln k2 - ln (weibull k2 B2 x))) in *.
    apply Rmult_lt_compat_r; [|exact LB]. apply (Rmult_lt_reg_l B2); [assumption|]. rewrite <- E2, Rmult_0_r. exact X0. }
  apply (Rle_lt_trans _ (x * H)); [right; unfold x; field; lra|]. apply Rmult_lt_compat_r; [assumption|]. apply Rmin_glb_lt; [exact E|]. eapply Rle_lt_trans; [right; exact E2|exact E3].
Qed.

(** A berm factor passed to the dike functions is not used. *)
Theorem C18_berm_factor_ignored : forall (H T x beta gbeta gb gb' gf gv gs B db cot cd cu c1 c2 c3 c4 g : num) (bf : bool),
  calculate_overtopping_discharge_q H T x beta gbeta gb gf gv gs B db cot cd cu c1 c2 c3 c4 bf g
  = calculate_overtopping_discharge_q H T x beta gbeta gb' gf gv gs B db cot cd cu c1 c2 c3 c4 bf g
  /\ calculate_crest_freeboard_Rc H T x beta gbeta gb gf gv gs B db cot cd cu c1 c2 c3 c4 bf g
  = calculate_crest_freeboard_Rc H T x beta gbeta gb' gf gv gs B db cot cd cu c1 c2 c3 c4 bf g.
Proof. intros. split; reflexivity. Qed.

(** A smooth slope and a rough one, concretely: waves of 1 m on a slope of 1:1
    (ksi 5) with a freeboard of 2 m.  The smooth one gets its freeboard back, the
    rough one does not. *)
Theorem C18_rough_refuted : exists T q Rc' r r', 0 < T
  /\ value (calculate_overtopping_discharge_q #1 (Fin T) #2 #0 NaN NaN #0.5 #1 #1 #0 #0 #1 NaN NaN c1_default c2_default c3_default c4_default false g_default) = Ok (Fin q, r)
  /\ value (calculate_crest_freeboard_Rc #1 (Fin T) (Fin q) #0 NaN NaN #0.5 #1 #1 #0 #0 #1 NaN NaN c1_default c2_default c3_default c4_default false g_default) = Ok (Fin Rc', r')
  /\ 2 < Rc'.
Proof.
  set (T := sqrt (2 * PI * 1 / (g0 * 0.04))). pose proof g0_pos as G0.
  assert (HT : 0 < T) by (apply sqrt_lt_R0; pose proof PI_RGT_0; rpos).
  assert (X : iribarren g0 1 T (1 / 1) = 5).
  { unfold iribarren, T. rewrite period_of by lra. replace (sqrt 0.04) with 0.2 by (replace 0.04 with (0.2 ^ 2) by lra; rewrite sqrt_pow2; lra). lra. }
  unfold c1_default, c2_default, c3_default, c4_default, g_default. fold g0. exists T.
  assert (GB : eurotop_oblique 0.0033 0.5 0 = 1).
  { unfold eurotop_oblique, taw_oblique. rewrite Rabs_R0, Rmin_left by lra. destruct (Rlt_dec 0.6 0.5); lra. }
  destruct (C18_rough_maximum 1 T 0 0 1 (1 * 1 + 0 + 1 * 1) 0.5 1 1 1 1 2.5 0.1035 1.35 0.026 2.5 0.1035 1.35 0.026 2 g0 #1 NaN NaN #0 NaN NaN false)
    as (q & Rc' & r & r' & V1 & V2 & LT); try lra; try (constructor; fail).
  - constructor. exists 0. split; [reflexivity|]. symmetry. exact GB.
  - constructor. left. reflexivity.
  - rewrite X. unfold taw_roughness, eurotop_q_max, eurotop_q_slope.
    destruct (Rle_dec 1.8 (1 * 5)); [|lra]. destruct (Rle_dec (1 * 5) 10); [|lra]. replace (1 / 1) with 1 by lra. rewrite sqrt_1.
    assert (E : exp (- pow13 (1.35 * (2 / 1) / (0.5 * 1 * 1))) < exp (- pow13 (2.5 * (2 / 1) / (5 * 1 * (0.5 + (1 - 0.5) * ((5 - 1.8) / 8.2)) * 1 * 1)))).
    { apply exp_increasing, Ropp_lt_contravar. apply pow13_increasing; lra. }
    pose proof (exp_pos (- pow13 (1.35 * (2 / 1) / (0.5 * 1 * 1)))). lra.
  - exists q, Rc', r, r'. repeat split; assumption.
Qed.

(** ** Rubble mounds *)
Section Mound.
Variables (H T B db cot L gf gbeta c2 c3 k1 k2 k3 k4 : R) (cot' cd cu beta gbeta' : num) (bf : bool).
Hypotheses (HH : 0 < H) (HT : 0 < T) (HC : 0 < cot) (Hgf : 0 < gf <= 1) (Hgbeta : 0 < gbeta) (H2 : 0 < k2) (H3 : 0 < k3).
Hypothesis (Hcoef : eurotop_coefficients k1 c2 c3 k4 bf (if bf then 2.7 else k1) k2 k3 (if bf then 0.023 else k4)).
Hypothesis (HB : known_or (angle18 beta gf) gbeta' gbeta).

Let xi := iribarren g0 H T (1 / cot).
Let f := taw_roughness gf 1 xi.
Let B2 := f * gbeta / k3.

Lemma mound18_f : 0 < f.
Proof. apply roughness_pos; try assumption; [lra|]. apply iribarren_pos; try assumption; [apply g0_pos|rpos]. Qed.
Lemma mound18_B : 0 < B2.
Proof. pose proof mound18_f. unfold B2. rpos. Qed.

Lemma mound18_coefs : exists a b, check_best_fit NaN (Fin c2) (Fin c3) NaN bf = (a, Fin k2, Fin k3, b).
Proof. destruct bf; inversion Hcoef; subst; repeat eexists; reflexivity. Qed.

Lemma mound_check_ok (x : num) : value (check_validity_range_rubble_mound x) = Ok tt.
Proof. unfold check_validity_range_rubble_mound. mchecks. reflexivity. Qed.

Lemma mound18_discharge Rc g : 0 < g -> slope18 H T B db gf gbeta bf cot' cd cu cot L ->
  value (calculate_overtopping_discharge_q_rubble_mound (Fin H) (Fin T) (Fin Rc) beta gbeta' (Fin gf) (Fin B) (Fin db) cot' cd cu (Fin c2) (Fin c3) bf (Fin g))
  = Ok (if Rle_dec 0 Rc then Fin (weibull k2 B2 (Rc / H) * q_unit g H) else NaN).
Proof.
  intros Hg S. apply slope18_value in S. destruct S as [VS _]. pose proof mound18_f as F. pose proof mound18_B as PB.
  destruct mound18_coefs as (a & b & EC).
  unfold calculate_overtopping_discharge_q_rubble_mound, calculate_dimensionless_overtopping_discharge_q_rubble_mound. rewrite EC.
  rewrite (angle18_factor beta gbeta' gf gbeta HB), bind_ret_l. mval. rewrite VS. mval. rewrite mound_check_ok. mval.
  rewrite iribarren_fin by lra. fold xi. rewrite roughness_fin. fold f. unfold q_diml_max_equation, gamma_star_default. rewrite q_unit_fin by assumption.
  assert (P2 : f * gbeta * 1 <> 0) by (apply Rgt_not_eq; rpos). nfin.
  assert (E2 : k3 * (Rc / H) * (1 / (f * gbeta * 1)) = Rc / H / B2) by (unfold B2; field; repeat split; lra).
  rewrite E2. destruct (Rle_dec 0 Rc) as [HR|HR].
  - assert (0 <= Rc / H) by (apply Rmult_le_pos; [assumption|left; apply Rinv_0_lt_compat; assumption]).
    rewrite npow_13 by (apply Rmult_le_pos; [assumption|left; apply Rinv_0_lt_compat; assumption]). nfin. do 3 f_equal. unfold weibull. do 2 f_equal. ring.
  - rewrite npow_13_neg; [reflexivity|]. assert (0 < - Rc / H / B2) by (assert (0 < - Rc) by lra; rpos). unfold Rdiv in *. lra.
Qed.

Lemma mound18_freeboard q g : 0 < g -> 0 < q -> slope18 H T B db gf gbeta false cot' cd cu cot L ->
  let Q := q / q_unit g H in
  value (calculate_crest_freeboard_Rc_rubble_mound (Fin H) (Fin T) (Fin q) beta gbeta' (Fin gf) (Fin B) (Fin db) cot' cd cu (Fin c2) (Fin c3) bf (Fin g))
  = Ok (if Rle_dec Q k2 then Fin (solve_weibull k2 B2 Q * H) else NaN).
Proof.
  intros Hg Hq S Q. apply slope18_value in S. destruct S as [VS _]. pose proof mound18_f as F. pose proof mound18_B as PB.
  destruct mound18_coefs as (a & b & EC). pose proof (q_unit_pos g H Hg HH) as U.
  unfold calculate_crest_freeboard_Rc_rubble_mound, calculate_dimensionless_crest_freeboard_rubble_mound. rewrite EC.
  rewrite (angle18_factor beta gbeta' gf gbeta HB), bind_ret_l. mval. rewrite VS. mval. rewrite mound_check_ok. mval.
  rewrite iribarren_fin by lra. fold xi. rewrite roughness_fin. fold f. unfold Rc_diml_max_equation, gamma_star_default. rewrite q_unit_fin by assumption.
  assert (PQ : 0 < Q) by (unfold Q; rpos). assert (Z2 : 0 < q / q_unit g H * (1 / k2)) by rpos.
  assert (L2 : nlog (Fin q / Fin (q_unit g H) * (#1 / Fin k2))%num = Fin (- (ln k2 - ln Q))).
  { nfin. f_equal. assert (ED : ln k2 - ln Q = ln (k2 / Q)) by (symmetry; apply ln_div; assumption). rewrite ED.
    assert (0 < k2 / Q) by rpos. rewrite <- ln_Rinv by assumption. f_equal. unfold Q. field. repeat split; lra. }
  rewrite L2.
  assert (NN : forall x, (- Fin (- x))%num = Fin x) by (intros; cbn; f_equal; lra). rewrite !NN.
  assert (D2 : Q <= k2 <-> 0 <= ln k2 - ln Q).
  { split; [intros [l| ->]; [apply ln_increasing in l; lra|lra]|]. intros l. apply Rnot_lt_le. intros l'. apply ln_increasing in l'; lra. }
  destruct (Rle_dec Q k2) as [l2|l2].
  - rewrite npow_root by (apply D2; assumption). nfin. do 3 f_equal. unfold solve_weibull, B2. field. lra.
  - rewrite npow_root_neg by (rewrite D2 in l2; lra). nfin. reflexivity.
Qed.
End Mound.

(** The coefficients of the maximum. *)
Inductive eurotop_max_coefficients (c2 c3 : R) : bool -> R -> R -> Prop :=
| max_design : eurotop_max_coefficients c2 c3 false c2 c3
| max_best_fit : eurotop_max_coefficients c2 c3 true 0.09 1.5.

Lemma max_coefs c2 c3 (bf : bool) k2 k3 : eurotop_max_coefficients c2 c3 bf k2 k3 ->
  eurotop_coefficients 0 c2 c3 0 bf (if bf then 2.7 else 0) k2 k3 (if bf then 0.023 else 0).
Proof. destruct 1; constructor. Qed.

(** The discharge is the published maximum, with adjusted roughness; no result
    for a crest below still water. *)
Theorem C18_mound_discharge : forall H T B db cot L gf gbeta c2 c3 k2 k3 Rc g (cot' cd cu beta gbeta' : num) (bf : bool),
  0 < H -> 0 < T -> 0 < cot -> 0 < gf <= 1 -> 0 < gbeta -> 0 < k2 -> 0 < k3 -> 0 < g ->
  eurotop_max_coefficients c2 c3 bf k2 k3 -> known_or (angle18 beta gf) gbeta' gbeta ->
  slope18 H T B db gf gbeta bf cot' cd cu cot L ->
  let f := taw_roughness gf 1 (iribarren g0 H T (1 / cot)) in
  value (calculate_overtopping_discharge_q_rubble_mound (Fin H) (Fin T) (Fin Rc) beta gbeta' (Fin gf) (Fin B) (Fin db) cot' cd cu (Fin c2) (Fin c3) bf (Fin g))
  = Ok (if Rle_dec 0 Rc then Fin (eurotop_q_max k2 k3 f gbeta 1 (Rc / H) * q_unit g H) else NaN).
Proof.
  intros H T B db cot L gf gbeta c2 c3 k2 k3 Rc g cot' cd cu beta gbeta' bf HH HT HC Hgf Hgbeta H2 H3 Hg Hc HB S f.
  rewrite (mound18_discharge H T B db cot L gf gbeta c2 c3 0 k2 k3 0) by (try apply max_coefs; assumption).
  pose proof (mound18_f H T cot gf HH HT HC Hgf). fold f. fold f in H0.
  destruct (Rle_dec 0 Rc); [|reflexivity]. unfold eurotop_q_max, weibull. do 7 f_equal. field. repeat split; lra.
Qed.

(** Discharge and freeboard are exact inverses for crests above still water, for
    any gravity. *)
Theorem C18_mound_round_trip : forall H T B db cot L gf gbeta c2 c3 k2 k3 Rc q g (cot' cd cu beta gbeta' : num) (bf : bool),
  0 < H -> 0 < T -> 0 < cot -> 0 < gf <= 1 -> 0 < gbeta -> 0 < k2 -> 0 < k3 -> 0 < g -> 0 < q ->
  eurotop_max_coefficients c2 c3 bf k2 k3 -> known_or (angle18 beta gf) gbeta' gbeta ->
  slope18 H T B db gf gbeta bf cot' cd cu cot L -> slope18 H T B db gf gbeta false cot' cd cu cot L ->
  (value (calculate_overtopping_discharge_q_rubble_mound (Fin H) (Fin T) (Fin Rc) beta gbeta' (Fin gf) (Fin B) (Fin db) cot' cd cu (Fin c2) (Fin c3) bf (Fin g)) = Ok (Fin q)
   <-> value (calculate_crest_freeboard_Rc_rubble_mound (Fin H) (Fin T) (Fin q) beta gbeta' (Fin gf) (Fin B) (Fin db) cot' cd cu (Fin c2) (Fin c3) bf (Fin g)) = Ok (Fin Rc)).
Proof.
  intros H T B db cot L gf gbeta c2 c3 k2 k3 Rc q g cot' cd cu beta gbeta' bf HH HT HC Hgf Hgbeta H2 H3 Hg Hq Hc HB S S'.
  rewrite (mound18_discharge H T B db cot L gf gbeta c2 c3 0 k2 k3 0) by (try apply max_coefs; assumption).
  rewrite (mound18_freeboard H T B db cot L gf gbeta c2 c3 0 k2 k3 0) by (try apply max_coefs; assumption).
  pose proof (mound18_B H T cot gf gbeta k3 HH HT HC Hgf Hgbeta H3) as PB. pose proof (q_unit_pos g H Hg HH) as U.
  set (B2 := taw_roughness gf 1 (iribarren g0 H T (1 / cot)) * gbeta / k3) in *.
  set (Q := q / q_unit g H). assert (PQ : 0 < Q) by (unfold Q; rpos). assert (EQ : q = Q * q_unit g H) by (unfold Q; field; lra).
  set (x := Rc / H). assert (EX : Rc = x * H) by (unfold x; field; lra).
  split.
  - destruct (Rle_dec 0 Rc) as [HR|]; [|discriminate]. intros V. injection V as E. rewrite EQ in E. apply Rmult_eq_reg_r in E; [|lra].
    assert (X0 : 0 <= x) by (apply Rmult_le_pos; [assumption|left; apply Rinv_0_lt_compat; assumption]).
    pose proof (weibull_max k2 B2 x H2). destruct (Rle_dec Q k2); [|lra].
    symmetry in E. apply weibull_eq in E; try (assumption || lra). rewrite <- E, <- EX. reflexivity.
  - destruct (Rle_dec Q k2); [|discriminate]. intros V. injection V as E. rewrite EX in E. apply Rmult_eq_reg_r in E; [|lra].
    assert (X0 : 0 <= x) by (rewrite <- E; apply Rmult_le_pos; [left; assumption|apply root13_nonneg]).
    assert (HR : 0 <= Rc) by (rewrite EX; apply Rmult_le_pos; lra). destruct (Rle_dec 0 Rc); [|lra].
    symmetry in E. apply weibull_eq in E; try (assumption || lra). rewrite <- E, <- EQ. reflexivity.
Qed.

(** Warnings: a rubble mound has one range, and a dike without a berm none. *)
Theorem C58_eurotop_mound : forall (H T x beta gbeta gf B db cot cu c2 c3 g : num) bf, gbeta <> NaN -> cot <> NaN ->
  let F := "EurOtop (2018) - rubble mound"%string in
  reported [ XRange "Cotangent alpha" F cot (#4 / #3) #2 ]
    (warns (calculate_overtopping_discharge_q_rubble_mound H T x beta gbeta gf B db cot NaN cu c2 c3 bf g))
  /\ reported [ XRange "Cotangent alpha" F cot (#4 / #3) #2 ]
    (warns (calculate_crest_freeboard_Rc_rubble_mound H T x beta gbeta gf B db cot NaN cu c2 c3 bf g)).
Proof.
  intros H T x beta gbeta gf B db cot cu c2 c3 g bf N1 N2 F.
  assert (G : factor_beta beta gbeta gf = ret gbeta).
  { unfold factor_beta. assert (K : RunupTAW2002.check_calculate_gamma_beta beta gbeta = ret false) by (destruct beta, gbeta; try reflexivity; congruence).
    rewrite K, bind_ret_l. reflexivity. }
  assert (K : forall b, slope H T cot NaN cu B db gf gbeta b = ret cot).
  { intros b. unfold slope. assert (K : RunupTAW2002.check_composite_slope cot NaN cu = ret false) by (destruct cot; try reflexivity; congruence).
    rewrite K, bind_ret_l. reflexivity. }
  unfold calculate_overtopping_discharge_q_rubble_mound, calculate_crest_freeboard_Rc_rubble_mound, calculate_dimensionless_overtopping_discharge_q_rubble_mound, calculate_dimensionless_crest_freeboard_rubble_mound.
  destruct (check_best_fit NaN c2 c3 NaN bf) as [[[? ?] ?] ?].
  rewrite !G, !bind_ret_l, !K, !bind_ret_l, !bind_assoc. cbv zeta. unfold check_validity_range_rubble_mound.
  split; reports.
Qed.

Theorem C58_eurotop_dike : forall (H T x beta gbeta gb gf gv gs db cot cu c1 c2 c3 c4 g : num) bf, gbeta <> NaN -> cot <> NaN ->
  warns (calculate_overtopping_discharge_q H T x beta gbeta gb gf gv gs #0 db cot NaN cu c1 c2 c3 c4 bf g) = []
  /\ warns (calculate_crest_freeboard_Rc H T x beta gbeta gb gf gv gs #0 db cot NaN cu c1 c2 c3 c4 bf g) = [].
Proof.
  intros H T x beta gbeta gb gf gv gs db cot cu c1 c2 c3 c4 g bf N1 N2.
  assert (G : factor_beta beta gbeta gf = ret gbeta).
  { unfold factor_beta. assert (K : RunupTAW2002.check_calculate_gamma_beta beta gbeta = ret false) by (destruct beta, gbeta; try reflexivity; congruence).
    rewrite K, bind_ret_l. reflexivity. }
  assert (KS : RunupTAW2002.check_composite_slope cot NaN cu = ret false) by (destruct cot; try reflexivity; congruence).
  assert (K : forall b, slope H T cot NaN cu #0 db gf gbeta b = ret cot) by (intros b; unfold slope; rewrite KS, bind_ret_l; reflexivity).
  assert (R : exists t, berm_and_roughness H T cot NaN cu #0 db gf gbeta = ret t).
  { unfold berm_and_roughness, RunupTAW2002.calculate_berm_length. rewrite KS, !bind_ret_l.
    assert (P : forall L, RunupEurotop2018.iteration_procedure_gamma_b H T cot #0 L db gbeta RunupEurotop2018.c1_default RunupEurotop2018.c2_default RunupEurotop2018.c3_default RunupEurotop2018.c4_default false gf = ret #1).
    { intros L. unfold RunupEurotop2018.iteration_procedure_gamma_b, RunupTAW2002.iteration_procedure_gamma_b, RunupTAW2002.iteration_procedure_gamma_b_body. cbn [RunupEurotop2018.check_best_fit].
      replace (neqb #0 #0) with true; [reflexivity|]. cbn. symmetry. apply Reqb_true. reflexivity. }
    rewrite P, bind_ret_l. eexists. reflexivity. }
  destruct R as ([[? ?] ?] & R).
  unfold calculate_overtopping_discharge_q, calculate_crest_freeboard_Rc, calculate_dimensionless_overtopping_discharge_q, calculate_dimensionless_crest_freeboard.
  destruct (check_best_fit c1 c2 c3 c4 bf) as [[[? ?] ?] ?].
  rewrite !G, !bind_ret_l, !K, !bind_ret_l, !R, !bind_ret_l. split; reflexivity.
Qed.

(** Waves of 2 m with a steepness of 4% on a smooth slope of 1:5 (ksi 1) with a
    freeboard of 2 m: the formula governs for the dike. *)
Example C18_example : exists T q, 0 < T
  /\ q = Rmin (0.026 / sqrt (1 / 5) * 1 * 1 * exp (- pow13 2.5)) (0.1035 * exp (- pow13 1.35)) * sqrt (9.81 * 2 ^ 3)
  /\ value (calculate_overtopping_discharge_q #2 (Fin T) #2 #0 NaN NaN #1 #1 #1 #0 #0 #5 NaN NaN c1_default c2_default c3_default c4_default false g_default) = Ok (Fin q, false)
  /\ value (calculate_crest_freeboard_Rc #2 (Fin T) (Fin q) #0 NaN NaN #1 #1 #1 #0 #0 #5 NaN NaN c1_default c2_default c3_default c4_default false g_default) = Ok (#2, false)
  /\ value (calculate_overtopping_discharge_q_rubble_mound #2 (Fin T) #2 #0 NaN #1 #0 #0 #5 NaN NaN c2_default c3_default false g_default)
     = Ok (Fin (0.1035 * exp (- pow13 1.35) * sqrt (9.81 * 2 ^ 3))).
Proof.
  pose proof g0_pos as G0. pose proof PI_RGT_0 as PI0. set (T := sqrt (2 * PI * 2 / (g0 * 0.04))).
  assert (HT : 0 < T) by (apply sqrt_lt_R0; rpos).
  assert (X : iribarren g0 2 T (1 / 5) = 1).
  { unfold iribarren, T. rewrite period_of by lra. replace (sqrt 0.04) with 0.2 by (replace 0.04 with (0.2 ^ 2) by lra; rewrite sqrt_pow2; lra). lra. }
  assert (KA : known_or (angle18 #0 1) NaN 1).
  { constructor. exists 0. split; [reflexivity|]. unfold eurotop_oblique, taw_oblique. rewrite Rabs_R0, Rmin_left by lra. destruct (Rlt_dec 0.6 1); lra. }
  assert (HG : berm_procedure (fun gb => taw_runup 1.75 4.3 1.5 1.07 gb 1 1 (iribarren g0 2 T (1 / 5)) * 2) 2 0 (2 * 5 + 0 + 2 * 5) 0 1) by (constructor; left; reflexivity).
  assert (F : taw_roughness 1 1 1 = 1) by (unfold taw_roughness; destruct (Rle_dec 1.8 (1 * 1)); [lra|reflexivity]).
  unfold c1_default, c2_default, c3_default, c4_default, g_default. fold g0.
  destruct (C18_discharge 2 T 0 0 5 (2 * 5 + 0 + 2 * 5) 1 1 1 1 1 2.5 0.1035 1.35 0.026 2.5 0.1035 1.35 0.026 2 g0 #5 NaN NaN #0 NaN NaN false) as (r & V & RI); try (assumption || lra || constructor).
  rewrite X, F in V, RI.
  assert (E1 : eurotop_q_slope 2.5 0.026 (1 / 5) 1 1 1 1 1 (2 / 2) = 0.026 / sqrt (1 / 5) * 1 * 1 * exp (- pow13 2.5)).
  { unfold eurotop_q_slope. replace (2.5 * (2 / 2) / (1 * 1 * 1 * 1 * 1)) with 2.5 by lra. reflexivity. }
  assert (E2 : eurotop_q_max 0.1035 1.35 1 1 1 (2 / 2) = 0.1035 * exp (- pow13 1.35)).
  { unfold eurotop_q_max. replace (1.35 * (2 / 2) / (1 * 1 * 1)) with 1.35 by lra. reflexivity. }
  rewrite E1, E2 in V, RI.
  assert (P5 : 0.4 < sqrt (1 / 5)). { replace 0.4 with (sqrt (0.4 ^ 2)) by (apply sqrt_pow2; lra). apply sqrt_lt_1_alt. lra. }
  assert (LT : 0.026 / sqrt (1 / 5) * 1 * 1 * exp (- pow13 2.5) < 0.1035 * exp (- pow13 1.35)).
  { assert (0.026 / sqrt (1 / 5) < 0.1035). { apply (Rmult_lt_reg_r (sqrt (1 / 5))); [lra|]. unfold Rdiv. rewrite Rmult_assoc, Rinv_l by lra. lra. }
    assert (exp (- pow13 2.5) < exp (- pow13 1.35)) by (apply exp_increasing, Ropp_lt_contravar, pow13_increasing; lra).
    rewrite !Rmult_1_r. apply Rmult_gt_0_lt_compat; try assumption; [apply exp_pos|lra]. }
  assert (r = false) as -> by (destruct r; [destruct RI as [RI _]; specialize (RI eq_refl); lra|reflexivity]).
  assert (U : q_unit g0 2 = sqrt (9.81 * 2 ^ 3)) by reflexivity.
  exists T, (Rmin (0.026 / sqrt (1 / 5) * 1 * 1 * exp (- pow13 2.5)) (0.1035 * exp (- pow13 1.35)) * q_unit g0 2). split; [exact HT|]. split; [reflexivity|].
  split; [exact V|]. split.
  - assert (P0 : 0 < Rmin (0.026 / sqrt (1 / 5) * 1 * 1 * exp (- pow13 2.5)) (0.1035 * exp (- pow13 1.35)) * q_unit g0 2).
    { apply Rmult_lt_0_compat; [|apply q_unit_pos; lra]. assert (0 < 0.026 / sqrt (1 / 5)) by rpos.
      apply Rmin_glb_lt; (apply Rmult_lt_0_compat; [lra|apply exp_pos]). }
    apply (C18_round_trip 2 T 0 0 5 (2 * 5 + 0 + 2 * 5) 1 1 1 1 1 2.5 0.1035 1.35 0.026 2.5 0.1035 1.35 0.026 2); try assumption; try lra; try (constructor; fail).
    split; [lra|exact V].
  - rewrite (C18_mound_discharge 2 T 0 0 5 (2 * 5 + 0 + 2 * 5) 1 1 0.1035 1.35 0.1035 1.35) by (assumption || lra || constructor).
    rewrite X, F, E2. destruct (Rle_dec 0 2); [reflexivity|lra].
Qed.
