(** Properties C26 and C27: overtopping of rubble mound and sloping structures,
    Van Gent et al. (2025), without wind. *)
From Coq Require Import Reals Lra List Bool String.
From Verif.Lib Require Import Num Monad RTac NTac.
From Verif.Spec Require Import Waves Ranges Overtopping.
From Verif.Model Require Import CoreUtility CorePhysics Numpy VanGent2025.
From Verif.Proofs Require Import Core CheckTac Warns Overtopping VanGent25.
Import ListNotations.
Open Scope R_scope.

Notation qv := calculate_overtopping_discharge_q.
Notation Rv := calculate_crest_freeboard_Rc.

Definition designed (design : bool) (D : R) : R := if design then Rpower D 0.857 else D.
Definition undesigned (design : bool) (Q : R) : R := if design then Rpower Q (1 / 0.857) else Q.

Lemma undesigned_pos d Q : 0 < Q -> 0 < undesigned d Q.
Proof. intros. destruct d; [apply Rpower_pos|assumption]. Qed.

Section Given.
Variables (H T cot gf gb gv gbe Hsw : R).
Hypotheses (HH : 0 < H) (HT : 0 < T) (Hcot : 0 < cot) (Hgf : 0 < gf) (Hgb : 0 < gb) (Hgv : 0 < gv) (Hgbe : 0 < gbe).
Let ksi := iribarren g0 H T (1 / cot).
Let gam := gf * gb * gv * gbe.
Variables Ac beta B db Dn : num.

Lemma qv_value g Rc design : 0 < g ->
  let x := (Rc - 0.4 * Hsw) / H in
  value (qv (Fin H) (Fin Hsw) (Fin T) (Fin Rc) Ac (Fin cot) beta B db Dn (Fin gf) (Fin gb) (Fin gv) (Fin gbe) (Fin g) design false)
  = Ok (Fin (designed design (vg25_discharge cot ksi gam x) * q_unit g H),
        Reqb (vg25_discharge cot ksi gam x) (vg25_maximum cot ksi gam x)).
Proof.
  intros Hg x. unfold qv, calculate_dimensionless_overtopping_discharge_q, factor_beta, factor_b, factor_f. cbn [isnan].
  cbv beta iota zeta. rewrite bind_ret_l. rewrite iribarren_fin by (try assumption; lra).
  rewrite q_general_fin, q_maximum_fin by assumption. fold ksi gam x. mval. rewrite checks_v. mval.
  rewrite q_unit_fin by assumption. nfin. fold (vg25_discharge cot ksi gam x). pose proof (discharge_pos cot ksi gam x Hcot).
  destruct design; nfin; reflexivity.
Qed.

Lemma Rv_value q design : 0 < q ->
  let Q := q / q_unit g0 H in
  let x1 := solve_regime (6.8 / cot) (gam * ksi / 5) (undesigned design Q) in
  let x2 := solve_regime (0.8 / cot) (gam * Rpower ksi 0.24 / 2.5) Q in
  value (Rv (Fin H) (Fin Hsw) (Fin T) (Fin q) Ac (Fin cot) beta B db Dn (Fin gf) (Fin gb) (Fin gv) (Fin gbe) design false)
  = Ok (Fin (Rmin x1 x2 * H + 0.4 * Hsw), Reqb (Rmin x1 x2) x2).
Proof.
  intros Hq Q x1 x2. unfold Rv, calculate_dimensionless_crest_freeboard, factor_beta, factor_b, factor_f. cbn [isnan].
  cbv beta iota zeta. rewrite bind_ret_l. rewrite iribarren_fin by (try assumption; lra).
  pose proof (q_unit_pos g0 H g0_pos HH). 
  assert (U : (nsqrt (g_default * npow (Fin H) #3))%num = Fin (q_unit g0 H)) by (apply q_unit_fin; auto).
  rewrite !U. clear U.
  assert (HQ : 0 < Q) by (apply Rdiv_lt_0_compat; assumption).
  rewrite !(ndiv_fin q) by lra. fold Q.
  assert (E : (if design then npow (Fin Q) (#1 / #0.857) else Fin Q)%num = Fin (undesigned design Q)).
  { destruct design; [|reflexivity]. nfin. reflexivity. }
  rewrite !E. rewrite Rc_general_fin by (try assumption; apply undesigned_pos; assumption).
  rewrite Rc_maximum_fin by assumption. fold ksi gam Q x1 x2. mval. rewrite checks_v. mval.
  nfin.
  assert (A : Rmin (x1 + 0.4 * Hsw / H) (x2 + 0.4 * Hsw / H) = Rmin x1 x2 + 0.4 * Hsw / H)
    by (unfold Rmin; repeat destruct Rle_dec; lra).
  rewrite A. f_equal. f_equal.
  - f_equal. field. lra.
  - unfold Rmin; repeat destruct Rle_dec; repeat match goal with |- context [Reqb ?a ?b] => destruct (Reqb_spec a b) end; lra || reflexivity.
Qed.
End Given.

Lemma min_eq_max_iff cot ksi gam x :
  Reqb (vg25_discharge cot ksi gam x) (vg25_maximum cot ksi gam x) = true
  <-> vg25_maximum cot ksi gam x <= vg25_general cot ksi gam x.
Proof. apply reached_iff. Qed.

(** ** C26: discharge and freeboard *)

(** With the influence factors given the discharge is the published one, at any
    gravity, raised to 0.857 for a design calculation; the flag tells whether
    the maximum governs.  Berm, armour, stones and angle then play no role. *)
Theorem C26_discharge : forall g H T cot gf gb gv gbe Hsw Rc design (Ac beta B db Dn : num),
  0 < g -> 0 < H -> 0 < T -> 0 < cot -> 0 < gf -> 0 < gb -> 0 < gv -> 0 < gbe ->
  let ksi := iribarren g0 H T (1 / cot) in
  let gam := gf * gb * gv * gbe in
  let x := (Rc - 0.4 * Hsw) / H in
  exists reached,
  value (qv (Fin H) (Fin Hsw) (Fin T) (Fin Rc) Ac (Fin cot) beta B db Dn (Fin gf) (Fin gb) (Fin gv) (Fin gbe) (Fin g) design false)
  = Ok (Fin ((if design then Rpower (vg25_discharge cot ksi gam x) 0.857 else vg25_discharge cot ksi gam x) * q_unit g H), reached)
  /\ (reached = true <-> vg25_maximum cot ksi gam x <= vg25_general cot ksi gam x).
Proof.
  intros. eexists. split; [apply qv_value; assumption|]. apply min_eq_max_iff.
Qed.

(** Without design calculation the freeboard function solves the same relation,
    at standard gravity, and agrees about what governs. *)
Theorem C26_freeboard : forall H T cot gf gb gv gbe Hsw q Rc reached (Ac beta B db Dn : num),
  0 < H -> 0 < T -> 0 < cot -> 0 < gf -> 0 < gb -> 0 < gv -> 0 < gbe -> 0 < q ->
  let ksi := iribarren g0 H T (1 / cot) in
  let gam := gf * gb * gv * gbe in
  let x := (Rc - 0.4 * Hsw) / H in
  value (Rv (Fin H) (Fin Hsw) (Fin T) (Fin q) Ac (Fin cot) beta B db Dn (Fin gf) (Fin gb) (Fin gv) (Fin gbe) false false)
  = Ok (Fin Rc, reached)
  <-> q / q_unit g0 H = vg25_discharge cot ksi gam x
      /\ (reached = true <-> vg25_maximum cot ksi gam x <= vg25_general cot ksi gam x).
Proof.
  intros H T cot gf gb gv gbe Hsw q Rc reached Ac beta B db Dn HH HT Hc Hgf Hgb Hgv Hgbe Hq ksi gam x.
  rewrite Rv_value by assumption. cbv zeta. unfold undesigned. fold ksi. fold gam.
  assert (Hk : 0 < ksi) by (apply ksi_pos; assumption). assert (Hg : 0 < gam) by (apply gam_pos; assumption).
  pose proof (Rpower_pos ksi 0.24). pose proof (q_unit_pos g0 H g0_pos HH).
  set (Q := q / q_unit g0 H). assert (HQ : 0 < Q) by (apply Rdiv_lt_0_compat; assumption).
  assert (A1 : 0 < 6.8 / cot) by rpos. assert (A2 : 0 < 0.8 / cot) by rpos.
  assert (B1 : 0 < gam * ksi / 5) by rpos. assert (B2 : 0 < gam * Rpower ksi 0.24 / 2.5) by rpos.
  unfold vg25_discharge. rewrite general_regime, maximum_regime by assumption.
  set (x1 := solve_regime (6.8 / cot) _ Q). set (x2 := solve_regime (0.8 / cot) _ Q).
  assert (X : Rmin x1 x2 * H + 0.4 * Hsw = Rc <-> x = Rmin x1 x2).
  { unfold x. split; [intros <-; field; lra|intros <-; field; lra]. }
  pose proof (two_regimes _ _ _ _ x Q A1 B1 A2 B2 HQ) as TR.
  pose proof (two_regimes_governing _ _ _ _ x Q A1 B1 A2 B2 HQ) as TG.
  fold x1 x2 in TR, TG. pose proof (reached_iff x1 x2) as RI. split.
  - intros E. injection E as E1 E2. apply X, TR in E1. split; [exact E1|]. rewrite (TG E1). rewrite <- E2. exact RI.
  - intros [E1 E2]. pose proof E1 as E1'. apply TR, X in E1'. rewrite E1'. do 2 f_equal. rewrite (TG E1) in E2.
    apply eq_true_iff_eq. tauto.
Qed.

(** So a freeboard comes back from its discharge exactly when the gravity is the
    standard one. *)
Theorem C26_round_trip : forall g H T cot gf gb gv gbe Hsw Rc (Ac beta B db Dn : num),
  0 < g -> 0 < H -> 0 < T -> 0 < cot -> 0 < gf -> 0 < gb -> 0 < gv -> 0 < gbe ->
  exists q reached Rc' reached', 0 < q /\
  value (qv (Fin H) (Fin Hsw) (Fin T) (Fin Rc) Ac (Fin cot) beta B db Dn (Fin gf) (Fin gb) (Fin gv) (Fin gbe) (Fin g) false false)
    = Ok (Fin q, reached) /\
  value (Rv (Fin H) (Fin Hsw) (Fin T) (Fin q) Ac (Fin cot) beta B db Dn (Fin gf) (Fin gb) (Fin gv) (Fin gbe) false false)
    = Ok (Fin Rc', reached') /\
  (Rc' = Rc <-> g = g0) /\ (g = g0 -> reached' = reached).
Proof.
  intros g H T cot gf gb gv gbe Hsw Rc Ac beta B db Dn Hg HH HT Hc Hgf Hgb Hgv Hgbe.
  pose proof (q_unit_pos g H Hg HH) as HU. pose proof (q_unit_pos g0 H g0_pos HH) as HU0.
  set (ksi := iribarren g0 H T (1 / cot)). set (gam := gf * gb * gv * gbe). set (x := (Rc - 0.4 * Hsw) / H).
  pose proof (discharge_pos cot ksi gam x Hc) as HD.
  exists (vg25_discharge cot ksi gam x * q_unit g H), (Reqb (vg25_discharge cot ksi gam x) (vg25_maximum cot ksi gam x)).
  assert (Hq : 0 < vg25_discharge cot ksi gam x * q_unit g H) by (apply Rmult_lt_0_compat; assumption).
  do 2 eexists. split; [exact Hq|]. split; [apply (qv_value H T cot gf gb gv gbe Hsw); assumption|].
  split; [apply Rv_value; assumption|].
  pose proof (Rv_value H T cot gf gb gv gbe Hsw HH HT Hc Ac beta B db Dn _ false Hq) as V. cbv zeta in V.
  apply C26_freeboard in V; try assumption. fold ksi gam in V |- *.
  set (R' := Rmin _ _ * H + 0.4 * Hsw) in *. destruct V as [V1 V2].
  assert (U : vg25_discharge cot ksi gam x * q_unit g H / q_unit g0 H = vg25_discharge cot ksi gam x <-> g = g0).
  { rewrite div_eq by lra. split.
    - intros E. apply Rmult_eq_reg_l in E; [|lra]. unfold q_unit in E.
      apply sqrt_inj in E; try (left; rpos). 2: left; apply Rmult_lt_0_compat; [exact g0_pos|rpos].
      apply Rmult_eq_reg_r in E; [assumption|]. apply Rgt_not_eq. rpos.
    - intros ->. reflexivity. }
  split; [split|].
  - intros E. rewrite E in V1. fold x in V1. apply U. exact V1.
  - intros E.
    assert (W : value (Rv (Fin H) (Fin Hsw) (Fin T) (Fin (vg25_discharge cot ksi gam x * q_unit g H)) Ac (Fin cot) beta B db Dn (Fin gf) (Fin gb) (Fin gv) (Fin gbe) false false)
                = Ok (Fin Rc, Reqb (vg25_discharge cot ksi gam x) (vg25_maximum cot ksi gam x))).
    { apply C26_freeboard; try assumption. fold ksi gam x. split; [apply U; assumption|apply min_eq_max_iff]. }
    rewrite Rv_value in W by assumption. cbv zeta in W. fold ksi gam in W. fold R' in W. congruence.
  - intros E.
    assert (W : value (Rv (Fin H) (Fin Hsw) (Fin T) (Fin (vg25_discharge cot ksi gam x * q_unit g H)) Ac (Fin cot) beta B db Dn (Fin gf) (Fin gb) (Fin gv) (Fin gbe) false false)
                = Ok (Fin Rc, Reqb (vg25_discharge cot ksi gam x) (vg25_maximum cot ksi gam x))).
    { apply C26_freeboard; try assumption. fold ksi gam x. split; [apply U; assumption|apply min_eq_max_iff]. }
    rewrite Rv_value in W by assumption. cbv zeta in W. fold ksi gam in W. congruence.
Qed.

(** In a design calculation the maximum is solved for the discharge before its
    adjustment.  For dimensionless discharges below one the freeboard is then
    never too high, and right only while the adjusted discharge does not exceed
    the maximum at that freeboard. *)
Theorem C26_design_round_trip : forall H T cot gf gb gv gbe Hsw Rc (Ac beta B db Dn : num),
  0 < H -> 0 < T -> 0 < cot -> 0 < gf -> 0 < gb -> 0 < gv -> 0 < gbe ->
  let ksi := iribarren g0 H T (1 / cot) in
  let gam := gf * gb * gv * gbe in
  let x := (Rc - 0.4 * Hsw) / H in
  vg25_discharge cot ksi gam x < 1 ->
  exists q reached Rc' reached',
  value (qv (Fin H) (Fin Hsw) (Fin T) (Fin Rc) Ac (Fin cot) beta B db Dn (Fin gf) (Fin gb) (Fin gv) (Fin gbe) (Fin g0) true false)
    = Ok (Fin q, reached) /\
  value (Rv (Fin H) (Fin Hsw) (Fin T) (Fin q) Ac (Fin cot) beta B db Dn (Fin gf) (Fin gb) (Fin gv) (Fin gbe) true false)
    = Ok (Fin Rc', reached') /\
  Rc' <= Rc /\
  (Rc' = Rc <-> Rpower (vg25_discharge cot ksi gam x) 0.857 <= vg25_maximum cot ksi gam x).
Proof.
  intros H T cot gf gb gv gbe Hsw Rc Ac beta B db Dn HH HT Hc Hgf Hgb Hgv Hgbe ksi gam x HD1.
  pose proof (q_unit_pos g0 H g0_pos HH) as HU0.
  assert (Hk : 0 < ksi) by (apply ksi_pos; assumption). assert (Hgm : 0 < gam) by (apply gam_pos; assumption).
  pose proof (Rpower_pos ksi 0.24).
  pose proof (discharge_pos cot ksi gam x Hc) as HD. set (D := vg25_discharge cot ksi gam x) in *.
  pose proof (Rpower_pos D 0.857) as HP.
  do 4 eexists. split; [apply (qv_value H T cot gf gb gv gbe Hsw); auto|]. fold ksi gam x D. unfold designed.
  split; [apply Rv_value; try assumption; apply Rmult_lt_0_compat; assumption|]. fold ksi gam.
  replace (Rpower D 0.857 * q_unit g0 H / q_unit g0 H) with (Rpower D 0.857) by (field; lra).
  unfold undesigned. rewrite Rpower_cancel by (try assumption; lra).
  assert (A1 : 0 < 6.8 / cot) by rpos. assert (A2 : 0 < 0.8 / cot) by rpos.
  assert (B1 : 0 < gam * ksi / 5) by rpos. assert (B2 : 0 < gam * Rpower ksi 0.24 / 2.5) by rpos.
  assert (E : x = Rmin (solve_regime (6.8 / cot) (gam * ksi / 5) D) (solve_regime (0.8 / cot) (gam * Rpower ksi 0.24 / 2.5) D)).
  { apply two_regimes; try assumption. unfold D, vg25_discharge. rewrite general_regime, maximum_regime by assumption. reflexivity. }
  assert (L : D < Rpower D 0.857).
  { apply ln_lt_pos; try assumption. rewrite ln_Rpower. apply ln_lt_pos in HD1; [|assumption|lra]. rewrite ln_1 in HD1. lra. }
  rewrite maximum_regime by assumption. rewrite regime_le by assumption.
  assert (S : solve_regime (0.8 / cot) (gam * Rpower ksi 0.24 / 2.5) (Rpower D 0.857) < solve_regime (0.8 / cot) (gam * Rpower ksi 0.24 / 2.5) D).
  { unfold solve_regime. apply Rmult_lt_compat_l; [assumption|]. apply ln_lt_pos in L; [lra|assumption..]. }
  set (x1 := solve_regime (6.8 / cot) _ D) in *. set (x2 := solve_regime (0.8 / cot) _ D) in *. set (x2' := solve_regime (0.8 / cot) _ (Rpower D 0.857)) in *.
  assert (R : Rc = x * H + 0.4 * Hsw) by (unfold x; field; lra).
  assert (Y : Rmin x1 x2' <= x) by (rewrite E; unfold Rmin; repeat destruct Rle_dec; lra).
  split.
  - rewrite R. apply Rplus_le_compat_r, Rmult_le_compat_r; [lra|assumption].
  - assert (Z : Rmin x1 x2' * H + 0.4 * Hsw = Rc <-> Rmin x1 x2' = x).
    { rewrite R. split; [|intros ->; reflexivity]. intros Z. apply Rplus_eq_reg_r in Z. apply Rmult_eq_reg_r in Z; lra. }
    rewrite Z. rewrite E. unfold Rmin. repeat destruct Rle_dec; split; lra.
Qed.

(** Where the maximum governs the error is known exactly. *)
Theorem C26_design_error : forall H T cot gf gb gv gbe Hsw Rc (Ac beta B db Dn : num),
  0 < H -> 0 < T -> 0 < cot -> 0 < gf -> 0 < gb -> 0 < gv -> 0 < gbe ->
  let ksi := iribarren g0 H T (1 / cot) in
  let gam := gf * gb * gv * gbe in
  let x := (Rc - 0.4 * Hsw) / H in
  vg25_maximum cot ksi gam x <= vg25_general cot ksi gam x -> vg25_maximum cot ksi gam x < 1 ->
  exists q reached reached',
  value (qv (Fin H) (Fin Hsw) (Fin T) (Fin Rc) Ac (Fin cot) beta B db Dn (Fin gf) (Fin gb) (Fin gv) (Fin gbe) (Fin g0) true false)
    = Ok (Fin q, reached) /\
  value (Rv (Fin H) (Fin Hsw) (Fin T) (Fin q) Ac (Fin cot) beta B db Dn (Fin gf) (Fin gb) (Fin gv) (Fin gbe) true false)
    = Ok (Fin (Rc + 0.143 * ln (vg25_maximum cot ksi gam x) * gam * Rpower ksi 0.24 / 2.5 * H), reached').
Proof.
  intros H T cot gf gb gv gbe Hsw Rc Ac beta B db Dn HH HT Hc Hgf Hgb Hgv Hgbe ksi gam x HM HD1.
  pose proof (q_unit_pos g0 H g0_pos HH) as HU0.
  assert (Hk : 0 < ksi) by (apply ksi_pos; assumption). assert (Hgm : 0 < gam) by (apply gam_pos; assumption).
  pose proof (Rpower_pos ksi 0.24).
  assert (HDm : vg25_discharge cot ksi gam x = vg25_maximum cot ksi gam x) by (unfold vg25_discharge; apply Rmin_right; assumption).
  pose proof (discharge_pos cot ksi gam x Hc) as HD. rewrite HDm in HD. set (D := vg25_maximum cot ksi gam x) in *.
  pose proof (Rpower_pos D 0.857) as HP.
  do 3 eexists. split; [apply (qv_value H T cot gf gb gv gbe Hsw); auto|]. fold ksi gam x. rewrite HDm. unfold designed.
  rewrite Rv_value by (try assumption; apply Rmult_lt_0_compat; assumption). cbv zeta. fold ksi gam.
  replace (Rpower D 0.857 * q_unit g0 H / q_unit g0 H) with (Rpower D 0.857) by (field; lra).
  unfold undesigned. rewrite Rpower_cancel by (try assumption; lra).
  assert (A1 : 0 < 6.8 / cot) by rpos. assert (A2 : 0 < 0.8 / cot) by rpos.
  assert (B1 : 0 < gam * ksi / 5) by rpos. assert (B2 : 0 < gam * Rpower ksi 0.24 / 2.5) by rpos.
  assert (E1 : x <= solve_regime (6.8 / cot) (gam * ksi / 5) D).
  { apply regime_le; try assumption. rewrite <- general_regime by assumption. assumption. }
  assert (E2 : x = solve_regime (0.8 / cot) (gam * Rpower ksi 0.24 / 2.5) D).
  { apply regime_eq; try assumption. rewrite <- maximum_regime by assumption. reflexivity. }
  assert (L : ln D < 0) by (rewrite <- ln_1; apply ln_increasing; assumption).
  assert (S : solve_regime (0.8 / cot) (gam * Rpower ksi 0.24 / 2.5) (Rpower D 0.857) = x + gam * Rpower ksi 0.24 / 2.5 * (0.143 * ln D)).
  { rewrite E2. unfold solve_regime. rewrite ln_Rpower. set (b := _ / 2.5). lra. }
  rewrite S. rewrite Rmin_right.
  - do 3 f_equal. unfold x. field. lra.
  - assert (gam * Rpower ksi 0.24 / 2.5 * (0.143 * ln D) <= 0); [|lra].
    apply Rmult_le_0_l_neg || idtac. set (b := _ / 2.5) in *. assert (0 < b * (- (0.143 * ln D))) by (apply Rmult_lt_0_compat; lra). lra.
Qed.

Theorem C26_design_round_trip_refuted : exists H T cot Rc q reached Rc' reached',
  0 < H /\ 0 < T /\ 0 < cot /\ 0 <= Rc /\
  value (qv (Fin H) #0 (Fin T) (Fin Rc) #0 (Fin cot) NaN #0 #0 NaN #1 #1 #1 #1 (Fin g0) true false) = Ok (Fin q, reached) /\
  value (Rv (Fin H) #0 (Fin T) (Fin q) #0 (Fin cot) NaN #0 #0 NaN #1 #1 #1 #1 true false) = Ok (Fin Rc', reached') /\
  Rc' < Rc.
Proof.
  set (ksi := iribarren g0 1 1 (1 / 1)).
  assert (M : vg25_maximum 1 ksi (1 * 1 * 1 * 1) ((0 - 0.4 * 0) / 1) = 0.8).
  { unfold vg25_maximum. replace ((0 - 0.4 * 0) / 1) with 0 by lra. rewrite Rmult_0_r. unfold Rdiv at 2. rewrite Rmult_0_l, Ropp_0, exp_0. lra. }
  assert (G : vg25_general 1 ksi (1 * 1 * 1 * 1) ((0 - 0.4 * 0) / 1) = 6.8).
  { unfold vg25_general. replace ((0 - 0.4 * 0) / 1) with 0 by lra. rewrite Rmult_0_r. unfold Rdiv at 2. rewrite Rmult_0_l, Ropp_0, exp_0. lra. }
  destruct (C26_design_error 1 1 1 1 1 1 1 0 0 #0 NaN #0 #0 NaN) as (q & r & r' & E1 & E2); try lra; cbv zeta; fold ksi; rewrite ?M, ?G; try lra.
  cbv zeta in E2. fold ksi in E2. rewrite M in E2.
  exists 1, 1, 1, 0, q, r. do 2 eexists. repeat split; try lra; try eassumption.
  assert (ln 0.8 < 0) by (rewrite <- ln_1; apply ln_increasing; lra).
  pose proof (Rpower_pos ksi 0.24).
  assert (0 < Rpower ksi 0.24 * (- ln 0.8)) by (apply Rmult_lt_0_compat; lra). lra.
Qed.

(** The crest-wall factor is never computed when it is left out: whatever the
    other arguments, the result is then no number, and so is the freeboard. *)
Theorem C26_missing_crest_wall_factor : forall Hm0 Hsw T Rc q Ac cot beta B db Dn gf gb gbe g design wind,
  isnan gf = false \/ isnan Dn = false ->
  value (qv Hm0 Hsw T Rc Ac cot beta B db Dn gf gb gamma_v_default gbe g design wind) = Ok (NaN, false) /\
  value (Rv Hm0 Hsw T q Ac cot beta B db Dn gf gb gamma_v_default gbe design wind) = Ok (NaN, false).
Proof.
  intros Hm0 Hsw T Rc q Ac cot beta B db Dn gf gb gbe g design wind Hgf.
  assert (F : exists f, factor_f Hm0 T Dn gf = ret f).
  { unfold factor_f. destruct Hgf as [Hgf|Hgf]; rewrite Hgf; [eexists; reflexivity|].
    destruct (isnan gf); eexists; reflexivity. }
  destruct F as (f & F). unfold gamma_v_default.
  unfold qv, calculate_dimensionless_overtopping_discharge_q, Rv, calculate_dimensionless_crest_freeboard.
  rewrite F, !bind_ret_l. cbv beta iota zeta.
  unfold q_diml_max_equation, Rc_diml_max_equation, Rc_diml_equation. nnan.
  split; mval; rewrite checks_v; mval.
  - destruct wind, design; nnan; try (unfold calculate_influence_wind_gamma_w; rewrite npow_nan_l by lra); reflexivity.
  - reflexivity.
Qed.

(** The only error is ValueError, raised exactly when neither the roughness
    factor nor a stone diameter is given. *)
Theorem C26_error : forall Hm0 Hsw T Rc q Ac cot beta B db Dn gf gb gv gbe g design wind,
  (forall e, value (qv Hm0 Hsw T Rc Ac cot beta B db Dn gf gb gv gbe g design wind) = Err e
     <-> e = ValueError /\ gf = NaN /\ Dn = NaN) /\
  (forall e, value (Rv Hm0 Hsw T q Ac cot beta B db Dn gf gb gv gbe design wind) = Err e
     <-> e = ValueError /\ gf = NaN /\ Dn = NaN).
Proof.
  intros. unfold qv, calculate_dimensionless_overtopping_discharge_q, Rv, calculate_dimensionless_crest_freeboard.
  assert (F : (exists f, factor_f Hm0 T Dn gf = ret f /\ ~ (gf = NaN /\ Dn = NaN)) \/ (factor_f Hm0 T Dn gf = raise ValueError /\ gf = NaN /\ Dn = NaN)).
  { unfold factor_f. destruct gf; cbn [isnan]; try (left; eexists; split; [reflexivity|intros []; discriminate]).
    destruct Dn; cbn [isnan]; try (left; eexists; split; [reflexivity|intros []; discriminate]). right. auto. }
  cbv beta iota zeta. destruct F as [(f & F & N)|(F & N1 & N2)]; rewrite F.
  - split; intros e; mval; rewrite checks_v; mval; (split; [discriminate|tauto]).
  - split; intros e; (split; [intros [= <-]; auto|intros (-> & _); reflexivity]).
Qed.

(** Warnings.  A missing berm (width 0, the default) is always reported as out
    of range. *)
Theorem C26_warnings : forall g H T cot gf gb gv gbe Hsw Rc Ac beta B db Dn design wind,
  0 < H -> 0 < T -> 0 < cot ->
  let f := "Van Gent et al. (2025)"%string in
  flagged
    [ Range "Cotangent alpha slope" f cot 1.5 8;
      Range "Wave steepness sm-1,0" f (steepness g0 H T) 0.001 0.042;
      Range "Iribarren number ksi_m-1,0" f (iribarren g0 H T (1 / cot)) 0.05 6;
      Range "Non-dimensional crest freeboard Rc / Hm0" f (Rc / H) 0.6 5;
      Range "Non-dimensional stone diameter Dn50 / Hm0" f (Dn / H) 0.12 0.9;
      Range "Non-dimensional protruding part of crest wall (Rc - Ac) / Hm0" f ((Rc - Ac) / H) 0 0.68;
      Range "Non-dimensional Berm width B / Hm0" f (B / H) 0.6 5;
      Range "Non-dimensional Berm height db / Hm0" f (db / H) (- (1.7)) 0.5;
      Range "Incident wave angle beta" f beta 0 75 ]
    (warns (qv (Fin H) Hsw (Fin T) (Fin Rc) (Fin Ac) (Fin cot) (Fin beta) (Fin B) (Fin db) (Fin Dn) (Fin gf) gb gv gbe g design wind)).
Proof.
  intros g H T cot gf gb gv gbe Hsw Rc Ac beta B db Dn design wind HH HT Hc f.
  unfold qv, calculate_dimensionless_overtopping_discharge_q, factor_f. cbn [isnan]. cbv zeta. rewrite bind_ret_l.
  unfold check_validity_range, g_default. fold g0.
  rewrite steepness_fin, iribarren_fin by (try assumption; try exact g0_pos; lra).
  set (b1 := (if wind then _ else _)). set (b2 := (if design then _ else _)).
  generalize b2; intros b3. set (b4 := (_ =? _)%num). generalize b4; intros b5.
  unfold f. nfin. flags.
Qed.

Theorem C26_freeboard_warnings : forall H T cot gf gb gv gbe Hsw q Rc reached Ac beta B db Dn design wind,
  0 < H -> 0 < T -> 0 < cot ->
  value (Rv (Fin H) Hsw (Fin T) q (Fin Ac) (Fin cot) (Fin beta) (Fin B) (Fin db) (Fin Dn) (Fin gf) gb gv gbe design wind)
    = Ok (Fin Rc, reached) ->
  let f := "Van Gent et al. (2025)"%string in
  flagged
    [ Range "Cotangent alpha slope" f cot 1.5 8;
      Range "Wave steepness sm-1,0" f (steepness g0 H T) 0.001 0.042;
      Range "Iribarren number ksi_m-1,0" f (iribarren g0 H T (1 / cot)) 0.05 6;
      Range "Non-dimensional crest freeboard Rc / Hm0" f (Rc / H) 0.6 5;
      Range "Non-dimensional stone diameter Dn50 / Hm0" f (Dn / H) 0.12 0.9;
      Range "Non-dimensional protruding part of crest wall (Rc - Ac) / Hm0" f ((Rc - Ac) / H) 0 0.68;
      Range "Non-dimensional Berm width B / Hm0" f (B / H) 0.6 5;
      Range "Non-dimensional Berm height db / Hm0" f (db / H) (- (1.7)) 0.5;
      Range "Incident wave angle beta" f beta 0 75 ]
    (warns (Rv (Fin H) Hsw (Fin T) q (Fin Ac) (Fin cot) (Fin beta) (Fin B) (Fin db) (Fin Dn) (Fin gf) gb gv gbe design wind)).
Proof.
  intros H T cot gf gb gv gbe Hsw q Rc reached Ac beta B db Dn design wind HH HT Hc E f. revert E.
  unfold Rv, calculate_dimensionless_crest_freeboard, factor_f. cbn [isnan]. cbv zeta. rewrite bind_ret_l.
  set (r := nmin (if wind then _ else _) _). set (b := (_ =? _)%num). generalize b. clear b. intros b. generalize r. clear r. intros r.
  mval. rewrite checks_v. mval. intros E.
  assert (Er : (r * Fin H)%num = Fin Rc) by congruence. clear E. rewrite !Er.
  unfold check_validity_range, g_default. fold g0.
  rewrite steepness_fin, iribarren_fin by (try assumption; try exact g0_pos; lra). unfold f. nfin. flags.
Qed.

(** No berm at all -- the default -- is always reported as a berm that is too
    narrow. *)
Theorem C26_absent_berm_reported : forall g H T cot gf gb gv gbe Hsw Rc Ac beta Dn design wind,
  0 < H -> 0 < T -> 0 < cot ->
  In (WRange "Non-dimensional Berm width B / Hm0" "Van Gent et al. (2025)" #0 #0.6 #5)
    (warns (qv (Fin H) Hsw (Fin T) (Fin Rc) (Fin Ac) (Fin cot) (Fin beta) B_berm_default db_default (Fin Dn) (Fin gf) gb gv gbe g design wind)).
Proof.
  intros g H T cot gf gb gv gbe Hsw Rc Ac beta Dn design wind HH HT Hc.
  replace #0%num with (Fin (0 / H)) by (f_equal; field; lra).
  eapply flagged_In; [apply C26_warnings; assumption| |].
  - unfold B_berm_default. do 6 right. left. reflexivity.
  - left. unfold Rdiv. lra.
Qed.

(** A crest at the water line: the maximum governs whatever the waves. *)
Example C26_example : forall g T, 0 < g -> 0 < T ->
  value (qv #1 #0 (Fin T) #0 #0 #2 NaN #0 #0 NaN #0.5 #1 #1 #1 (Fin g) false false) = Ok (Fin (0.4 * sqrt g), true).
Proof.
  intros g T Hg HT.
  destruct (C26_discharge g 1 T 2 0.5 1 1 1 0 0 false #0 NaN #0 #0 NaN) as (b & E & Hb); try lra. cbv zeta in E, Hb.
  rewrite E. unfold vg25_discharge, vg25_general, vg25_maximum in *. replace ((0 - 0.4 * 0) / 1) with 0 in * by lra.
  rewrite !Rmult_0_r in *. unfold Rdiv in *. rewrite !Rmult_0_l, !Ropp_0, !exp_0 in *.
  rewrite Rmin_right by lra. unfold q_unit. replace (g * 1 ^ 3) with g by ring.
  do 2 f_equal; [f_equal; lra|]. apply Hb. lra.
Qed.

(** ** C27: the influence factors *)

(** Roughness: the published value for steep waves, and for long waves an
    interpolation towards 1 that takes over continuously at steepness 0.012,
    decreases with steepness and stays between the two. *)
Theorem C27_roughness : forall D H, 0 < D -> 0 < H ->
  let g1 := vg25_rough D H in
  exists gf : R -> R,
  (forall s, calculate_influence_friction_gamma_f (Fin D) (Fin H) (Fin s) = Fin (gf s)) /\
  (forall s, 0.012 <= s -> gf s = g1) /\
  (forall s, s <= 0.012 -> gf s = g1 + 12 * (0.012 - s) * (1 - g1)) /\
  (forall s t, s <= t -> gf t <= gf s) /\
  (forall s t, Rabs (gf s - gf t) <= 12 * (1 - g1) * Rabs (s - t)) /\
  (forall s, 0 <= s -> g1 <= gf s < 1).
Proof.
  intros D H HD HH g1.
  assert (P : 0 < 1 - g1) by (unfold g1, vg25_rough; pose proof (Rpower_pos (D / H) 0.05); lra).
  exists (fun s => if Rltb s 0.012 then g1 + 12 * (0.012 - s) * (1 - g1) else g1).
  assert (Lo : forall s, s <= 0.012 -> (if Rltb s 0.012 then g1 + 12 * (0.012 - s) * (1 - g1) else g1) = g1 + 12 * (0.012 - s) * (1 - g1)).
  { intros s L. destruct (Rltb_spec s 0.012); [reflexivity|]. replace s with 0.012 by lra. ring. }
  assert (Hi : forall s, 0.012 <= s -> (if Rltb s 0.012 then g1 + 12 * (0.012 - s) * (1 - g1) else g1) = g1).
  { intros s L. rewrite Rltb_false by assumption. reflexivity. }
  split; [|split; [exact Hi|split; [exact Lo|]]].
  - intros s. unfold calculate_influence_friction_gamma_f. assert (0 < D / H) by rpos. nfin. cbv zeta. nfin.
    replace 0.70 with 0.7 by lra. fold (vg25_rough D H). fold g1.
    destruct (Rltb_spec s 0.012).
    + rewrite Rleb_false by lra. reflexivity.
    + rewrite Rleb_true by lra. reflexivity.
  - cbv beta. split; [|split].
    + intros s t L. destruct (Rle_lt_dec t 0.012) as [T1|T1].
      * rewrite !Lo by lra. nra.
      * rewrite (Hi t) by lra. destruct (Rle_lt_dec s 0.012); [rewrite Lo by lra; nra|rewrite Hi by lra; lra].
    + assert (A : forall s t, s <= t -> Rabs ((if Rltb s 0.012 then g1 + 12 * (0.012 - s) * (1 - g1) else g1)
                   - (if Rltb t 0.012 then g1 + 12 * (0.012 - t) * (1 - g1) else g1)) <= 12 * (1 - g1) * (t - s)).
      { intros s t L. destruct (Rle_lt_dec t 0.012) as [T1|T1].
        - rewrite !Lo by lra. rewrite Rabs_pos_eq by nra. nra.
        - rewrite (Hi t) by lra. destruct (Rle_lt_dec s 0.012).
          + rewrite Lo by lra. rewrite Rabs_pos_eq by nra. nra.
          + rewrite Hi by lra. rewrite Rminus_diag_eq, Rabs_R0 by reflexivity. nra. }
      intros s t. destruct (Rle_lt_dec s t) as [L|L].
      * rewrite (Rabs_minus_sym s t), (Rabs_pos_eq (t - s)) by lra. apply A. assumption.
      * rewrite Rabs_minus_sym, (Rabs_pos_eq (s - t)) by lra. apply A. lra.
    + intros s Hs. destruct (Rle_lt_dec s 0.012); [rewrite Lo by lra; nra|rewrite Hi by lra; lra].
Qed.

(** Oblique waves: even, 1 for perpendicular waves, within [0.35, 1]. *)
Theorem C27_oblique : forall beta,
  calculate_influence_oblique_waves_gamma_beta (Fin beta) = Fin (vg25_gamma_beta beta) /\
  vg25_gamma_beta (- beta) = vg25_gamma_beta beta /\ vg25_gamma_beta 0 = 1 /\
  0.35 <= vg25_gamma_beta beta <= 1.
Proof.
  intros beta. unfold calculate_influence_oblique_waves_gamma_beta, deg2rad, vg25_gamma_beta. nfin. repeat split.
  - f_equal. replace (beta * (PI / 180)) with (beta * PI / 180) by field. lra.
  - replace (- beta * PI / 180) with (- (beta * PI / 180)) by field. rewrite cos_neg. reflexivity.
  - replace (0 * PI / 180) with 0 by field. rewrite cos_0. lra.
  - pose proof (pow2_ge_0 (cos (beta * PI / 180))). lra.
  - pose proof (COS_bound (beta * PI / 180)). assert (cos (beta * PI / 180) ^ 2 <= 1) by nra. lra.
Qed.

(** Crest wall: 1 plus a share of the protruding part of the freeboard; the two
    shares agree at a slope of 1:4, so the factor is continuous there. *)
Theorem C27_crest_wall : forall Rc Ac, 0 < Rc ->
  let p := (Rc - Ac) / Rc in
  exists gv : R -> R,
  (forall cot, calculate_influence_crest_wall_gamma_v (Fin cot) (Fin Rc) (Fin Ac) = Fin (gv cot)) /\
  (forall cot, cot <= 4 -> gv cot = 1 + 0.45 * p) /\
  (forall cot, 4 <= cot -> gv cot = 1 + 0.45 * p * (cot / 4)) /\
  (Ac <= Rc -> (forall c1 c2, c1 <= c2 -> 1 <= gv c1 <= gv c2)) /\
  (Ac = Rc -> forall cot, gv cot = 1).
Proof.
  intros Rc Ac HR p.
  exists (fun c => if Rltb 4 c then 1 + 0.45 * p * (c / 4) else 1 + 0.45 * p).
  assert (Lo : forall c, c <= 4 -> (if Rltb 4 c then 1 + 0.45 * p * (c / 4) else 1 + 0.45 * p) = 1 + 0.45 * p).
  { intros c L. rewrite Rltb_false by assumption. reflexivity. }
  assert (Hi : forall c, 4 <= c -> (if Rltb 4 c then 1 + 0.45 * p * (c / 4) else 1 + 0.45 * p) = 1 + 0.45 * p * (c / 4)).
  { intros c L. destruct (Rltb_spec 4 c); [reflexivity|]. replace c with 4 by lra. lra. }
  split; [|split; [exact Lo|split; [exact Hi|split]]].
  - intros c. unfold calculate_influence_crest_wall_gamma_v. nfin. destruct (Rleb_spec c 4).
    + rewrite Rltb_false by lra. f_equal. unfold p. field. lra.
    + rewrite Rltb_true by lra. f_equal. unfold p. replace 0.1125 with (0.45 / 4) by lra. field. lra.
  - intros L. assert (Hp : 0 <= p) by (unfold p; apply Rmult_le_pos; [lra|left; rpos]).
    cbv beta. intros c1 c2 L12. destruct (Rle_lt_dec c2 4).
    + rewrite !Lo by lra. lra.
    + rewrite (Hi c2) by lra. destruct (Rle_lt_dec c1 4); [rewrite Lo by lra|rewrite Hi by lra]; nra.
  - intros E. assert (p = 0) as -> by (unfold p; rewrite E; field; lra). intros c. cbv beta. destruct (Rltb 4 c); lra.
Qed.

(** Berm: no effect without a berm, and a wider berm at armour-crest level
    reduces the factor; without a berm but with the armour crest at the water
    line the factor is no number. *)
Theorem C27_berm : forall H T, 0 < H -> 0 < T ->
  (forall Ac, Ac <> 0 -> factor_b (Fin H) (Fin T) (Fin Ac) B_berm_default db_default NaN = #1) /\
  (forall Ac B, 0 < Ac -> 0 < B ->
     factor_b (Fin H) (Fin T) (Fin Ac) (Fin B) (Fin Ac) NaN
     = Fin (1 - 18 * Rpower (steepness g0 H T * B / H) 1.3)) /\
  (forall Ac B db, 0 < Ac -> 0 < B -> db < Ac ->
     factor_b (Fin H) (Fin T) (Fin Ac) (Fin B) (Fin db) NaN
     = Fin (1 - 18 * Rpower (steepness g0 H T * B / H) 1.3
                * (1 - 0.34 * Rpower ((Ac - db) / (steepness g0 H T * Ac)) 0.2))) /\
  factor_b (Fin H) (Fin T) #0 B_berm_default db_default NaN = NaN.
Proof.
  intros H T HH HT. unfold factor_b, calculate_influence_berm_gamma_b, g_default, B_berm_default, db_default. fold g0. cbn [isnan].
  rewrite steepness_fin by auto. pose proof (steepness_pos g0 H T g0_pos HH HT) as Hs. set (s := steepness g0 H T) in *.
  split; [|split; [|split]].
  - intros Ac HA. assert (s * Ac <> 0) by (apply Rmult_integral_contrapositive_currified; lra). nfin.
    replace (s * 0 / H) with 0 by (field; lra). rewrite npow_0_pos by lra.
    replace ((Ac - 0) / (s * Ac)) with (/ s) by (field; lra). assert (0 < / s) by rpos. nfin. f_equal. ring.
  - intros Ac B HA HB. assert (0 < s * Ac) by rpos. assert (0 < s * B / H) by rpos. nfin.
    replace ((Ac - Ac) / (s * Ac)) with 0 by (field; lra). rewrite npow_0_pos by lra. nfin. f_equal. ring.
  - intros Ac B db HA HB Hdb. assert (0 < s * Ac) by rpos. assert (0 < s * B / H) by rpos.
    assert (0 < (Ac - db) / (s * Ac)) by (apply Rdiv_lt_0_compat; lra). nfin. reflexivity.
  - nfin. replace (0 - 0) with 0 by ring. rewrite (Rmult_0_r s), ndiv_0_0. nnan. reflexivity.
Qed.

(** A factor left out is the one these formulas give. *)
Theorem C27_factors_computed : forall Hm0 Hsw T Rc q Ac cot beta B db Dn gf gb gv gbe g design wind,
  isnan Dn = false ->
  let s := calculate_wave_steepness_s Hm0 T g_default in
  let gf' := calculate_influence_friction_gamma_f Dn Hm0 s in
  let gbe' := calculate_influence_oblique_waves_gamma_beta beta in
  let gb' := calculate_influence_berm_gamma_b Hm0 s Ac B (Ac - db) in
  (isnan gf' = false ->
    qv Hm0 Hsw T Rc Ac cot beta B db Dn NaN gb gv gbe g design wind = qv Hm0 Hsw T Rc Ac cot beta B db Dn gf' gb gv gbe g design wind
    /\ Rv Hm0 Hsw T q Ac cot beta B db Dn NaN gb gv gbe design wind = Rv Hm0 Hsw T q Ac cot beta B db Dn gf' gb gv gbe design wind) /\
  (isnan gbe' = false ->
    qv Hm0 Hsw T Rc Ac cot beta B db Dn gf gb gv NaN g design wind = qv Hm0 Hsw T Rc Ac cot beta B db Dn gf gb gv gbe' g design wind
    /\ Rv Hm0 Hsw T q Ac cot beta B db Dn gf gb gv NaN design wind = Rv Hm0 Hsw T q Ac cot beta B db Dn gf gb gv gbe' design wind) /\
  (isnan gb' = false ->
    qv Hm0 Hsw T Rc Ac cot beta B db Dn gf NaN gv gbe g design wind = qv Hm0 Hsw T Rc Ac cot beta B db Dn gf gb' gv gbe g design wind
    /\ Rv Hm0 Hsw T q Ac cot beta B db Dn gf NaN gv gbe design wind = Rv Hm0 Hsw T q Ac cot beta B db Dn gf gb' gv gbe design wind).
Proof.
  intros Hm0 Hsw T Rc q Ac cot beta B db Dn gf gb gv gbe g design wind HD s gf' gbe' gb'.
  unfold qv, calculate_dimensionless_overtopping_discharge_q, Rv, calculate_dimensionless_crest_freeboard.
  split; [|split]; intros N.
  - assert (E : factor_f Hm0 T Dn NaN = factor_f Hm0 T Dn gf') by (unfold factor_f; rewrite N, HD; reflexivity).
    rewrite E. split; reflexivity.
  - assert (E : factor_beta beta NaN = factor_beta beta gbe') by (unfold factor_beta; rewrite N; reflexivity).
    rewrite E. split; reflexivity.
  - assert (E : factor_b Hm0 T Ac B db NaN = factor_b Hm0 T Ac B db gb') by (unfold factor_b; rewrite N; reflexivity).
    rewrite E. split; reflexivity.
Qed.

(** A wall taking half the freeboard on a 1:8 slope. *)
Example C27_example : calculate_influence_crest_wall_gamma_v #8 #2 #1 = #1.45.
Proof.
  destruct (C27_crest_wall 2 1 ltac:(lra)) as (gv & E & _ & Hi & _). rewrite E, Hi by lra. f_equal. lra.
Qed.
