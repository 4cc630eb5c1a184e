(** Property C45: Etemad-Shahidi et al. (2020). *)
From Coq Require Import Reals Lra Lia List Bool String Psatz.
From Verif.Lib Require Import Num Monad RTac NTac Contraction.
From Verif.Spec Require Import Waves Rock.
From Verif.Model Require Import CoreUtility CorePhysics EtemadShahidi2020.
From Verif.Proofs Require Import Core CheckTac VdM Etemad.
Import ListNotations.
Open Scope R_scope.

Lemma checks_es a b c d e f h i j k : value (check_validity_range a b c d e f h i j k) = Ok tt.
Proof. unfold check_validity_range. mchecks. reflexivity. Qed.
Lemma usage_fin D m rho : check_usage_Dn50_or_M50 (Fin D) m rho = ret (Fin D).
Proof. reflexivity. Qed.
Lemma Cp_fin D Dc : 0 < D -> 0 < Dc ->
  calculate_permeability_coefficient_Cp (Fin D) (Fin Dc) = Fin (es_Cp D Dc).
Proof.
  intros. unfold calculate_permeability_coefficient_Cp, es_Cp. assert (0 < Dc / D) by rpos.
  nfin. replace (3 / 10) with 0.3 by lra. replace (3 / 5) with 0.6 by lra.
  pose proof (Rpower_pos (Dc / D) 0.3). nfin. reflexivity.
Qed.

(** The reduction for depth-limited waves on a foreshore of slope m, or none. *)
Definition depth_reduction (dl : bool) (m : R) : R := if dl then 1 - 3 * m else 1.
Lemma influence_fin dl m : influence_depth dl (Fin m) = ret (Fin (depth_reduction dl m)).
Proof. destruct dl; unfold influence_depth; nfin; reflexivity. Qed.

Section Bridge.
Variables (H D T N cot rs Dc m : R) (dl : bool).
Hypotheses (HH : 0 < H) (HD : 0 < D) (HT : 0 < T) (HN : 0 < N) (Hc : 0 < cot) (Hrs : 1025 < rs)
  (HDc : 0 < Dc) (Hm : 0 < depth_reduction dl m).
Let X := iribarren g0 H T (1 / cot).
Let i := depth_reduction dl m.
Lemma X_p : 0 < X. Proof. apply iribarren_pos; try apply g0_pos; try assumption. rpos. Qed.

Lemma damage_value S rw m50 mc rc : 0 < S -> 0 < rw -> rw < rs ->
  etemad N S X i (rs / rw - 1) D Dc H ->
  value (calculate_damage_number_S (Fin H) (Fin T) (Fin N) (Fin cot) (Fin rs) (Fin D) m50 (Fin Dc) mc rc (Fin rw)
           (Fin m) dl) = Ok (Fin S).
Proof.
  intros HS Hrw Hrw' E. unfold calculate_damage_number_S. rewrite influence_fin, !usage_fin, !bind_ret_l. mval.
  rewrite checks_es. mval. rewrite iribarren_fin, Ns_fin, Cp_fin by (assumption || lra). fold X. fold i.
  pose proof X_p as HX. pose proof (es_Cp_gt1 D Dc HD HDc) as HC. assert (HC' : 0 < es_Cp D Dc) by lra.
  assert (HDe : 0 < buoyant rs rw) by (apply buoyant_pos; assumption). assert (Hi : 0 < i) by exact Hm.
  assert (0 < buoyant rs rw * D) by rpos. assert (0 < H / (buoyant rs rw * D)) by rpos.
  nfin. f_equal.
  pose proof (es_su_log cot T N i (buoyant rs rw) Hc HT Hi HDe H D S (es_Cp D Dc) HH HD HS HC') as Ls.
  pose proof (es_pl_log cot T N i (buoyant rs rw) Hc HT Hi HDe H D S (es_Cp D Dc) HH HD HS HC') as Lp.
  unfold xi in Ls, Lp. fold X in Ls, Lp.
  destruct E as [(R1 & E)|(R1 & E)].
  - rewrite Rleb_true by assumption. apply Ls in E. f_equal. ln_eq. rewrite ln_1. lra.
  - rewrite Rleb_false by assumption. apply Lp in E. f_equal. ln_eq. rewrite ln_1. lra.
Qed.

Lemma height_value S m50 mc rc : 0 < S -> etemad N S X i (rs / 1025 - 1) D Dc H ->
  value (calculate_significant_wave_height_Hs (Fin T) (Fin N) (Fin cot) (Fin rs) (Fin S) (Fin D) m50 (Fin Dc) mc rc
           (Fin m) dl (Fin g0)) = Ok (Fin H).
Proof.
  intros HS E. unfold calculate_significant_wave_height_Hs. rewrite influence_fin, !usage_fin, !bind_ret_l. mval.
  rewrite checks_es. mval. rewrite Delta_fin, Cp_fin by (assumption || lra). fold i.
  pose proof (es_Cp_gt1 D Dc HD HDc) as HC. assert (HC' : 0 < es_Cp D Dc) by lra.
  assert (HDe : 0 < buoyant rs 1025) by (apply buoyant_pos; lra). assert (Hi : 0 < i) by exact Hm.
  assert (0 < buoyant rs 1025 * D) by rpos. pose proof g0_pos. assert (0 < 2 * PI / g0) by rpos.
  nfin.
  fold (es_H_su cot T N i (buoyant rs 1025) Dc D S). fold (es_H_pl cot T N i (buoyant rs 1025) Dc D S).
  rewrite !iribarren_fin by (try apply es_H_su_pos; try apply es_H_pl_pos; assumption || lra).
  nfin. f_equal.
  pose proof (es_select cot T N i (buoyant rs 1025) Dc Hc HT Hi HDe HDc H D S HH HD HS E) as SW.
  unfold xi in SW. rewrite <- SW.
  destruct (Rltb _ _ && Rltb _ _)%bool; reflexivity.
Qed.
End Bridge.

Lemma loop_fin A Dc tol : 0 < A -> 0 < Dc -> forall formula,
  (forall c, 0 < c -> formula (Fin c) = Fin (A / c)) ->
  forall cap x d, 0 < x ->
  diameter_loop formula (Fin Dc) (Fin tol) cap (Fin x) (Fin d) (Fin (es_Cp x Dc)) (Some (Fin x))
  = Some (Fin (rcap (es_F Dc A) tol cap x d)).
Proof.
  intros HA HDc formula HF. induction cap; intros x d Hx; cbn [diameter_loop rcap]; rewrite ngt_fin.
  - destruct (Rltb tol d); reflexivity.
  - destruct (Rltb tol d); [|reflexivity].
    pose proof (es_Cp_gt1 x Dc Hx HDc). rewrite HF by lra. fold (es_F Dc A x).
    assert (0 < es_F Dc A x) by (apply es_F_pos; assumption).
    rewrite Cp_fin by assumption. nfin. apply IHcap. assumption.
Qed.

(** The number returned after at most [cap] steps. *)
Definition es_result (Dc A tol c0 : R) (cap : nat) : R :=
  match cap with
  | O => 0
  | S O => A / c0
  | S (S n) => rcap (es_F Dc A) tol n (es_F Dc A (A / c0)) (Rabs (es_F Dc A (A / c0) - A / c0))
  end.

Lemma loop_result A Dc tol c0 formula cap : 0 < A -> 0 < Dc -> 0 < c0 ->
  (forall c, 0 < c -> formula (Fin c) = Fin (A / c)) ->
  diameter_loop formula (Fin Dc) (Fin tol) (S cap) PInf PInf (Fin c0) None
  = Some (Fin (es_result Dc A tol c0 (S cap))).
Proof.
  intros HA HDc Hc0 HF. assert (0 < A / c0) by rpos.
  cbn [diameter_loop]. change (ngt PInf (Fin tol)) with true. cbv iota.
  rewrite HF by assumption. rewrite Cp_fin by assumption. change (nabs (Fin (A / c0) - PInf)%num) with PInf.
  destruct cap as [|cap]; [reflexivity|].
  cbn [diameter_loop]. change (ngt PInf (Fin tol)) with true. cbv iota.
  pose proof (es_Cp_gt1 (A / c0) Dc ltac:(assumption) HDc).
  rewrite HF by lra. fold (es_F Dc A (A / c0)).
  assert (0 < es_F Dc A (A / c0)) by (apply es_F_pos; assumption).
  rewrite Cp_fin by assumption. nfin. apply loop_fin; assumption.
Qed.

Section Diameter.
Variables (H T N cot rs Dc m S c0 tol : R) (dl : bool).
Hypotheses (HH : 0 < H) (HT : 0 < T) (HN : 0 < N) (Hc : 0 < cot) (Hrs : 1025 < rs)
  (HDc : 0 < Dc) (Hm : 0 < depth_reduction dl m) (HS : 0 < S) (Hc0 : 0 < c0).
Let A := es_A cot T N (depth_reduction dl m) (rs / 1025 - 1) H S.
Let call mc rc (cap : nat) := calculate_nominal_rock_diameter_Dn50 (Fin H) (Fin T) (Fin N) (Fin cot) (Fin rs) (Fin S)
  (Fin Dc) mc rc (Fin m) dl (Fin c0) cap (Fin tol).

Lemma diameter_value cap mc rc : value (call mc rc (Datatypes.S cap)) = Ok (Fin (es_result Dc A tol c0 (Datatypes.S cap))).
Proof.
  unfold call, calculate_nominal_rock_diameter_Dn50. rewrite influence_fin, usage_fin, !bind_ret_l.
  rewrite iribarren_fin, Delta_fin by (assumption || lra).
  assert (HDe : 0 < buoyant rs 1025) by (apply buoyant_pos; lra).
  assert (HX : 0 < iribarren g0 H T (1 / cot)) by (apply iribarren_pos; try apply g0_pos; try assumption; rpos).
  set (X := iribarren g0 H T (1 / cot)) in *. set (i := depth_reduction dl m) in *.
  assert (Hi : 0 < i) by exact Hm.
  set (As := H / buoyant rs 1025 * (1 / 3.9) * Rpower N (1 / 10) * Rpower S (-(1) / 6) * Rpower X (1 / 3) * Rpower i (-(1))).
  set (Ap := H / buoyant rs 1025 * (1 / 4.5) * Rpower N (1 / 10) * Rpower S (-(1) / 6) * Rpower X (7 / 12) * Rpower i (-(1))).
  assert (HAs : 0 < As) by (unfold As; rpos). assert (HAp : 0 < Ap) by (unfold Ap; rpos).
  rewrite (loop_result As) by (try assumption; intros; nfin; f_equal; unfold As; field; repeat split; lra).
  rewrite (loop_result Ap) by (try assumption; intros; nfin; f_equal; unfold Ap; field; repeat split; lra).
  unfold bound. rewrite !bind_ret_l. mval. rewrite checks_es. mval. nfin. f_equal.
  unfold A, es_A, xi. fold X. fold (buoyant rs 1025).
  destruct (Rleb 1.8 X); reflexivity.
Qed.
End Diameter.

(** ** C45 *)

(** On every point of the published relation the damage and wave-height
    functions return the corresponding coordinate (standard gravity, sea water). *)
Theorem C45_damage_and_wave_height_agree_with_relation :
  forall H D T N cot rs Dc m dl S m50 mc rc,
    0 < H -> 0 < D -> 0 < T -> 0 < N -> 0 < cot -> 1025 < rs -> 0 < Dc -> 0 < depth_reduction dl m -> 0 < S ->
    etemad N S (iribarren g0 H T (1 / cot)) (depth_reduction dl m) (rs / 1025 - 1) D Dc H ->
    value (calculate_damage_number_S (Fin H) (Fin T) (Fin N) (Fin cot) (Fin rs) (Fin D) m50 (Fin Dc) mc rc
             (Fin 1025) (Fin m) dl) = Ok (Fin S)
    /\ value (calculate_significant_wave_height_Hs (Fin T) (Fin N) (Fin cot) (Fin rs) (Fin S) (Fin D) m50 (Fin Dc)
             mc rc (Fin m) dl (Fin g0)) = Ok (Fin H).
Proof.
  intros. split; [apply damage_value|apply height_value]; try assumption; lra.
Qed.

(** Every positive wave height and diameter has a damage level ... *)
Theorem C45_damage_total :
  forall H D T N cot rs rw Dc i, 0 < H -> 0 < D -> 0 < T -> 0 < N -> 0 < cot -> 0 < rw -> rw < rs -> 0 < Dc -> 0 < i ->
    exists S, 0 < S /\ etemad N S (iribarren g0 H T (1 / cot)) i (rs / rw - 1) D Dc H.
Proof.
  intros H D T N cot rs rw Dc i HH HD HT HN Hc Hrw Hrs HDc Hi.
  assert (HDe : 0 < rs / rw - 1) by (apply buoyant_pos; assumption).
  pose proof (es_Cp_gt1 D Dc HD HDc) as HC. assert (HC' : 0 < es_Cp D Dc) by lra.
  set (X := iribarren g0 H T (1 / cot)).
  set (s c e := 6 * (ln H - ln (rs / rw - 1) - ln D) - 6 * ln c - 6 * ln (es_Cp D Dc) + 0.6 * ln N + e * ln X - 6 * ln i).
  destruct (Rle_or_lt 1.8 X) as [R1|R1].
  - exists (exp (s 3.9 2)). split; [apply exp_pos|]. left. split; [assumption|].
    apply (es_su_log cot T N i (rs / rw - 1)); try assumption; [apply exp_pos|]. rewrite ln_exp.
    unfold s, xi. fold X. lra.
  - exists (exp (s 4.5 3.5)). split; [apply exp_pos|]. right. split; [assumption|].
    apply (es_pl_log cot T N i (rs / rw - 1)); try assumption; [apply exp_pos|]. rewrite ln_exp.
    unfold s, xi. fold X. lra.
Qed.

(** ... strictly increasing in the wave height ... *)
Theorem C45_damage_increases_with_wave_height :
  forall H H' D T N cot rs rw Dc m dl m50 mc rc,
    0 < H -> H < H' -> 0 < D -> 0 < T -> 0 < N -> 0 < cot -> 0 < rw -> rw < rs -> 1025 < rs -> 0 < Dc ->
    0 < depth_reduction dl m ->
    exists S S', 0 < S < S'
    /\ value (calculate_damage_number_S (Fin H) (Fin T) (Fin N) (Fin cot) (Fin rs) (Fin D) m50 (Fin Dc) mc rc
             (Fin rw) (Fin m) dl) = Ok (Fin S)
    /\ value (calculate_damage_number_S (Fin H') (Fin T) (Fin N) (Fin cot) (Fin rs) (Fin D) m50 (Fin Dc) mc rc
             (Fin rw) (Fin m) dl) = Ok (Fin S').
Proof.
  intros H H' D T N cot rs rw Dc m dl m50 mc rc HH L HD HT HN Hc Hrw Hrs Hrs' HDc Hi. assert (HH' : 0 < H') by lra.
  destruct (C45_damage_total H D T N cot rs rw Dc (depth_reduction dl m)) as (S & HS & E); try assumption.
  destruct (C45_damage_total H' D T N cot rs rw Dc (depth_reduction dl m)) as (S' & HS' & E'); try assumption.
  exists S, S'. split; [split; [assumption|]|split; apply damage_value; assumption].
  apply (es_damage_increasing cot T N (depth_reduction dl m) (rs / rw - 1) Dc) with (D := D) (H1 := H) (H2 := H');
    try assumption. apply buoyant_pos; assumption.
Qed.

(** ... but not every damage level is reached: the damage jumps at xi = 1.8, and
    for damage levels inside the jump the wave-height function still returns
    without an error although no wave height has that damage. *)
Theorem C45_damage_gap :
  forall D T N cot rs Dc m dl m50 mc rc,
    0 < D -> 0 < T -> 0 < N -> 0 < cot -> 1025 < rs -> 0 < Dc -> 0 < depth_reduction dl m ->
    exists S1 S2, 0 < S1 < S2 /\ forall S, S1 < S <= S2 ->
      (exists H, value (calculate_significant_wave_height_Hs (Fin T) (Fin N) (Fin cot) (Fin rs) (Fin S) (Fin D) m50
                   (Fin Dc) mc rc (Fin m) dl (Fin g0)) = Ok (Fin H) /\ 0 < H)
      /\ forall H, 0 < H ->
         value (calculate_damage_number_S (Fin H) (Fin T) (Fin N) (Fin cot) (Fin rs) (Fin D) m50 (Fin Dc) mc rc
             (Fin 1025) (Fin m) dl) <> Ok (Fin S).
Proof.
  intros D T N cot rs Dc m dl m50 mc rc HD HT HN Hc Hrs HDc Hi.
  assert (HDe : 0 < rs / 1025 - 1) by (apply buoyant_pos; lra).
  destruct (es_gap cot T N (depth_reduction dl m) (rs / 1025 - 1) Dc) with (D := D) as (S1 & S2 & L & G);
    try assumption.
  exists S1, S2. split; [assumption|]. intros S HS. assert (HS0 : 0 < S) by lra. split.
  - unfold calculate_significant_wave_height_Hs. rewrite influence_fin, !usage_fin, !bind_ret_l. mval.
    rewrite checks_es. mval. rewrite Delta_fin, Cp_fin by (assumption || lra).
    pose proof (es_Cp_gt1 D Dc HD HDc) as HC. assert (HC' : 0 < es_Cp D Dc) by lra. unfold buoyant.
    assert (0 < (rs / 1025 - 1) * D) by rpos. pose proof g0_pos. assert (0 < 2 * PI / g0) by rpos.
    nfin. rewrite !iribarren_fin by (try apply Rpower_pos; assumption || lra).
    nfin. destruct (Rltb _ _ && Rltb _ _)%bool; eexists; (split; [reflexivity|apply Rpower_pos]).
  - intros H HH E.
    destruct (C45_damage_total H D T N cot rs 1025 Dc (depth_reduction dl m)) as (S' & HS' & E'); try assumption; try lra.
    assert (V := damage_value H D T N cot rs Dc m dl HH HD HT HN Hc HDc Hi S' 1025 m50 mc rc HS' ltac:(lra) Hrs E').
    rewrite E in V. injection V as <-. exact (G S H HS HH E').
Qed.

(** The diameter: there is exactly one diameter with the prescribed damage ... *)
Theorem C45_diameter_unique :
  forall H T N cot rs Dc i S,
    0 < H -> 0 < T -> 0 < N -> 0 < cot -> 1025 < rs -> 0 < Dc -> 0 < i -> 0 < S ->
    exists D, 0 < D /\ etemad N S (iribarren g0 H T (1 / cot)) i (rs / 1025 - 1) D Dc H
      /\ forall D', 0 < D' -> etemad N S (iribarren g0 H T (1 / cot)) i (rs / 1025 - 1) D' Dc H -> D' = D.
Proof.
  intros H T N cot rs Dc i S HH HT HN Hc Hrs HDc Hi HS.
  assert (HDe : 0 < rs / 1025 - 1) by (apply buoyant_pos; lra).
  set (A := es_A cot T N i (rs / 1025 - 1) H S). assert (HA : 0 < A) by (apply es_A_pos; assumption).
  destruct (log_contraction_fixpoint (es_F Dc A) 0.18) as (p & Hp & Hfix & Hu & _); try lra.
  { intros. apply es_F_pos; assumption. }
  { apply es_F_lip; assumption. }
  exists p. split; [assumption|]. split.
  - apply (es_fixpoint cot T N i (rs / 1025 - 1) Dc); assumption.
  - intros D' HD' E. apply Hu; [assumption|]. apply (es_fixpoint cot T N i (rs / 1025 - 1) Dc) in E; assumption.
Qed.

Lemma es_start_above A Dc c0 p : 0 < A -> 0 < Dc -> 0 < c0 <= 1 -> 0 < p -> es_F Dc A p = p -> p <= A / c0.
Proof.
  intros HA HDc Hc0 Hp E. pose proof (es_Cp_gt1 p Dc Hp HDc). unfold es_F in E. rewrite <- E.
  apply Rmult_le_compat_l; [lra|]. apply Rinv_le_contravar; lra.
Qed.

(** ... the iteration never ends below it, whatever the tolerance and the cap
    on the number of iterations (so a non-converged result is on the safe
    side), provided the initial guess of Cp is at most 1 (default 0.5) ... *)
Theorem C45_diameter_never_too_small :
  forall H T N cot rs Dc m dl S c0 tol max_iter mc rc D,
    0 < H -> 0 < T -> 0 < N -> 0 < cot -> 1025 < rs -> 0 < Dc -> 0 < depth_reduction dl m -> 0 < S -> 0 < c0 <= 1 ->
    (1 <= max_iter)%nat -> 0 < D ->
    etemad N S (iribarren g0 H T (1 / cot)) (depth_reduction dl m) (rs / 1025 - 1) D Dc H ->
    exists D', D <= D' /\
      value (calculate_nominal_rock_diameter_Dn50 (Fin H) (Fin T) (Fin N) (Fin cot) (Fin rs) (Fin S) (Fin Dc) mc rc
               (Fin m) dl (Fin c0) max_iter (Fin tol)) = Ok (Fin D').
Proof.
  intros H T N cot rs Dc m dl S c0 tol max_iter mc rc D HH HT HN Hc Hrs HDc Hi HS Hc0 Hmax HD E.
  assert (HDe : 0 < rs / 1025 - 1) by (apply buoyant_pos; lra).
  destruct max_iter as [|cap]; [lia|].
  rewrite diameter_value by (assumption || lra).
  eexists. split; [|reflexivity]. set (A := es_A _ _ _ _ _ H S). assert (HA : 0 < A) by (apply es_A_pos; assumption).
  apply (es_fixpoint cot T N _ (rs / 1025 - 1) Dc) in E; try assumption. fold A in E.
  assert (B : D <= A / c0) by (apply (es_start_above A Dc); assumption).
  assert (M : forall x, D <= x -> D <= es_F Dc A x).
  { intros x Hx. rewrite <- E at 1. apply es_F_mono; assumption. }
  destruct cap as [|cap]; [exact B|]. cbn [es_result]. apply rcap_invariant; [exact M|]. apply M, B.
Qed.

(** ... and converges: for every positive tolerance there is a number of
    iterations from which on the result is within 0.22 tolerance of it. *)
Theorem C45_diameter_iteration_converges :
  forall H T N cot rs Dc m dl S c0 tol mc rc D,
    0 < H -> 0 < T -> 0 < N -> 0 < cot -> 1025 < rs -> 0 < Dc -> 0 < depth_reduction dl m -> 0 < S -> 0 < c0 <= 1 ->
    0 < tol -> 0 < D ->
    etemad N S (iribarren g0 H T (1 / cot)) (depth_reduction dl m) (rs / 1025 - 1) D Dc H ->
    exists n, forall max_iter, (n <= max_iter)%nat -> exists D', D <= D' <= D + 0.22 * tol /\
      value (calculate_nominal_rock_diameter_Dn50 (Fin H) (Fin T) (Fin N) (Fin cot) (Fin rs) (Fin S) (Fin Dc) mc rc
               (Fin m) dl (Fin c0) max_iter (Fin tol)) = Ok (Fin D').
Proof.
  intros H T N cot rs Dc m dl S c0 tol mc rc D HH HT HN Hc Hrs HDc Hi HS Hc0 Htol HD E.
  assert (HDe : 0 < rs / 1025 - 1) by (apply buoyant_pos; lra).
  set (A := es_A cot T N (depth_reduction dl m) (rs / 1025 - 1) H S).
  assert (HA : 0 < A) by (apply es_A_pos; assumption).
  apply (es_fixpoint cot T N _ (rs / 1025 - 1) Dc) in E; try assumption. fold A in E.
  assert (B : D <= A / c0) by (apply (es_start_above A Dc); assumption).
  assert (B0 : 0 < A / c0) by lra.
  set (F := es_F Dc A) in *. set (x0 := A / c0) in *.
  assert (FP : forall x, 0 < x -> 0 < F x) by (intros; apply es_F_pos; assumption).
  assert (FM : forall x y, 0 < x -> x <= y -> F x <= F y <= Rpower (y / x) 0.18 * F x)
    by (intros; apply es_F_mono; assumption).
  assert (M : forall x, D <= x -> D <= F x) by (intros x Hx; rewrite <- E at 1; apply FM; assumption).
  assert (MI : forall j, D <= iter F j x0) by (induction j; [exact B|]; rewrite iter_S; apply M, IHj).
  destruct (log_contraction_stops F 0.18 ltac:(lra) FP (es_F_lip Dc HDc A HA) x0 tol) as (n & Hn); try assumption.
  (* the loop stops within n+2 steps *)
  exists (n + 2)%nat. intros max_iter Hmax. destruct max_iter as [|[|cap]]; try lia.
  rewrite diameter_value by (assumption || lra). fold A. cbn [es_result]. fold F. fold x0.
  destruct (rloop_terminates F tol x0 (Datatypes.S n) (tol + 1)) with (fuel := Datatypes.S cap) as (y & Ey).
  { exists n. split; [lia|]. apply Rlt_le, Hn. lia. }
  { lia. }
  assert (Ey' : rcap F tol cap (F x0) (Rabs (F x0 - x0)) = y).
  { apply rcap_rloop in Ey. cbn [rcap] in Ey. rewrite Rltb_true in Ey by lra. exact Ey. }
  rewrite Ey'. exists y. split; [|reflexivity].
  apply rloop_result in Ey. destruct Ey as [(L & _)|(j & -> & L)]; [lra|].
  destruct (above_error F 0.18 D ltac:(lra) HD E FM (iter F j x0) tol (MI j) L) as [L1 L2].
  assert (0.18 / (1 - 0.18) * tol <= 0.22 * tol) by (apply Rmult_le_compat_r; lra). lra.
Qed.

(** With [max_iter] 0 the call fails: the result variable is never assigned. *)
Theorem C45_zero_iterations_fail :
  forall Hs T N cot rs S Dc mc rc Cp_init tol,
    isnan Dc = false ->
    value (calculate_nominal_rock_diameter_Dn50 Hs T N cot rs S Dc mc rc NaN false Cp_init 0 tol)
    = Err UnboundLocalError.
Proof.
  intros. unfold calculate_nominal_rock_diameter_Dn50, influence_depth, check_usage_Dn50_or_M50.
  rewrite H. cbn [andb negb]. rewrite !bind_ret_l. cbn [diameter_loop].
  destruct (PInf >? tol)%num; reflexivity.
Qed.

(** The depth-limited version needs the foreshore slope. *)
Theorem C45_depth_limited_needs_slope :
  forall Hs T N cot rs S D m50 Dc mc rc rw Cp_init max_iter tol g,
    value (calculate_damage_number_S Hs T N cot rs D m50 Dc mc rc rw NaN true) = Err ValueError
    /\ value (calculate_nominal_rock_diameter_Dn50 Hs T N cot rs S Dc mc rc NaN true Cp_init max_iter tol) = Err ValueError
    /\ value (calculate_significant_wave_height_Hs T N cot rs S D m50 Dc mc rc NaN true g) = Err ValueError.
Proof. intros. repeat split; reflexivity. Qed.

(** Another water density is honoured by the damage function only. *)
Theorem C45_round_trip_other_water_density_refuted :
  exists H D T N cot rs Dc rw S H',
    value (calculate_damage_number_S (Fin H) (Fin T) (Fin N) (Fin cot) (Fin rs) (Fin D) NaN (Fin Dc) NaN NaN
             (Fin rw) NaN false) = Ok (Fin S)
    /\ value (calculate_significant_wave_height_Hs (Fin T) (Fin N) (Fin cot) (Fin rs) (Fin S) (Fin D) NaN (Fin Dc)
             NaN NaN NaN false (Fin g0)) = Ok (Fin H')
    /\ H' <> H.
Proof.
  destruct (C45_damage_total 2 1 6 2000 2 2050 1000 0.3 1) as (S & HS & E); try lra.
  exists 2, 1, 6, 2000, 2, 2050, 0.3, 1000, S.
  assert (NF : forall a b c d e f h i j k l,
     calculate_damage_number_S a b c d e f h i j k l NaN false = calculate_damage_number_S a b c d e f h i j k l (Fin 0) false)
    by reflexivity.
  assert (NF' : forall a b c d e f h i j k l,
     calculate_significant_wave_height_Hs a b c d e f h i j k NaN false l
     = calculate_significant_wave_height_Hs a b c d e f h i j k (Fin 0) false l) by reflexivity.
  (* the sea-water relation has another wave height *)
  set (V := value (calculate_significant_wave_height_Hs (Fin 6) (Fin 2000) (Fin 2) (Fin 2050) (Fin S) (Fin 1) NaN
              (Fin 0.3) NaN NaN NaN false (Fin g0))).
  assert (EV : exists H', V = Ok (Fin H') /\ 0 < H' /\ H' <> 2); cycle 1.
  { destruct EV as (H' & EV & _ & L). exists H'. split; [|split; assumption]. rewrite NF.
    apply damage_value; try lra; try assumption. unfold depth_reduction. lra. }
  unfold V. rewrite NF'. unfold calculate_significant_wave_height_Hs.
  rewrite influence_fin, !usage_fin, !bind_ret_l. mval. rewrite checks_es. mval.
  rewrite Delta_fin, Cp_fin by lra. unfold depth_reduction.
  assert (HDe : 0 < buoyant 2050 1025) by (apply buoyant_pos; lra).
  pose proof (es_Cp_gt1 1 0.3 ltac:(lra) ltac:(lra)) as HC. assert (HC' : 0 < es_Cp 1 0.3) by lra.
  assert (0 < buoyant 2050 1025 * 1) by rpos. pose proof g0_pos. assert (0 < 2 * PI / g0) by rpos.
  nfin.
  fold (es_H_su 2 6 2000 1 (buoyant 2050 1025) 0.3 1 S). fold (es_H_pl 2 6 2000 1 (buoyant 2050 1025) 0.3 1 S).
  rewrite !iribarren_fin by (try apply es_H_su_pos; try apply es_H_pl_pos; assumption || lra).
  nfin.
  assert (LB : ln (buoyant 2050 1025) < ln (2050 / 1000 - 1)).
  { apply ln_increasing; [assumption|]. unfold buoyant. lra. }
  pose proof (es_H_su_log 2 6 2000 1 (buoyant 2050 1025) 0.3 ltac:(lra) ltac:(lra) ltac:(lra) HDe ltac:(lra) 1 S
    ltac:(lra) HS) as Ls.
  pose proof (ln_X 2 6 ltac:(lra) ltac:(lra) 2 ltac:(lra)) as X2.
  assert (R18 : 1.8 <= iribarren g0 2 6 (1 / 2)).
  { unfold iribarren, steepness. pose proof PI_RGT_0. pose proof PI_4.
    assert (0 < 2 * PI * 2 / (g0 * 6 ^ 2)) by (unfold g0 in *; rpos).
    assert (B : sqrt (2 * PI * 2 / (g0 * 6 ^ 2)) <= 0.25).
    { rewrite <- (sqrt_Rsqr 0.25) by lra. apply sqrt_le_1_alt. unfold Rsqr, g0. lra. }
    assert (0 < sqrt (2 * PI * 2 / (g0 * 6 ^ 2))) by (apply sqrt_lt_R0; assumption).
    apply (Rle_trans _ (1 / 2 / 0.25)); [lra|]. apply Rmult_le_compat_l; [lra|]. apply Rinv_le_contravar; lra. }
  assert (E2 := E). destruct E2 as [(_ & E2)|(R1 & _)]; [|lra].
  apply (es_su_log 2 6 2000 1 (2050 / 1000 - 1)) in E2; try lra; try assumption. unfold xi in X2, E2. 
  rewrite X2 in E2.
  assert (L1 : ln (es_H_su 2 6 2000 1 (buoyant 2050 1025) 0.3 1 S) < ln 2) by lra.
  assert (Ps : 0 < es_H_su 2 6 2000 1 (buoyant 2050 1025) 0.3 1 S) by apply es_H_su_pos.
  pose proof (ln_X 2 6 ltac:(lra) ltac:(lra) _ Ps) as Xs. unfold xi in Xs.
  rewrite (Rltb_false (iribarren g0 (es_H_su _ _ _ _ _ _ _ _) _ _)).
  - rewrite andb_false_r. eexists. split; [reflexivity|]. split; [assumption|].
    intros Q. rewrite Q in L1. lra.
  - eapply Rle_trans; [exact R18|]. apply ln_le_iff; [apply iribarren_pos; lra..|]. rewrite X2, Xs. lra.
Qed.

Example C45_example :
  exists S D', value (calculate_damage_number_S (Fin 2) (Fin 6) (Fin 2000) (Fin 2) (Fin 2650) (Fin 1) NaN (Fin 0.3) NaN NaN
             (Fin 1025) (Fin 0) false) = Ok (Fin S)
    /\ value (calculate_significant_wave_height_Hs (Fin 6) (Fin 2000) (Fin 2) (Fin 2650) (Fin S) (Fin 1) NaN (Fin 0.3)
             NaN NaN (Fin 0) false (Fin g0)) = Ok (Fin 2)
    /\ value (calculate_nominal_rock_diameter_Dn50 (Fin 2) (Fin 6) (Fin 2000) (Fin 2) (Fin 2650) (Fin S) (Fin 0.3)
             NaN NaN (Fin 0) false (Fin 0.5) 1000 (Fin 0.00001)) = Ok (Fin D') /\ 1 <= D'.
Proof.
  destruct (C45_damage_total 2 1 6 2000 2 2650 1025 0.3 1) as (S & HS & E); try lra.
  destruct (C45_damage_and_wave_height_agree_with_relation 2 1 6 2000 2 2650 0.3 0 false S NaN NaN NaN) as (A & B);
    try lra; try assumption; [unfold depth_reduction; lra|].
  destruct (C45_diameter_never_too_small 2 6 2000 2 2650 0.3 0 false S 0.5 0.00001 1000 NaN NaN 1) as (D' & L & C);
    try lra; try lia; try assumption; [unfold depth_reduction; lra|].
  exists S, D'. split; [exact A|]. split; [exact B|]. split; [exact C|exact L].
Qed.
