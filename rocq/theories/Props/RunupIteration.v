(** Property C12, continued: where the iteration for composite slopes converges
    and where it does not. *)
From Coq Require Import Reals Lra Lia List Bool String Psatz.
From Verif.Lib Require Import Num Monad RTac NTac Contraction.
From Verif.Spec Require Import Waves Ranges Reports Taw.
From Verif.Model Require Import CoreUtility CorePhysics RunupTAW2002.
From Verif.Proofs Require Import Core CheckTac Warns Reports Taw Overtopping.
From Verif.Props Require Import RunupTAW.
Import ListNotations.
Open Scope R_scope.

(** ** The step as a function on the reals *)
Definition next (H T cd cu db gb gf gbeta z : R) : R :=
  taw_runup 1.75 4.3 1.6 1 gb gf gbeta (iribarren g0 H T (1 / average_cot H z cd cu db)) * H.

Lemma average_pos H z cd cu db : 0 < H -> 0 < z -> 0 < cd -> 0 < cu -> 0 <= db <= 1.5 * H -> 0 < average_cot H z cd cu db.
Proof. intros. unfold average_cot. assert (0 <= (1.5 * H - db) * cd) by (apply Rmult_le_pos; lra). assert (0 < (z + db) * cu) by (apply Rmult_lt_0_compat; lra). apply Rdiv_lt_0_compat; lra. Qed.

Lemma average_le H z cd cu db m : 0 < H -> 0 < z -> 0 <= db <= 1.5 * H -> cd <= m -> cu <= m -> average_cot H z cd cu db <= m.
Proof.
  intros. unfold average_cot. apply (Rmult_le_reg_r (1.5 * H + z)); [lra|]. unfold Rdiv. rewrite Rmult_assoc, Rinv_l, Rmult_1_r by lra.
  assert ((1.5 * H - db) * cd <= (1.5 * H - db) * m) by (apply Rmult_le_compat_l; lra).
  assert ((z + db) * cu <= (z + db) * m) by (apply Rmult_le_compat_l; lra). lra.
Qed.

Lemma average_ge H z cd cu db m : 0 < H -> 0 < z -> 0 <= db <= 1.5 * H -> m <= cd -> m <= cu -> m <= average_cot H z cd cu db.
Proof.
  intros. unfold average_cot. apply (Rmult_le_reg_r (1.5 * H + z)); [lra|]. unfold Rdiv. rewrite Rmult_assoc, Rinv_l, Rmult_1_r by lra.
  assert ((1.5 * H - db) * m <= (1.5 * H - db) * cd) by (apply Rmult_le_compat_l; lra).
  assert ((z + db) * m <= (z + db) * cu) by (apply Rmult_le_compat_l; lra). lra.
Qed.

(** The berm factor does not depend on the run-up for a berm below still water. *)
Lemma berm_constant H db B L : 0 < H -> 0 <= db -> L <> 0 ->
  exists gb, (forall z, 0 < z -> calculate_influence_berm_gamma_b (Fin H) (Fin z) (Fin db) (Fin B) (Fin L) = Fin gb) /\ 0.6 <= gb <= 1.
Proof.
  intros HH Hd HL.
  assert (P : exists r, forall z, 0 < z -> berm_position H z db r).
  { destruct (Rlt_le_dec (2 * H) db).
    - exists 1. intros. apply berm_out_of_reach. lra.
    - eexists. intros. apply berm_below; lra. }
  destruct P as (r & P). exists (taw_berm B L r). split.
  - intros. apply C09_formula; auto.
  - split; [apply Rmax_l|]. apply Rmax_lub; [lra|]. apply Rmin_l.
Qed.

Definition length_of (H B cd cu : R) : R := 1 * H * cd + B + 1 * H * cu.

Lemma length_fin H B cd cu : value (calculate_berm_length (Fin H) (Fin B) NaN (Fin cd) (Fin cu)) = Ok (Fin (length_of H B cd cu)).
Proof. unfold calculate_berm_length. rewrite composite_slope, bind_ret_l. cbv iota. nfin. reflexivity. Qed.

Lemma step_next H T cd cu B db gb gf gbeta : 0 < H -> 0 < T -> 0 < cd -> 0 < cu -> 0 <= db <= 1.5 * H ->
  (forall z, 0 < z -> calculate_influence_berm_gamma_b (Fin H) (Fin z) (Fin db) (Fin B) (Fin (length_of H B cd cu)) = Fin gb) ->
  forall z (z' : num), 0 < z ->
  (runup_step (Fin H) (Fin T) (Fin cd) (Fin cu) (Fin B) (Fin db) (Fin gf) (Fin gbeta)
    c1_default c2_default c3_default c4_default false (Fin z) z'
   <-> z' = Fin (next H T cd cu db gb gf gbeta z)).
Proof.
  intros HH HT Hcd Hcu Hdb Hgb z z' Hz.
  pose proof (average_pos H z cd cu db HH Hz Hcd Hcu Hdb) as A.
  assert (N : (1.5 * H - db) * cd + (z + db) * cu <> 0).
  { assert (0 <= (1.5 * H - db) * cd) by (apply Rmult_le_pos; lra). assert (0 < (z + db) * cu) by (apply Rmult_lt_0_compat; lra). lra. }
  unfold runup_step. rewrite length_fin.
  assert (V : forall L reached, Ok (Fin (length_of H B cd cu)) = Ok L ->
    (value (calculate_wave_runup_height_z2p (Fin H) (Fin T) NaN (Fin gbeta) (calculate_influence_berm_gamma_b (Fin H) (Fin z) (Fin db) (Fin B) L) (Fin gf) #0 #0
       (determine_average_slope (Fin H) (Fin z) (Fin cd) (Fin cu) (Fin B) (Fin db)) NaN NaN c1_default c2_default c3_default c4_default false) = Ok (z', reached)
     <-> Ok (Fin (next H T cd cu db gb gf gbeta z), taw_flag false 1.75 4.3 1.6 1 gb gf gbeta (iribarren g0 H T (1 / average_cot H z cd cu db))) = Ok (z', reached))).
  { intros L reached EL. injection EL as <-. rewrite Hgb by assumption. rewrite average_fin by (assumption || lra).
    unfold calculate_wave_runup_height_z2p, depth_limit, c1_default, c2_default, c3_default, c4_default.
    rewrite (runup_simple H T gbeta) by (try assumption; left; reflexivity). reflexivity. }
  split.
  - intros (L & r & E1 & E2). apply (V L r E1) in E2. congruence.
  - intros ->. eexists. eexists. split; [reflexivity|]. apply V; [reflexivity|]. reflexivity.
Qed.

(** ** Iterates *)
Lemma moves_iter (step : num -> num -> Prop) F tol n : forall x,
  (forall z, 0 < z -> step (Fin z) (Fin (F z))) -> (forall z, 0 < z -> 0 < F z) -> 0 < x ->
  (forall m, (m < n)%nat -> tol < Rabs (iter F (S m) x - iter F m x)) ->
  moves step (settled (Fin tol)) n (Fin x) (Fin (iter F n x)).
Proof.
  induction n; intros x S P Hx D; [constructor|]. econstructor.
  - apply S. exact Hx.
  - unfold settled. nfin. rewrite Rltb_true; [discriminate|]. apply (D 0%nat). lia.
  - rewrite iter_S_r. apply IHn; auto. intros m Hm. rewrite <- !iter_S_r. apply D. lia.
Qed.

(** The first settled step. *)
Lemma first_settled (step : num -> num -> Prop) F tol N : forall x,
  (forall z, 0 < z -> step (Fin z) (Fin (F z))) -> (forall z, 0 < z -> 0 < F z) -> 0 < x ->
  Rabs (iter F (S N) x - iter F N x) <= tol ->
  exists m, (m <= N)%nat /\ moves step (settled (Fin tol)) m (Fin x) (Fin (iter F m x)) /\ Rabs (F (iter F m x) - iter F m x) <= tol.
Proof.
  induction N; intros x S P Hx D.
  - exists 0%nat. split; [lia|]. split; [constructor|]. exact D.
  - destruct (Rle_lt_dec (Rabs (F x - x)) tol) as [L|L].
    + exists 0%nat. split; [lia|]. split; [constructor|]. exact L.
    + destruct (IHN (F x) S P (P x Hx)) as (m & Hm & Hy & Hs). { rewrite <- !iter_S_r. exact D. }
      exists (Datatypes.S m). split; [lia|]. rewrite iter_S_r. split; [|exact Hs].
      econstructor; [apply S; exact Hx| |exact Hy]. unfold settled. nfin. rewrite Rltb_true by exact L. discriminate.
Qed.

(** ** Smooth slopes *)
Section Elasticity.
Variables a b : R.
Hypotheses (Ha : 0 < a) (Hb : 0 < b).

Lemma elasticity_core w : b <= 9 * a -> 0 < w -> 0 <= a * b + (3 * a - b) * w + w ^ 2.
Proof.
  intros H9 Hw. destruct (Rle_lt_dec b (3 * a)).
  - assert (0 < a * b) by rpos. assert (0 <= (3 * a - b) * w) by (apply Rmult_le_pos; lra). nra.
  - pose proof (pow2_ge_0 (w - (b - 3 * a) / 2)). assert (0 <= (b - a) * (9 * a - b)) by (apply Rmult_le_pos; lra). nra.
Qed.

(** (a + z) / (b + z) grows by at most the square root of the ratio. *)
Lemma elasticity u v : b <= 9 * a -> 0 < u -> u <= v ->
  u * ((a + v ^ 2) * (b + u ^ 2)) <= v * ((a + u ^ 2) * (b + v ^ 2)).
Proof.
  intros H9 Hu Hv. assert (Hw : 0 < u * v) by (apply Rmult_lt_0_compat; lra). pose proof (elasticity_core (u * v) H9 Hw) as C.
  assert (Q : 0 <= a * b + a * (v ^ 2 + u * v + u ^ 2) - b * (u * v) + (u * v) ^ 2).
  { assert (0 <= a * (v - u) ^ 2) by (apply Rmult_le_pos; [lra|apply pow2_ge_0]). nra. }
  assert (E : v * ((a + u ^ 2) * (b + v ^ 2)) - u * ((a + v ^ 2) * (b + u ^ 2))
    = (v - u) * (a * b + a * (v ^ 2 + u * v + u ^ 2) - b * (u * v) + (u * v) ^ 2)) by ring.
  assert (0 <= (v - u) * (a * b + a * (v ^ 2 + u * v + u ^ 2) - b * (u * v) + (u * v) ^ 2)) by (apply Rmult_le_pos; lra). lra.
Qed.
End Elasticity.

(** Ratio of two positive quantities that move together or apart. *)
Lemma slope_ratio a b x y : 0 < a -> 0 < b -> b <= 9 * a -> 0 < x -> x <= y ->
  (a + y) / (b + y) <= Rpower (y / x) (/ 2) * ((a + x) / (b + x)).
Proof.
  intros Ha Hb H9 Hx Hy. assert (0 < y) by lra.
  rewrite Rpower_sqrt by rpos. rewrite sqrt_div by lra.
  pose proof (sqrt_lt_R0 x Hx) as Su. pose proof (sqrt_lt_R0 y ltac:(lra)) as Sv.
  pose proof (elasticity a b Ha Hb (sqrt x) (sqrt y) H9 Su (sqrt_le_1_alt _ _ Hy)) as E.
  rewrite !pow2_sqrt in E by lra.
  apply (Rmult_le_reg_r (sqrt x * ((b + x) * (b + y)))); [rpos|].
  replace ((a + y) / (b + y) * (sqrt x * ((b + x) * (b + y)))) with (sqrt x * ((a + y) * (b + x))) by (field; lra).
  replace (sqrt y / sqrt x * ((a + x) / (b + x)) * (sqrt x * ((b + x) * (b + y)))) with (sqrt y * ((a + x) * (b + y))) by (field; lra).
  exact E.
Qed.

Lemma slope_mono a b x y : 0 < a -> a <= b -> 0 < x -> x <= y -> (a + x) / (b + x) <= (a + y) / (b + y).
Proof.
  intros. apply (Rmult_le_reg_r ((b + x) * (b + y))); [rpos|].
  replace ((a + x) / (b + x) * ((b + x) * (b + y))) with ((a + x) * (b + y)) by (field; lra).
  replace ((a + y) / (b + y) * ((b + x) * (b + y))) with ((a + y) * (b + x)) by (field; lra). nra.
Qed.

(** The run-up as a function of the Iribarren number. *)
Definition curve (gb xi : R) : R := Rmin (1.75 * gb * xi) (4.3 - 1.6 / sqrt xi).

Lemma sqrt_04 xi : 0.4 <= xi -> 0.632 <= sqrt xi.
Proof. intros. replace 0.632 with (sqrt (0.632 ^ 2)) by (apply sqrt_pow2; lra). apply sqrt_le_1_alt. lra. Qed.

Lemma curve_bounds gb xi : 0.6 <= gb <= 1 -> 0.4 <= xi -> 0.42 <= curve gb xi <= 4.3.
Proof.
  intros Hg Hx. pose proof (sqrt_04 xi Hx) as S. unfold curve.
  assert (Q : 0 < 1.6 / sqrt xi <= 2.54).
  { split; [apply Rdiv_lt_0_compat; lra|]. apply (Rmult_le_reg_r (sqrt xi)); [lra|]. unfold Rdiv. rewrite Rmult_assoc, Rinv_l by lra. lra. }
  split.
  - apply Rmin_glb; [nra|lra].
  - eapply Rle_trans; [apply Rmin_r|]. lra.
Qed.

Lemma Rle_min_compat a b c d : a <= c -> b <= d -> Rmin a b <= Rmin c d.
Proof. intros. apply Rmin_glb; [eapply Rle_trans; [apply Rmin_l|assumption]|eapply Rle_trans; [apply Rmin_r|assumption]]. Qed.

Lemma curve_elastic gb x y : 0 < gb -> 0.4 <= x -> x <= y -> curve gb x <= curve gb y /\ curve gb y * x <= curve gb x * y.
Proof.
  intros Hg Hx Hy. pose proof (sqrt_04 x Hx) as Sx. pose proof (sqrt_le_1_alt x y Hy) as Sxy.
  unfold curve. set (p := sqrt x) in *. set (q := sqrt y) in *.
  assert (Ex : x = p ^ 2) by (unfold p; rewrite pow2_sqrt; lra). assert (Ey : y = q ^ 2) by (unfold q; rewrite pow2_sqrt; lra).
  assert (I : 1.6 / q <= 1.6 / p).
  { apply (Rmult_le_reg_r (p * q)); [rpos|]. replace (1.6 / q * (p * q)) with (1.6 * p) by (field; lra). replace (1.6 / p * (p * q)) with (1.6 * q) by (field; lra). lra. }
  split.
  - apply Rle_min_compat. { apply Rmult_le_compat_l; [rpos|assumption]. } lra.
  - rewrite !Rmin_mul_r by lra. apply Rle_min_compat; [lra|].
    rewrite Ex, Ey. apply (Rmult_le_reg_r (p * q)); [rpos|].
    replace ((4.3 - 1.6 / q) * p ^ 2 * (p * q)) with ((4.3 * q - 1.6) * p ^ 3) by (field; lra).
    replace ((4.3 - 1.6 / p) * q ^ 2 * (p * q)) with ((4.3 * p - 1.6) * q ^ 3) by (field; lra).
    assert (E : (4.3 * p - 1.6) * q ^ 3 - (4.3 * q - 1.6) * p ^ 3 = (q - p) * (4.3 * (p * q) * (q + p) - 1.6 * (q ^ 2 + p * q + p ^ 2))) by ring.
    assert (0 <= 4.3 * (p * q) * (q + p) - 1.6 * (q ^ 2 + p * q + p ^ 2)).
    { assert (0.632 * (q * (q + p)) <= p * (q * (q + p))) by (apply Rmult_le_compat_r; [|lra]; apply Rmult_le_pos; lra).
      assert (p ^ 2 <= p * q) by nra. assert (p ^ 2 <= q ^ 2) by nra. nra. }
    assert (0 <= (q - p) * (4.3 * (p * q) * (q + p) - 1.6 * (q ^ 2 + p * q + p ^ 2))) by (apply Rmult_le_pos; lra). lra.
Qed.

Section Contraction.
Variables H T cd cu db gb f gbeta : R.
Hypotheses (HH : 0 < H) (HT : 0 < T) (Hcd : 0 < cd) (Hcu : 0 < cu) (Hdb : 0 <= db <= 1.5 * H).
Hypotheses (Hr1 : cd <= 9 * cu) (Hr2 : cu <= 9 * cd).
Hypotheses (Hgb : 0.6 <= gb <= 1) (Hf : 0.5 <= f <= 1) (Hbeta : 0.7 <= gbeta <= 1).
Hypotheses (Hxd : 0.4 <= iribarren g0 H T (1 / cd)) (Hxu : 0.4 <= iribarren g0 H T (1 / cu)).

Let K := / sqrt (steepness g0 H T).
Let P := ((1.5 * H - db) * cd + db * cu) / cu.
Let xi z := iribarren g0 H T (1 / average_cot H z cd cu db).
Let F z := f * gbeta * curve gb (xi z) * H.

Lemma K_pos : 0 < K.
Proof. unfold K. apply Rinv_0_lt_compat, sqrt_lt_R0, steepness_pos; [apply g0_pos|exact HH|exact HT]. Qed.

Lemma P_bounds : 0 < P /\ P <= 9 * (1.5 * H) /\ 1.5 * H <= 9 * P.
Proof.
  assert (E : P * cu = (1.5 * H - db) * cd + db * cu) by (unfold P; field; lra).
  assert (A1 : (1.5 * H - db) * cd <= (1.5 * H - db) * (9 * cu)) by (apply Rmult_le_compat_l; lra).
  assert (A2 : (1.5 * H - db) * cu <= (1.5 * H - db) * (9 * cd)) by (apply Rmult_le_compat_l; lra).
  assert (A3 : 0 <= (1.5 * H - db) * cd) by (apply Rmult_le_pos; lra).
  assert (A4 : 0 <= db * cu) by (apply Rmult_le_pos; lra).
  assert (A5 : 0 < H * cu) by rpos.
  split; [|split].
  - apply (Rmult_lt_reg_r cu); [assumption|]. rewrite E. nra.
  - apply (Rmult_le_reg_r cu); [assumption|]. rewrite E. nra.
  - apply (Rmult_le_reg_r cu); [assumption|]. replace (9 * P * cu) with (9 * (P * cu)) by ring. rewrite E. nra.
Qed.

Lemma xi_form z : 0 < z -> xi z = K / cu * ((1.5 * H + z) / (P + z)).
Proof.
  intros Hz. destruct P_bounds as (PP & _). unfold xi, iribarren, K.
  pose proof (sqrt_lt_R0 _ (steepness_pos g0 H T g0_pos HH HT)) as S.
  assert (E : average_cot H z cd cu db = cu * (P + z) / (1.5 * H + z)).
  { unfold average_cot, P. field. split; lra. }
  rewrite E. field. repeat split; try lra; apply Rgt_not_eq; rpos.
Qed.

Lemma xi_pos z : 0 < z -> 0.4 <= xi z.
Proof.
  intros Hz. pose proof (average_pos H z cd cu db HH Hz Hcd Hcu Hdb) as A. unfold xi.
  assert (M : forall c, 0 < c -> iribarren g0 H T (1 / c) = K / c).
  { intros. unfold iribarren, K. field. split; [apply Rgt_not_eq, sqrt_lt_R0, steepness_pos; auto using g0_pos|lra]. }
  rewrite M in * by assumption.
  assert (K1 : 0.4 * cd <= K). { apply (Rmult_le_compat_r cd) in Hxd; [|lra]. replace (K / cd * cd) with K in Hxd by (field; lra). exact Hxd. }
  assert (K2 : 0.4 * cu <= K). { apply (Rmult_le_compat_r cu) in Hxu; [|lra]. replace (K / cu * cu) with K in Hxu by (field; lra). exact Hxu. }
  pose proof (average_le H z cd cu db (K / 0.4) HH Hz Hdb ltac:(lra) ltac:(lra)) as L.
  apply (Rmult_le_reg_r (average_cot H z cd cu db)); [exact A|]. replace (K / average_cot H z cd cu db * average_cot H z cd cu db) with K by (field; lra).
  lra.
Qed.

Lemma F_bounds z : 0 < z -> 0.147 * H <= F z <= 4.3 * H.
Proof.
  intros Hz. pose proof (curve_bounds gb (xi z) Hgb (xi_pos z Hz)) as C. unfold F.
  assert (Q : 0.35 <= f * gbeta <= 1) by nra.
  assert (Q2 : 0.147 <= f * gbeta * curve gb (xi z) <= 4.3) by nra.
  split; apply Rmult_le_compat_r; lra.
Qed.
Lemma F_pos z : 0 < z -> 0 < F z.
Proof. intros Hz. pose proof (F_bounds z Hz). nra. Qed.

Lemma F_from_xi x y r : 0 < x -> 0 < y -> xi x <= xi y -> xi y <= r * xi x -> F x <= F y <= r * F x.
Proof.
  intros Hx Hy L U. pose proof (xi_pos x Hx) as X. pose proof (xi_pos y Hy) as Y.
  destruct (curve_elastic gb (xi x) (xi y) ltac:(lra) X L) as [C1 C2].
  pose proof (curve_bounds gb (xi x) Hgb X) as B.
  assert (C3 : curve gb (xi y) <= r * curve gb (xi x)).
  { apply (Rmult_le_reg_r (xi x)); [lra|]. eapply Rle_trans; [exact C2|].
    replace (r * curve gb (xi x) * xi x) with (curve gb (xi x) * (r * xi x)) by ring. apply Rmult_le_compat_l; lra. }
  unfold F. assert (0 < f * gbeta) by rpos. split.
  - apply Rmult_le_compat_r; [lra|]. apply Rmult_le_compat_l; lra.
  - replace (r * (f * gbeta * curve gb (xi x) * H)) with (f * gbeta * (r * curve gb (xi x)) * H) by ring.
    apply Rmult_le_compat_r; [lra|]. apply Rmult_le_compat_l; lra.
Qed.

Lemma F_contracts : forall x y, 0 < x -> 0 < y -> Rabs (ln (F x) - ln (F y)) <= / 2 * Rabs (ln x - ln y).
Proof.
  destruct P_bounds as (PP & P9 & P1). pose proof K_pos as KP.
  assert (KC : 0 < K / cu) by (apply Rdiv_lt_0_compat; assumption).
  destruct (Rle_lt_dec (1.5 * H) P) as [C|C].
  - apply log_lip_increasing; [lra|apply F_pos|]. intros x y Hx Hxy. apply F_from_xi; try lra.
    + rewrite !xi_form by lra. apply Rmult_le_compat_l; [lra|]. apply slope_mono; lra.
    + rewrite !xi_form by lra.
      replace (Rpower (y / x) (/ 2) * (K / cu * ((1.5 * H + x) / (P + x)))) with (K / cu * (Rpower (y / x) (/ 2) * ((1.5 * H + x) / (P + x)))) by ring.
      apply Rmult_le_compat_l; [lra|]. apply slope_ratio; lra.
  - apply log_lip_decreasing; [lra|apply F_pos|]. intros x y Hx Hxy.
    pose proof (slope_ratio P (1.5 * H) x y PP ltac:(lra) P1 Hx Hxy) as R.
    pose proof (slope_mono P (1.5 * H) x y PP ltac:(lra) Hx Hxy) as M.
    assert (I : forall z, 0 < z -> (1.5 * H + z) / (P + z) = / ((P + z) / (1.5 * H + z))) by (intros; field; lra).
    assert (PQ : forall z, 0 < z -> 0 < (P + z) / (1.5 * H + z)) by (intros; apply Rdiv_lt_0_compat; lra).
    apply F_from_xi; try lra.
    + rewrite !xi_form, !I by lra. apply Rmult_le_compat_l; [lra|]. apply Rinv_le_contravar; [apply PQ; lra|exact M].
    + rewrite !xi_form, !I by lra. pose proof (PQ x Hx) as Qx. pose proof (PQ y ltac:(lra)) as Qy.
      set (X := (P + x) / (1.5 * H + x)) in *. set (Y := (P + y) / (1.5 * H + y)) in *. set (r := Rpower (y / x) (/ 2)) in *.
      replace (r * (K / cu * / Y)) with (K / cu * (r * / Y)) by ring.
      apply Rmult_le_compat_l; [lra|]. apply (Rmult_le_reg_r (X * Y)); [rpos|].
      replace (/ X * (X * Y)) with Y by (field; lra). replace (r * / Y * (X * Y)) with (r * X) by (field; lra). exact R.
Qed.
End Contraction.

Lemma next_curve H T cd cu db gb gf gbeta z : 0 < gf -> 0 < gbeta ->
  taw_roughness gf gb (iribarren g0 H T (1 / average_cot H z cd cu db)) = gf ->
  next H T cd cu db gb gf gbeta z = gf * gbeta * curve gb (iribarren g0 H T (1 / average_cot H z cd cu db)) * H.
Proof.
  intros Hf Hb R. unfold next, taw_runup. cbv zeta. rewrite R. f_equal. unfold curve.
  set (x := iribarren g0 H T (1 / average_cot H z cd cu db)). unfold taw_slope_runup, taw_max_runup.
  rewrite (Rmult_comm (gf * gbeta)), Rmin_mul_r by (left; rpos). f_equal; ring.
Qed.

Lemma ln_le_mono x y : 0 < x -> x <= y -> ln x <= ln y.
Proof. intros Hx [L| ->]; [left; apply ln_increasing; assumption|right; reflexivity]. Qed.
Lemma ln_gap a b : 0 < a -> 0 < b -> Rabs (ln a - ln b) <= Rabs (a - b) / Rmin a b.
Proof.
  assert (W : forall a b, 0 < a -> a <= b -> Rabs (ln a - ln b) <= Rabs (a - b) / Rmin a b).
  { intros x y Hx Hxy. rewrite Rmin_left by assumption. rewrite !Rabs_left1 by (try lra; pose proof (ln_le_mono x y Hx Hxy); lra).
    assert (E : ln y <= ln x + (y - x) / x); [|unfold Rdiv in *; lra].
    replace (ln y) with (ln x + ln (y / x)) by (rewrite ln_div by lra; ring).
    apply Rplus_le_compat_l. eapply Rle_trans; [apply ln_le_sub|]; [rpos|]. right. field. lra. }
  intros Ha Hb. destruct (Rle_lt_dec a b); [apply W; assumption|].
  rewrite Rabs_minus_sym, (Rabs_minus_sym a), Rmin_comm. apply W; lra.
Qed.

Lemma gap_ln a b m : 0 < a <= m -> 0 < b <= m -> Rabs (a - b) <= m * Rabs (ln a - ln b).
Proof.
  assert (W : forall a b, 0 < a -> a <= b <= m -> Rabs (a - b) <= m * Rabs (ln a - ln b)).
  { intros x y Hx Hxy. rewrite !Rabs_left1 by (try lra; pose proof (ln_le_mono x y Hx ltac:(lra)); lra).
    assert (E : y - x <= y * (ln y - ln x)).
    { assert (L : ln (x / y) <= x / y - 1) by (apply ln_le_sub; rpos). rewrite ln_div in L by lra.
      apply (Rmult_le_compat_l y) in L; [|lra]. replace (y * (x / y - 1)) with (x - y) in L by (field; lra). lra. }
    pose proof (ln_le_mono x y Hx ltac:(lra)). assert (y * (ln y - ln x) <= m * (ln y - ln x)) by (apply Rmult_le_compat_r; lra). lra. }
  intros Ha Hb. destruct (Rle_lt_dec a b); [apply W; lra|].
  rewrite Rabs_minus_sym, (Rabs_minus_sym (ln a)). apply W; lra.
Qed.

(** With moderately different slopes, a berm at or below still water and a
    roughness factor that needs no adjustment, the procedure stops within 31 steps,
    close to the only run-up that reproduces itself. *)
Theorem C12_converges : forall H T cd cu B db gf gbeta max_iter,
  0 < H <= 1000 -> 0 < T -> 0 < cd -> 0 < cu -> cd <= 9 * cu -> cu <= 9 * cd -> 0 <= B -> 0 <= db <= 1.5 * H ->
  0.5 <= gf <= 1 -> 0.7 <= gbeta <= 1 ->
  0.4 <= iribarren g0 H T (1 / cd) -> 0.4 <= iribarren g0 H T (1 / cu) ->
  (gf = 1 \/ iribarren g0 H T (1 / cd) < 1.8 /\ iribarren g0 H T (1 / cu) < 1.8) ->
  (30 <= max_iter)%nat ->
  let step := runup_step (Fin H) (Fin T) (Fin cd) (Fin cu) (Fin B) (Fin db) (Fin gf) (Fin gbeta) c1_default c2_default c3_default c4_default false in
  exists n z0 z p,
    value (iteration_procedure_z2p (Fin H) (Fin T) (Fin cd) (Fin cu) (Fin B) (Fin db) (Fin gf) (Fin gbeta)
             c1_default c2_default c3_default c4_default false tolerance_default max_iter) = Ok (Fin z)
    /\ (n <= 30)%nat /\ moves step (settled tolerance_default) n (Fin (1.5 * H)) (Fin z0) /\ step (Fin z0) (Fin z)
    /\ Rabs (z - z0) <= 0.0001
    /\ 0 < p /\ step (Fin p) (Fin p) /\ (forall q, 0 < q -> step (Fin q) (Fin q) -> q = p)
    /\ Rabs (ln z - ln p) <= 0.0007 / H.
Proof.
  intros H T cd cu B db gf gbeta max_iter HH HT Hcd Hcu R1 R2 HB Hdb Hf Hb Xd Xu R Hm step.
  destruct (berm_constant H db B (length_of H B cd cu)) as (gb & Egb & Bgb); [lra|lra| |].
  { unfold length_of. assert (0 < 1 * H * cd) by rpos. assert (0 < 1 * H * cu) by rpos. lra. }
  set (F := fun z => gf * gbeta * curve gb (iribarren g0 H T (1 / average_cot H z cd cu db)) * H).
  assert (EF : forall z, 0 < z -> next H T cd cu db gb gf gbeta z = F z).
  { intros z Hz. apply next_curve; try lra. destruct R as [->|[Rd Ru]].
    - unfold taw_roughness. destruct (Rle_dec _ _); [destruct (Rle_dec _ _)|]; try reflexivity. ring.
    - unfold taw_roughness. destruct (Rle_dec _ _) as [L|]; [|reflexivity]. exfalso.
      assert (M : forall c, 0 < c -> iribarren g0 H T (1 / c) = / sqrt (steepness g0 H T) / c).
      { intros. unfold iribarren. field. split; [apply Rgt_not_eq, sqrt_lt_R0, steepness_pos; lra || apply g0_pos|lra]. }
      pose proof (average_pos H z cd cu db ltac:(lra) Hz Hcd Hcu Hdb) as A.
      rewrite M in * by assumption. set (K := / sqrt (steepness g0 H T)) in *.
      assert (K1 : K < 1.8 * cd). { apply (Rmult_lt_compat_r cd) in Rd; [|lra]. replace (K / cd * cd) with K in Rd by (field; lra). exact Rd. }
      assert (K2 : K < 1.8 * cu). { apply (Rmult_lt_compat_r cu) in Ru; [|lra]. replace (K / cu * cu) with K in Ru by (field; lra). exact Ru. }
      pose proof (average_ge H z cd cu db (Rmin cd cu) ltac:(lra) Hz Hdb (Rmin_l _ _) (Rmin_r _ _)) as G.
      assert (K3 : K < 1.8 * average_cot H z cd cu db). { revert G. unfold Rmin. destruct (Rle_dec _ _); intros; lra. }
      assert (K4 : K / average_cot H z cd cu db < 1.8).
      { apply (Rmult_lt_reg_r (average_cot H z cd cu db)); [exact A|]. replace (K / average_cot H z cd cu db * average_cot H z cd cu db) with K by (field; lra). exact K3. }
      assert (0 < K / average_cot H z cd cu db). { apply Rdiv_lt_0_compat; [|exact A]. apply Rinv_0_lt_compat, sqrt_lt_R0, steepness_pos; lra || apply g0_pos. }
      nra. }
  assert (HS : forall z (z' : num), 0 < z -> (step (Fin z) z' <-> z' = Fin (F z))).
  { intros z z' Hz. unfold step. rewrite (step_next H T cd cu B db gb gf gbeta) by (assumption || lra). rewrite EF by assumption. reflexivity. }
  assert (FB : forall z, 0 < z -> 0.147 * H <= F z <= 4.3 * H) by (intros; apply F_bounds; (assumption || lra)).
  assert (FP : forall z, 0 < z -> 0 < F z) by (intros z Hz; pose proof (FB z Hz); lra).
  assert (FC : forall x y, 0 < x -> 0 < y -> Rabs (ln (F x) - ln (F y)) <= / 2 * Rabs (ln x - ln y)) by (apply F_contracts; (assumption || lra)).
  assert (X0 : 0 < 1.5 * H) by lra.
  (* the first 31 steps *)
  assert (IP : forall n, 0 < iter F n (1.5 * H)) by (intros; apply iter_pos; assumption).
  assert (D : Rabs (iter F 31 (1.5 * H) - iter F 30 (1.5 * H)) <= 0.0001).
  { pose proof (FB (iter F 30 (1.5 * H)) (IP _)) as B1. pose proof (FB (iter F 29 (1.5 * H)) (IP _)) as B2.
    rewrite <- (iter_S F 30) in B1. rewrite <- (iter_S F 29) in B2.
    eapply Rle_trans; [apply (gap_ln _ _ (4.3 * H)); split; try lra; apply IP|].
    assert (L : forall n, Rabs (ln (iter F (S n) (1.5 * H)) - ln (iter F n (1.5 * H))) <= (/ 2) ^ n * Rabs (ln (F (1.5 * H)) - ln (1.5 * H))).
    { induction n.
      - simpl. lra.
      - rewrite (iter_S F (S n)). rewrite (iter_S F n) at 2. eapply Rle_trans; [apply FC; apply IP|]. simpl pow. rewrite Rmult_assoc. apply Rmult_le_compat_l; [lra|exact IHn]. }
    specialize (L 30%nat).
    assert (D0 : Rabs (ln (F (1.5 * H)) - ln (1.5 * H)) <= 20).
    { eapply Rle_trans; [apply ln_gap; auto|]. pose proof (FB (1.5 * H) X0) as B0.
      assert (M : 0.147 * H <= Rmin (F (1.5 * H)) (1.5 * H)) by (apply Rmin_glb; lra).
      assert (A : Rabs (F (1.5 * H) - 1.5 * H) <= 2.8 * H) by (apply Rabs_le; lra).
      apply (Rmult_le_reg_r (Rmin (F (1.5 * H)) (1.5 * H))); [lra|]. unfold Rdiv. rewrite Rmult_assoc, Rinv_l, Rmult_1_r by lra. lra. }
    assert (Q : (/ 2) ^ 30 * Rabs (ln (F (1.5 * H)) - ln (1.5 * H)) <= (/ 2) ^ 30 * 20) by (apply Rmult_le_compat_l; [apply pow_le; lra|exact D0]).
    apply (Rle_trans _ (4.3 * H * ((/ 2) ^ 30 * 20))). { apply Rmult_le_compat_l; lra. }
    apply (Rle_trans _ (4.3 * 1000 * ((/ 2) ^ 30 * 20))). { apply Rmult_le_compat_r; [simpl; lra|lra]. } simpl. lra. }
  destruct (first_settled step F 0.0001 30 (1.5 * H)) as (n & Hn & Mv & St); [|exact FP|exact X0|exact D|].
  { intros z Hz. apply HS; [exact Hz|reflexivity]. }
  destruct (log_contraction_fixpoint F (/ 2) ltac:(lra) FP FC) as (p & Hp & Fp & Up & Ap).
  set (z0 := iter F n (1.5 * H)) in *. assert (Hz0 : 0 < z0) by apply IP.
  exists n, z0, (F z0), p. split; [|split; [exact Hn|split; [exact Mv|split; [apply HS; auto|split; [exact St|split; [exact Hp|split; [apply HS; congruence|split]]]]]]].
  - unfold tolerance_default. apply C12_iteration; [lra|]. exists n, (Fin z0). split; [lia|]. split; [exact Mv|]. split; [apply HS; auto|]. right.
    unfold settled. nfin. rewrite Rltb_false; [reflexivity|exact St].
  - intros q Hq Eq. apply HS in Eq; [|exact Hq]. injection Eq as Eq. apply Up; congruence.
  - eapply Rle_trans; [apply Ap; exact Hz0|]. replace (/ 2 / (1 - / 2)) with 1 by lra. rewrite Rmult_1_l.
    eapply Rle_trans; [apply ln_gap; auto|].
    assert (M : 0.147 * H <= Rmin (F z0) z0).
    { apply Rmin_glb; [apply FB; exact Hz0|]. unfold z0. destruct n; [cbn; lra|]. rewrite iter_S. apply FB. apply IP. }
    apply (Rle_trans _ (0.0001 / (0.147 * H))).
    + apply Rmult_le_compat; [apply Rabs_pos|left; apply Rinv_0_lt_compat; lra|exact St|]. apply Rinv_le_contravar; lra.
    + apply (Rmult_le_reg_r (0.147 * H)); [lra|]. replace (0.0001 / (0.147 * H) * (0.147 * H)) with 0.0001 by (field; lra).
      replace (0.0007 / H * (0.147 * H)) with (0.0007 * 0.147) by (field; lra). lra.
Qed.

(** ** ... and with rough slopes it may not converge at all *)
Section Cycle.
Let T := sqrt (2 * PI * 1 / (g0 * (1 / 182.25))).
Let F z := next 1 T 2 1 0 1 0.5 1 z.

Lemma cycle_T : 0 < T.
Proof. apply sqrt_lt_R0. pose proof g0_pos. pose proof PI_RGT_0. rpos. Qed.
Lemma cycle_xi z : 0 < z -> iribarren g0 1 T (1 / average_cot 1 z 2 1 0) = 13.5 * ((1.5 + z) / (3 + z)).
Proof.
  intros. unfold iribarren, T. rewrite period_of by lra. unfold average_cot.
  replace (sqrt (1 / 182.25)) with (1 / 13.5) by (replace (1 / 182.25) with ((1 / 13.5) ^ 2) by lra; rewrite sqrt_pow2; lra).
  rfield; lra.
Qed.

Lemma sqrt_ge a x : 0 <= a -> a ^ 2 <= x -> a <= sqrt x.
Proof. intros. rewrite <- (sqrt_pow2 a) by assumption. apply sqrt_le_1_alt. assumption. Qed.
Lemma sqrt_le a x : 0 <= a -> x <= a ^ 2 -> sqrt x <= a.
Proof. intros. rewrite <- (sqrt_pow2 a) by assumption. apply sqrt_le_1_alt. assumption. Qed.
Lemma inv_bounds a b s : 0 < a -> a <= s <= b -> 1.6 / b <= 1.6 / s <= 1.6 / a.
Proof.
  intros. split; apply Rmult_le_compat_l; try lra; apply Rinv_le_contravar; lra.
Qed.

Lemma cycle_low z : 1.5 <= z <= 2.15 -> 3.5 <= F z <= 3.7.
Proof.
  intros Hz. unfold F, next. rewrite cycle_xi by lra.
  set (x := 13.5 * ((1.5 + z) / (3 + z))).
  assert (X : 9 <= x <= 9.6).
  { unfold x. assert (E : (1.5 + z) / (3 + z) * (3 + z) = 1.5 + z) by (field; lra). set (t := (1.5 + z) / (3 + z)) in *. nra. }
  pose proof (sqrt_ge 3 x ltac:(lra) ltac:(lra)) as S1. pose proof (sqrt_le 3.1 x ltac:(lra) ltac:(lra)) as S2.
  pose proof (inv_bounds 3 3.1 (sqrt x) ltac:(lra) (conj S1 S2)) as I.
  unfold taw_runup, taw_roughness. destruct (Rle_dec 1.8 (1 * x)); [|lra]. destruct (Rle_dec (1 * x) 10); [|lra].
  unfold taw_slope_runup, taw_max_runup. set (f := 0.5 + (1 - 0.5) * ((x - 1.8) / 8.2)).
  assert (Bf : 0.939 <= f <= 0.976) by (unfold f; lra).
  rewrite Rmin_right by nra. set (w := 1.6 / sqrt x) in *. nra.
Qed.

Lemma cycle_high z : 3.5 <= z <= 3.7 -> 1.5 <= F z <= 2.15.
Proof.
  intros Hz. unfold F, next. rewrite cycle_xi by lra.
  set (x := 13.5 * ((1.5 + z) / (3 + z))).
  assert (X : 10.3 <= x <= 10.6).
  { unfold x. assert (E : (1.5 + z) / (3 + z) * (3 + z) = 1.5 + z) by (field; lra). set (t := (1.5 + z) / (3 + z)) in *. nra. }
  pose proof (sqrt_ge 3.2 x ltac:(lra) ltac:(lra)) as S1. pose proof (sqrt_le 3.3 x ltac:(lra) ltac:(lra)) as S2.
  pose proof (inv_bounds 3.2 3.3 (sqrt x) ltac:(lra) (conj S1 S2)) as I.
  unfold taw_runup, taw_roughness. destruct (Rle_dec 1.8 (1 * x)); [|lra]. destruct (Rle_dec (1 * x) 10); [lra|].
  unfold taw_slope_runup, taw_max_runup.
  rewrite Rmin_right by nra. set (w := 1.6 / sqrt x) in *. lra.
Qed.

Lemma cycle_iterates n : 1.5 <= iter F (2 * n) 1.5 <= 2.15 /\ 3.5 <= iter F (S (2 * n)) 1.5 <= 3.7.
Proof.
  induction n.
  - split; [cbn; lra|]. cbn. apply cycle_low. lra.
  - replace (2 * S n)%nat with (S (S (2 * n))) by lia. destruct IHn as [_ I].
    rewrite !(iter_S F). rewrite (iter_S F (2 * n)) in I. split; [apply cycle_high; exact I|]. apply cycle_low, cycle_high. exact I.
Qed.

Lemma cycle_apart n : 1 < Rabs (iter F (S n) 1.5 - iter F n 1.5).
Proof.
  destruct (Nat.Even_or_Odd n) as [[m ->]|[m ->]].
  - pose proof (cycle_iterates m). rewrite Rabs_pos_eq; lra.
  - replace (2 * m + 1)%nat with (S (2 * m)) by lia. replace (S (S (2 * m))) with (2 * S m)%nat by lia.
    pose proof (cycle_iterates m). pose proof (cycle_iterates (S m)). rewrite Rabs_left1; lra.
Qed.

Lemma cycle_pos_F z : 0 < z -> 0 < F z.
Proof.
  intros Hz. unfold F, next. rewrite cycle_xi by lra. set (x := 13.5 * ((1.5 + z) / (3 + z))).
  assert (X : 6.75 <= x <= 13.5).
  { unfold x. assert (E : (1.5 + z) / (3 + z) * (3 + z) = 1.5 + z) by (field; lra). set (t := (1.5 + z) / (3 + z)) in *. nra. }
  pose proof (sqrt_ge 2 x ltac:(lra) ltac:(lra)) as S1. pose proof (sqrt_le 4 x ltac:(lra) ltac:(lra)) as S2.
  pose proof (inv_bounds 2 4 (sqrt x) ltac:(lra) (conj S1 S2)) as I.
  assert (G : 0.5 <= taw_roughness 0.5 1 x). { unfold taw_roughness. destruct (Rle_dec _ _); [destruct (Rle_dec _ _)|]; lra. }
  rewrite Rmult_1_r. unfold taw_runup, taw_slope_runup, taw_max_runup. cbv zeta. set (f := taw_roughness 0.5 1 x) in *. apply Rmin_glb_lt; nra.
Qed.

Lemma cycle_steps (max_iter : nat) :
  value (iteration_procedure_z2p #1 (Fin T) #2 #1 #0 #0 #0.5 #1 c1_default c2_default c3_default c4_default false tolerance_default max_iter)
  = Ok (Fin (iter F (S max_iter) 1.5)).
Proof.
  assert (HS : forall z (z' : num), 0 < z -> (runup_step #1 (Fin T) #2 #1 #0 #0 #0.5 #1 c1_default c2_default c3_default c4_default false (Fin z) z' <-> z' = Fin (F z))).
  { intros. apply step_next; try lra; [apply cycle_T|]. intros y Hy. apply C09_no_berm; unfold length_of; lra. }
  unfold tolerance_default. apply C12_iteration; [lra|]. exists max_iter, (Fin (iter F max_iter 1.5)).
  split; [lia|]. split; [|split; [|left; reflexivity]].
  - replace (1.5 * 1) with 1.5 by lra. apply moves_iter; [| |lra|].
    + intros. apply HS; auto.
    + apply cycle_pos_F.
    + intros. pose proof (cycle_apart m). lra.
  - apply HS; [|reflexivity]. clear. induction max_iter; [cbn; lra|]. rewrite iter_S. apply cycle_pos_F. exact IHmax_iter.
Qed.

(** Waves of 1 m on a slope of 1:2 below and 1:1 above still water with gamma_f
    0.5: the procedure swings between run-ups of about 1.9 and 3.6 m for ever, and
    which of them is returned depends on whether max_iter is even or odd. *)
Theorem C12_converges_refuted : exists T, 0 < T /\ steepness g0 1 T = 1 / 182.25 /\ forall max_iter, exists z z',
  value (iteration_procedure_z2p #1 (Fin T) #2 #1 #0 #0 #0.5 #1 c1_default c2_default c3_default c4_default false tolerance_default max_iter) = Ok (Fin z)
  /\ value (iteration_procedure_z2p #1 (Fin T) #2 #1 #0 #0 #0.5 #1 c1_default c2_default c3_default c4_default false tolerance_default (S max_iter)) = Ok (Fin z')
  /\ 1 < Rabs (z' - z).
Proof.
  exists T. split; [apply cycle_T|]. split; [apply period_of; lra|]. intros n. exists (iter F (S n) 1.5), (iter F (S (S n)) 1.5).
  split; [apply cycle_steps|]. split; [apply cycle_steps|]. apply cycle_apart.
Qed.
End Cycle.

(** A smooth slope of 1:4 below and 1:3 above a berm 0.5 m below still water, in
    waves of 2 m with a steepness of 4%: the procedure converges with its own limit
    of 1000 iterations. *)
Example C12_example : exists T z p, 0 < T
  /\ value (iteration_procedure_z2p #2 (Fin T) #4 #3 #5 #0.5 #1 #1 c1_default c2_default c3_default c4_default false tolerance_default max_iter_default) = Ok (Fin z)
  /\ runup_step #2 (Fin T) #4 #3 #5 #0.5 #1 #1 c1_default c2_default c3_default c4_default false (Fin p) (Fin p)
  /\ 0 < p /\ Rabs (ln z - ln p) <= 0.00035.
Proof.
  set (T := sqrt (2 * PI * 2 / (g0 * 0.04))).
  assert (HT : 0 < T) by (apply sqrt_lt_R0; pose proof g0_pos; pose proof PI_RGT_0; rpos).
  assert (X : forall c, 0 < c -> iribarren g0 2 T (1 / c) = 5 / c).
  { intros. unfold iribarren, T. rewrite period_of by lra. replace (sqrt 0.04) with 0.2 by (replace 0.04 with (0.2 ^ 2) by lra; rewrite sqrt_pow2; lra). rfield; lra. }
  destruct (C12_converges 2 T 4 3 5 0.5 1 1 max_iter_default) as (n & z0 & z & p & V & _ & _ & _ & _ & Hp & Sp & _ & A);
    try (rewrite X); try lra; try (unfold max_iter_default; lia).
  exists T, z, p. split; [exact HT|]. split; [exact V|]. split; [exact Sp|]. split; [exact Hp|]. lra.
Qed.
