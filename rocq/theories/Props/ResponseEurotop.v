(** C77: higher and longer waves, and smoother slopes, give more overtopping (TAW, EurOtop) *)
From Coq Require Import Reals Lra Lia List Bool String Psatz.
From Verif.Lib Require Import Num Monad RTac NTac.
From Verif.Spec Require Import Waves Taw Overtopping Response.
From Verif.Model Require Import CoreUtility CorePhysics.
From Verif.Model Require OvertoppingEurotop2007 OvertoppingEurotop2018 OvertoppingTAW2002.
From Verif.Proofs Require Import Core Response.
From Verif.Props Require Import OvertoppingTAW OvertoppingEurotop07 OvertoppingEurotop18.
Open Scope R_scope.

Lemma roots H H' : 0 < H < H' -> 0 < sqrt H < sqrt H'.
Proof. intros. split; [apply sqrt_lt_R0; lra|apply sqrt_lt_1; lra]. Qed.
(** The wave height times the roughness factor *)
Lemma effective_height gf T cot H H' : 0 < T -> 0 < cot -> 0.1 <= gf <= 1 -> 0 < H < H' ->
  0 < H * taw_roughness gf 1 (iribarren g0 H T (1 / cot)) < H' * taw_roughness gf 1 (iribarren g0 H' T (1 / cot)).
Proof.
  intros HT HC G HH. pose proof g0_pos. assert (0 < 1 / cot) by (apply Rdiv_lt_0_compat; lra).
  rewrite (iribarren_height g0 H T), (iribarren_height g0 H' T) by lra. pose proof (iribarren_pos g0 1 T (1 / cot) ltac:(lra) ltac:(lra) HT ltac:(lra)) as K.
  pose proof (roots H H' HH) as [R1 R2]. pose proof (rough_height gf _ ltac:(lra) K (sqrt H) (sqrt H') ltac:(lra) ltac:(lra)) as E.
  pose proof (rough_ge gf (iribarren g0 1 T (1 / cot)) ltac:(lra) (sqrt H) R1) as F.
  rewrite !sqrt_sqrt in E by lra. split; [|exact E]. apply Rmult_lt_0_compat; lra.
Qed.
(** The roughness factor by itself *)
Lemma roughness_period gf T T' cot H : 0 < H -> 0 < cot -> 0 < gf <= 1 -> 0 < T < T' -> iribarren g0 H T' (1 / cot) <= 10 ->
  0 < taw_roughness gf 1 (iribarren g0 H T (1 / cot)) <= taw_roughness gf 1 (iribarren g0 H T' (1 / cot)).
Proof.
  intros HH HC G HT E. pose proof g0_pos. assert (0 < 1 / cot) by (apply Rdiv_lt_0_compat; lra). pose proof (iribarren_pos g0 H 1 (1 / cot) ltac:(lra) HH ltac:(lra) ltac:(lra)) as K.
  rewrite (iribarren_period g0 H T), (iribarren_period g0 H T') in * by lra. set (k := iribarren g0 H 1 (1 / cot)) in *.
  assert (0 < / T' < / T) by (split; [apply Rinv_0_lt_compat; lra|apply Rinv_lt_contravar; nra]).
  replace (T * k) with (k / / T) by (field; lra). replace (T' * k) with (k / / T') by (field; lra).
  assert (k / 10 <= / T'). { apply (Rmult_le_reg_r T'); [lra|]. rewrite Rinv_l by lra. lra. }
  split; [|apply rough_period; lra]. pose proof (rough_ge gf k ltac:(lra) (/ T) ltac:(lra)). lra.
Qed.
Lemma roughness_factor gf gf' xi : 0 < gf -> gf <= gf' -> gf' <= 1 -> 0 < taw_roughness gf 1 xi <= taw_roughness gf' 1 xi.
Proof.
  intros. unfold taw_roughness. destruct (Rle_dec 1.8 (1 * xi)); [destruct (Rle_dec (1 * xi) 10)|]; try lra.
  assert (0 <= (xi - 1.8) / 8.2 <= 1) by lra. nra.
Qed.

(** ** Slope and maximum formulas, with exponentials that fall off in one way or another *)
Section Formulas.
Variable fall : R -> R.
Hypothesis Fall : forall x y, x <= y -> fall x <= fall y.
Definition slope_formula (A k gb f gbeta gv xi r : R) : R := A * gb * xi * exp (- fall (k * r / (xi * gb * f * gbeta * gv))).
Definition max_formula (c k f gbeta gs r : R) : R := c * exp (- fall (k * r / (f * gbeta * gs))).

Lemma fall_le x y : x <= y -> 0 < exp (- fall y) <= exp (- fall x).
Proof. intros L. split; [apply exp_pos|]. apply exp_le, Ropp_le_contravar, Fall, L. Qed.
Lemma slope_height A k gb f f' gbeta gv g H H' T t Rc : 0 < A -> 0 < k -> 0 < gb -> 0 < f -> 0 < f' -> 0 < gbeta -> 0 < gv -> 0 < g -> 0 < H < H' -> 0 < T -> 0 < t -> 0 <= Rc ->
  sqrt H * f <= sqrt H' * f' ->
  0 < slope_formula A k gb f gbeta gv (iribarren g0 H T t) (Rc / H) * q_unit g H < slope_formula A k gb f' gbeta gv (iribarren g0 H' T t) (Rc / H') * q_unit g H'.
Proof.
  intros HA HK Hgb Hf Hf' Hb Hv Hg HH HT Ht HR E. pose proof g0_pos as G0. rewrite (iribarren_height g0 H T), (iribarren_height g0 H' T) by lra.
  pose proof (iribarren_pos g0 1 T t G0 ltac:(lra) HT Ht) as K. set (K0 := iribarren g0 1 T t) in *. clearbody K0.
  assert (U : forall h, 0 < h -> K0 / sqrt h * q_unit g h = K0 * sqrt g * h).
  { intros h P. unfold q_unit. replace (g * h ^ 3) with (g * (h * h * h)) by ring. rewrite !sqrt_mult by (try apply Rmult_le_pos; nra). rewrite sqrt_sqrt by lra.
    field. apply Rgt_not_eq, sqrt_lt_R0, P. }
  pose proof (roots H H' HH) as R0. assert (0 < sqrt g) by (apply sqrt_lt_R0, Hg). unfold slope_formula.
  assert (Q : forall h x, 0 < h -> 0 < x -> k * (Rc / h) / (K0 / sqrt h * gb * x * gbeta * gv) = k * Rc / (K0 * gb * gbeta * gv) / (sqrt h * x)).
  { intros h x P X. pose proof (sqrt_lt_R0 h P). rewrite <- (sqrt_sqrt h) at 1 by lra. field. repeat split; lra. }
  rewrite !Q by lra. set (c := k * Rc / (K0 * gb * gbeta * gv)). assert (C : 0 <= c) by (unfold c, Rdiv; apply Rmult_le_pos; [nra|left; apply Rinv_0_lt_compat; repeat apply Rmult_lt_0_compat; lra]).
  pose proof (quotient_le c _ _ C (conj (Rmult_lt_0_compat _ _ (proj1 R0) Hf) E)) as L. apply fall_le in L.
  set (e := exp (- fall (c / (sqrt H * f)))) in *. set (e' := exp (- fall (c / (sqrt H' * f')))) in *. clearbody e e' c.
  replace (A * gb * (K0 / sqrt H) * e * q_unit g H) with (A * gb * e * (K0 / sqrt H * q_unit g H)) by ring. replace (A * gb * (K0 / sqrt H') * e' * q_unit g H') with (A * gb * e' * (K0 / sqrt H' * q_unit g H')) by ring.
  rewrite !U by lra. assert (P : 0 < A * gb) by (apply Rmult_lt_0_compat; assumption). assert (P2 : 0 < K0 * sqrt g) by (apply Rmult_lt_0_compat; lra).
  assert (0 < A * gb * e <= A * gb * e') by (split; [apply Rmult_lt_0_compat; lra|apply Rmult_le_compat_l; lra]).
  assert (0 < K0 * sqrt g * H < K0 * sqrt g * H') by (split; [apply Rmult_lt_0_compat; lra|apply Rmult_lt_compat_l; lra]).
  split; [apply Rmult_lt_0_compat; lra|]. apply Rle_lt_trans with (A * gb * e' * (K0 * sqrt g * H)); [apply Rmult_le_compat_r; lra|apply Rmult_lt_compat_l; lra].
Qed.
Lemma slope_up A k gb f f' gbeta gv xi xi' r : 0 < A -> 0 < k -> 0 < gb -> 0 < f <= f' -> 0 < gbeta -> 0 < gv -> 0 < xi <= xi' -> 0 <= r ->
  0 < slope_formula A k gb f gbeta gv xi r <= slope_formula A k gb f' gbeta gv xi' r.
Proof.
  intros HA HK Hgb Hf Hb Hv HX HR. unfold slope_formula.
  assert (E : 0 < xi * gb * f * gbeta * gv <= xi' * gb * f' * gbeta * gv).
  { split; [repeat apply Rmult_lt_0_compat; lra|]. repeat (apply Rmult_le_compat; [| | |lra]; repeat apply Rmult_le_pos; try lra). }
  pose proof (quotient_le (k * r) _ _ ltac:(nra) E) as L. apply fall_le in L. set (e := exp _) in *. set (e' := exp (- fall (k * r / (xi' * _ * _ * _ * _)))) in *. clearbody e e'.
  assert (0 < A * gb) by (apply Rmult_lt_0_compat; lra). assert (0 < A * gb * xi <= A * gb * xi') by (split; [apply Rmult_lt_0_compat; lra|apply Rmult_le_compat_l; lra]).
  split; [apply Rmult_lt_0_compat; lra|]. apply Rmult_le_compat; lra.
Qed.
Lemma max_height c k f f' gbeta gs g H H' Rc : 0 < c -> 0 < k -> 0 < f -> 0 < f' -> 0 < gbeta -> 0 < gs -> 0 < g -> 0 < H < H' -> 0 <= Rc -> H * f <= H' * f' ->
  0 < max_formula c k f gbeta gs (Rc / H) * q_unit g H < max_formula c k f' gbeta gs (Rc / H') * q_unit g H'.
Proof.
  intros HC HK Hf Hf' Hb Hs Hg HH HR E. unfold max_formula.
  assert (Q : forall h x, 0 < h -> 0 < x -> k * (Rc / h) / (x * gbeta * gs) = k * Rc / (gbeta * gs) / (h * x)) by (intros; field; lra).
  rewrite !Q by lra. set (d := k * Rc / (gbeta * gs)). assert (C : 0 <= d) by (unfold d, Rdiv; apply Rmult_le_pos; [nra|left; apply Rinv_0_lt_compat; apply Rmult_lt_0_compat; lra]).
  pose proof (quotient_le d _ _ C (conj (Rmult_lt_0_compat _ _ (proj1 HH) Hf) E)) as L. apply fall_le in L.
  pose proof (q_unit_lt g H H' Hg HH). pose proof (q_unit_pos g H Hg (proj1 HH)).
  set (e := exp _) in *. set (e' := exp (- fall (d / (H' * f')))) in *. clearbody e e'.
  assert (0 < c * e <= c * e') by (split; [apply Rmult_lt_0_compat; lra|apply Rmult_le_compat_l; lra]).
  split; [apply Rmult_lt_0_compat; lra|]. apply Rle_lt_trans with (c * e' * q_unit g H); [apply Rmult_le_compat_r; lra|apply Rmult_lt_compat_l; lra].
Qed.
Lemma max_up c k f f' gbeta gs r : 0 < c -> 0 < k -> 0 < f <= f' -> 0 < gbeta -> 0 < gs -> 0 <= r -> 0 < max_formula c k f gbeta gs r <= max_formula c k f' gbeta gs r.
Proof.
  intros HC HK Hf Hb Hs HR. unfold max_formula.
  assert (E : 0 < f * gbeta * gs <= f' * gbeta * gs) by (split; [repeat apply Rmult_lt_0_compat; lra|apply Rmult_le_compat_r; [lra|apply Rmult_le_compat_r; lra]]).
  pose proof (quotient_le (k * r) _ _ ltac:(nra) E) as L. apply fall_le in L. split; [apply Rmult_lt_0_compat; lra|apply Rmult_le_compat_l; lra].
Qed.
End Formulas.
Lemma smallest_lt a b a' b' u u' : 0 < u -> 0 < u' -> 0 < a * u < a' * u' -> 0 < b * u < b' * u' -> 0 < Rmin a b * u < Rmin a' b' * u'.
Proof. intros. unfold Rmin. destruct (Rle_dec a b), (Rle_dec a' b'); nra. Qed.
Lemma smallest_le a b a' b' u : 0 < u -> 0 < a <= a' -> 0 < b <= b' -> 0 < Rmin a b * u <= Rmin a' b' * u.
Proof. intros. unfold Rmin. destruct (Rle_dec a b), (Rle_dec a' b'); nra. Qed.

(** ** EurOtop (2007), rubble mounds *)
Section Mound07.
Variables (T cot gbeta c2 c3 k2 k3 g Rc : R) (beta gbeta' : num) (bf : bool).
Hypotheses (HT : 0 < T) (HC : 0 < cot) (HG : 0 < g) (HB : 0 < gbeta) (K2 : 0 < k2) (K3 : 0 < k3) (C : eurotop07_coefficients c2 c3 bf k2 k3)
  (A : known_or (runup_angle_factor beta) gbeta' gbeta) (R : 0 <= Rc).
Let f gf H T := taw_roughness gf 1 (iribarren g0 H T (1 / cot)).
Let q07 H T gf := value (OvertoppingEurotop2007.calculate_overtopping_discharge_q_rubble_mound (Fin H) (Fin T) (Fin Rc) beta gbeta' (Fin gf) (Fin cot) (Fin c2) (Fin c3) bf (Fin g)).
Lemma q07_le H H' T0 T' gf gf' : 0 < H -> 0 < H' -> 0 < T0 -> 0 < T' -> 0 < gf <= 1 -> 0 < gf' <= 1 -> 0 < H * f gf H T0 <= H' * f gf' H' T' ->
  q_unit g H <= q_unit g H' -> exists x y, q07 H T0 gf = Ok (Fin x) /\ q07 H' T' gf' = Ok (Fin y) /\ 0 < x <= y /\ (q_unit g H < q_unit g H' -> x < y).
Proof.
  intros H1 H2 T1 T2 G1 G2 E U. unfold q07.
  rewrite (C19_discharge H T0 Rc cot gf gbeta c2 c3 k2 k3 g beta gbeta' bf) by assumption.
  rewrite (C19_discharge H' T' Rc cot gf' gbeta c2 c3 k2 k3 g beta gbeta' bf) by assumption.
  eexists _, _. split; [reflexivity|]. split; [reflexivity|]. fold (f gf H T0) (f gf' H' T').
  assert (F1 : 0 < f gf H T0) by (apply (Rmult_lt_reg_l H); lra). assert (F2 : 0 < f gf' H' T') by (apply (Rmult_lt_reg_l H'); lra).
  replace (k3 * (Rc / H) / (f gf H T0 * gbeta)) with (k3 * Rc / gbeta / (H * f gf H T0)) by (field; lra).
  replace (k3 * (Rc / H') / (f gf' H' T' * gbeta)) with (k3 * Rc / gbeta / (H' * f gf' H' T')) by (field; lra).
  assert (X : 0 <= k3 * Rc / gbeta) by (unfold Rdiv; apply Rmult_le_pos; [nra|left; apply Rinv_0_lt_compat; lra]).
  pose proof (quotient_le _ _ _ X E) as Q. apply Ropp_le_contravar, exp_le in Q.
  pose proof (exp_pos (- (k3 * Rc / gbeta / (H * f gf H T0)))). pose proof (q_unit_pos g H HG H1). pose proof (q_unit_pos g H' HG H2).
  set (e1 := exp _) in *. set (e2 := exp (- (k3 * Rc / gbeta / (H' * _)))) in *. clearbody e1 e2. assert (k2 * e1 <= k2 * e2) by nra. assert (0 < k2 * e1) by nra. split; [split; nra|]. intros. nra.
Qed.

Theorem C77_eurotop2007_wave_height : forall H H' gf, 0 < H < H' -> 0.1 <= gf <= 1 -> larger (q07 H T gf) (q07 H' T gf).
Proof.
  intros H H' gf HH G. pose proof (effective_height gf T cot H H' HT HC G HH) as E. pose proof (q_unit_lt g H H' HG HH) as U.
  destruct (q07_le H H' T T gf gf) as (x & y & X & Y & L & S); unfold f; try lra. exists x, y. specialize (S U). repeat split; try assumption; lra.
Qed.
Theorem C77_eurotop2007_period : forall H T' gf, 0 < H -> T < T' -> 0 < gf <= 1 -> iribarren g0 H T' (1 / cot) <= 10 -> not_smaller (q07 H T gf) (q07 H T' gf).
Proof.
  intros H T' gf HH TT G I. pose proof (roughness_period gf T T' cot H HH HC G ltac:(lra) I) as E.
  destruct (q07_le H H T T' gf gf) as (x & y & X & Y & L & S); unfold f; try lra; [|exists x, y; tauto]. nra.
Qed.
Theorem C77_eurotop2007_roughness : forall H gf gf', 0 < H -> 0 < gf < gf' -> gf' <= 1 -> not_smaller (q07 H T gf) (q07 H T gf').
Proof.
  intros H gf gf' HH G G'. pose proof (roughness_factor gf gf' (iribarren g0 H T (1 / cot)) ltac:(lra) ltac:(lra) G') as E.
  destruct (q07_le H H T T gf gf') as (x & y & X & Y & L & S); unfold f; try lra; [|exists x, y; tauto]. nra.
Qed.
End Mound07.

(** ** EurOtop (2018), one slope *)
Section Mound18.
Variables (T cot gbeta c2 c3 k2 k3 g Rc B db : R) (beta gbeta' cu : num) (bf : bool).
Hypotheses (HT : 0 < T) (HC : 0 < cot) (HG : 0 < g) (HB : 0 < gbeta) (K2 : 0 < k2) (K3 : 0 < k3) (C : eurotop_max_coefficients c2 c3 bf k2 k3)
  (R : 0 <= Rc).
Let q18 H T gf := value (OvertoppingEurotop2018.calculate_overtopping_discharge_q_rubble_mound (Fin H) (Fin T) (Fin Rc) beta gbeta' (Fin gf) (Fin B) (Fin db) (Fin cot) NaN cu (Fin c2) (Fin c3) bf (Fin g)).
Lemma q18_value H T0 gf : 0 < H -> 0 < T0 -> 0 < gf <= 1 -> known_or (angle18 beta gf) gbeta' gbeta ->
  q18 H T0 gf = Ok (Fin (max_formula pow13 k2 k3 (taw_roughness gf 1 (iribarren g0 H T0 (1 / cot))) gbeta 1 (Rc / H) * q_unit g H)).
Proof.
  intros HH H0 G A. unfold q18. rewrite (C18_mound_discharge H T0 B db cot _ gf gbeta c2 c3 k2 k3 Rc g (Fin cot) NaN cu beta gbeta' bf HH H0 HC G HB K2 K3 HG C A (one_slope _ _ _ _ _ _ _ _ _)).
  destruct (Rle_dec 0 Rc); [reflexivity|contradiction].
Qed.
Theorem C77_eurotop2018_mound_wave_height : forall H H' gf, 0 < H < H' -> 0.1 <= gf <= 1 -> known_or (angle18 beta gf) gbeta' gbeta -> larger (q18 H T gf) (q18 H' T gf).
Proof.
  intros H H' gf HH G A. rewrite !q18_value by (try assumption; lra). pose proof (effective_height gf T cot H H' HT HC G HH) as E.
  eexists _, _. split; [reflexivity|]. split; [reflexivity|]. apply max_height; try assumption; try lra.
  - exact pow13_le.
  - apply (Rmult_lt_reg_l H); lra.
  - apply (Rmult_lt_reg_l H'); lra.
Qed.
Theorem C77_eurotop2018_mound_period : forall H T' gf, 0 < H -> T < T' -> 0 < gf <= 1 -> iribarren g0 H T' (1 / cot) <= 10 -> known_or (angle18 beta gf) gbeta' gbeta ->
  not_smaller (q18 H T gf) (q18 H T' gf).
Proof.
  intros H T' gf HH TT G I A. rewrite !q18_value by (try assumption; lra). pose proof (roughness_period gf T T' cot H HH HC G ltac:(lra) I) as E.
  eexists _, _. split; [reflexivity|]. split; [reflexivity|]. pose proof (q_unit_pos g H HG HH).
  assert (0 <= Rc / H) by (unfold Rdiv; apply Rmult_le_pos; [assumption|left; apply Rinv_0_lt_compat, HH]).
  pose proof (max_up pow13 pow13_le k2 k3 _ _ gbeta 1 (Rc / H) K2 K3 E HB ltac:(lra) ltac:(assumption)). nra.
Qed.
Theorem C77_eurotop2018_mound_roughness : forall H gf gf', 0 < H -> 0 < gf < gf' -> gf' <= 1 -> known_or (angle18 beta gf) gbeta' gbeta -> known_or (angle18 beta gf') gbeta' gbeta ->
  not_smaller (q18 H T gf) (q18 H T gf').
Proof.
  intros H gf gf' HH G G' A A'. rewrite !q18_value by (try assumption; lra). pose proof (roughness_factor gf gf' (iribarren g0 H T (1 / cot)) ltac:(lra) ltac:(lra) G') as E.
  eexists _, _. split; [reflexivity|]. split; [reflexivity|]. pose proof (q_unit_pos g H HG HH).
  assert (0 <= Rc / H) by (unfold Rdiv; apply Rmult_le_pos; [assumption|left; apply Rinv_0_lt_compat, HH]).
  pose proof (max_up pow13 pow13_le k2 k3 _ _ gbeta 1 (Rc / H) K2 K3 E HB ltac:(lra) ltac:(assumption)). nra.
Qed.
End Mound18.

Section Dike18.
Variables (T cot gbeta gv gs c1 c2 c3 c4 k1 k2 k3 k4 g Rc db : R) (beta gbeta' gb' cu : num) (bf : bool).
Hypotheses (HT : 0 < T) (HC : 0 < cot) (HG : 0 < g) (HB : 0 < gbeta) (HV : 0 < gv) (HS : 0 < gs) (K1 : 0 < k1) (K2 : 0 < k2) (K3 : 0 < k3) (K4 : 0 < k4)
  (C : eurotop_coefficients c1 c2 c3 c4 bf k1 k2 k3 k4) (R : 0 <= Rc).
Let q18 H T gf := value (OvertoppingEurotop2018.calculate_overtopping_discharge_q (Fin H) (Fin T) (Fin Rc) beta gbeta' gb' (Fin gf) (Fin gv) (Fin gs) #0 (Fin db) (Fin cot) NaN cu
  (Fin c1) (Fin c2) (Fin c3) (Fin c4) bf (Fin g)).
Lemma dike18_value H T0 gf : 0 < H -> 0 < T0 -> 0 < gf <= 1 -> known_or (angle18 beta gf) gbeta' gbeta -> exists reached,
  q18 H T0 gf = Ok (Fin (Rmin (slope_formula pow13 (k4 / sqrt (1 / cot)) k1 1 (taw_roughness gf 1 (iribarren g0 H T0 (1 / cot))) gbeta gv (iribarren g0 H T0 (1 / cot)) (Rc / H))
                              (max_formula pow13 k2 k3 gf gbeta gs (Rc / H)) * q_unit g H), reached).
Proof.
  intros HH H0 G A. unfold q18.
  destruct (C18_discharge H T0 0 db cot _ gf gbeta 1 gv gs c1 c2 c3 c4 k1 k2 k3 k4 Rc g (Fin cot) NaN cu beta gbeta' gb' bf HH H0 HC G HB HV HS K1 K2 K3 K4 HG R C A
    (one_slope _ _ _ _ _ _ _ _ _) (no_berm _ _ _ _ _ (or_introl eq_refl))) as (r & E & _). exists r. exact E.
Qed.
Lemma tan_pos : 0 < 1 / cot. Proof. apply Rdiv_lt_0_compat; lra. Qed.
Lemma A_pos : 0 < k4 / sqrt (1 / cot). Proof. apply Rdiv_lt_0_compat; [assumption|apply sqrt_lt_R0, tan_pos]. Qed.
Theorem C77_eurotop2018_wave_height : forall H H' gf, 0 < H < H' -> 0.18 <= gf <= 1 -> known_or (angle18 beta gf) gbeta' gbeta -> larger1 (q18 H T gf) (q18 H' T gf).
Proof.
  intros H H' gf HH G A. destruct (dike18_value H T gf ltac:(lra) HT ltac:(lra) A) as (r & ->). destruct (dike18_value H' T gf ltac:(lra) HT ltac:(lra) A) as (r' & ->).
  eexists _, _, r, r'. split; [reflexivity|]. split; [reflexivity|]. pose proof A_pos. pose proof tan_pos. pose proof g0_pos as G0.
  pose proof (iribarren_pos g0 1 T (1 / cot) G0 ltac:(lra) HT tan_pos) as K. pose proof (roots H H' HH) as R0.
  apply smallest_lt; try (apply q_unit_pos; lra).
  - apply slope_height; try assumption; try lra; [exact pow13_le|..]; rewrite ?(iribarren_height g0 H T), ?(iribarren_height g0 H' T) by lra.
    + pose proof (rough_ge gf _ ltac:(lra) (sqrt H) (proj1 R0) : gf <= taw_roughness gf 1 (iribarren g0 1 T (1 / cot) / sqrt H)). lra.
    + pose proof (rough_ge gf _ ltac:(lra) (sqrt H') ltac:(lra) : gf <= taw_roughness gf 1 (iribarren g0 1 T (1 / cot) / sqrt H')). lra.
    + apply rough_height_slope; lra.
  - apply max_height; try assumption; try lra; [exact pow13_le|nra].
Qed.
Theorem C77_eurotop2018_period : forall H T' gf, 0 < H -> T < T' -> 0 < gf <= 1 -> iribarren g0 H T' (1 / cot) <= 10 -> known_or (angle18 beta gf) gbeta' gbeta ->
  not_smaller1 (q18 H T gf) (q18 H T' gf).
Proof.
  intros H T' gf HH TT G I A. destruct (dike18_value H T gf HH HT ltac:(lra) A) as (r & ->). destruct (dike18_value H T' gf HH ltac:(lra) ltac:(lra) A) as (r' & ->).
  eexists _, _, r, r'. split; [reflexivity|]. split; [reflexivity|]. pose proof A_pos. pose proof tan_pos. pose proof g0_pos as G0.
  assert (0 <= Rc / H) by (unfold Rdiv; apply Rmult_le_pos; [assumption|left; apply Rinv_0_lt_compat, HH]).
  apply smallest_le; [apply q_unit_pos; lra| |].
  - apply slope_up; try assumption; try lra; [exact pow13_le|apply roughness_period; try assumption; lra|].
    pose proof (iribarren_pos g0 H T (1 / cot) G0 HH HT tan_pos). split; [lra|].
    rewrite (iribarren_period g0 H T), (iribarren_period g0 H T') by lra. pose proof (iribarren_pos g0 H 1 (1 / cot) G0 HH ltac:(lra) tan_pos). nra.
  - apply max_up; try assumption; try lra. exact pow13_le.
Qed.
Theorem C77_eurotop2018_roughness : forall H gf gf', 0 < H -> 0 < gf < gf' -> gf' <= 1 -> known_or (angle18 beta gf) gbeta' gbeta -> known_or (angle18 beta gf') gbeta' gbeta ->
  not_smaller1 (q18 H T gf) (q18 H T gf').
Proof.
  intros H gf gf' HH G G' A A'. destruct (dike18_value H T gf HH HT ltac:(lra) A) as (r & ->). destruct (dike18_value H T gf' HH HT ltac:(lra) A') as (r' & ->).
  eexists _, _, r, r'. split; [reflexivity|]. split; [reflexivity|]. pose proof A_pos. pose proof tan_pos. pose proof g0_pos as G0.
  assert (0 <= Rc / H) by (unfold Rdiv; apply Rmult_le_pos; [assumption|left; apply Rinv_0_lt_compat, HH]).
  apply smallest_le; [apply q_unit_pos; lra| |].
  - pose proof (iribarren_pos g0 H T (1 / cot) G0 HH HT tan_pos). apply slope_up; try assumption; try lra; [exact pow13_le|apply roughness_factor; lra].
  - apply max_up; try assumption; try lra. exact pow13_le.
Qed.
End Dike18.

(** ** TAW (2002), one slope *)
Section Taw.
Variables (T cot gbeta gb gv sigma c1 c3 g Rc B : R) (beta db gbeta' cu : num) (bf : bool).
Hypotheses (HT : 0 < T) (HC : 0 < cot) (HG : 0 < g) (HB : 0 < gbeta) (HV : 0 < gv) (Hgb : 0 < gb <= 1)
  (C : taw_coefficients bf sigma c1 c3) (HS : -7 < sigma) (A : known_or (angle_factor beta) gbeta' gbeta) (R : 0 <= Rc).
Let q02 H T gf := value (OvertoppingTAW2002.calculate_overtopping_discharge_q (Fin H) (Fin T) (Fin Rc) (Fin cot) NaN cu beta (Fin B) db gbeta' (Fin gb) (Fin gf) (Fin gv) (Fin sigma) (Fin g) bf).
Lemma taw_value H T0 gf : 0 < H -> 0 < T0 -> 0 < gf <= 1 -> exists reached,
  q02 H T0 gf = Ok (Fin (Rmin (slope_formula (fun x => x) (0.067 / sqrt (1 / cot)) c1 gb (taw_roughness gf gb (iribarren g0 H T0 (1 / cot))) gbeta gv (iribarren g0 H T0 (1 / cot)) (Rc / H))
                              (max_formula (fun x => x) 0.2 c3 (taw_roughness gf gb (iribarren g0 H T0 (1 / cot))) gbeta 1 (Rc / H)) * q_unit g H), reached).
Proof.
  intros HH H0 G. destruct (C13_discharge H T0 Rc cot B gf gbeta gb gv sigma c1 c3 g cu beta db gbeta' (Fin gb) bf HH H0 HC HG C A (known _ _) G Hgb HB HV) as (r & E & _).
  exists r. unfold q02. rewrite E. unfold taw_q, taw_q_slope, taw_q_max, slope_formula, max_formula. rewrite !Rmult_1_r. reflexivity.
Qed.
Lemma coefficients_pos : 0 < c1 /\ 0 < c3.
Proof. destruct C; lra. Qed.
Lemma taw_A_pos : 0 < 0.067 / sqrt (1 / cot). Proof. apply Rdiv_lt_0_compat; [lra|apply sqrt_lt_R0, tan_pos, HC]. Qed.
Lemma rough_smooth xi : taw_roughness 1 gb xi = 1.
Proof. unfold taw_roughness. destruct (Rle_dec 1.8 (gb * xi)); [destruct (Rle_dec (gb * xi) 10)|]; lra. Qed.

Theorem C77_taw2002_wave_height : forall H H' gf, 0 < H < H' -> gf = 1 \/ gb = 1 /\ 0.18 <= gf <= 1 -> larger1 (q02 H T gf) (q02 H' T gf).
Proof.
  intros H H' gf HH G. destruct (taw_value H T gf ltac:(lra) HT ltac:(lra)) as (r & ->). destruct (taw_value H' T gf ltac:(lra) HT ltac:(lra)) as (r' & ->).
  eexists _, _, r, r'. split; [reflexivity|]. split; [reflexivity|]. pose proof taw_A_pos. pose proof (tan_pos cot HC). pose proof g0_pos as G0. pose proof coefficients_pos.
  pose proof (iribarren_pos g0 1 T (1 / cot) G0 ltac:(lra) HT ltac:(assumption)) as K. pose proof (roots H H' HH) as R0.
  assert (E : 0 < taw_roughness gf gb (iribarren g0 H T (1 / cot)) /\ 0 < taw_roughness gf gb (iribarren g0 H' T (1 / cot)) /\
    sqrt H * taw_roughness gf gb (iribarren g0 H T (1 / cot)) <= sqrt H' * taw_roughness gf gb (iribarren g0 H' T (1 / cot))).
  { destruct G as [->|[-> G]]; [rewrite !rough_smooth; lra|]. rewrite (iribarren_height g0 H T), (iribarren_height g0 H' T) by lra.
    pose proof (rough_ge gf _ ltac:(lra) (sqrt H) (proj1 R0) : gf <= taw_roughness gf 1 (iribarren g0 1 T (1 / cot) / sqrt H)).
    pose proof (rough_ge gf _ ltac:(lra) (sqrt H') ltac:(lra) : gf <= taw_roughness gf 1 (iribarren g0 1 T (1 / cot) / sqrt H')).
    split; [lra|]. split; [lra|]. apply rough_height_slope; lra. }
  set (f := taw_roughness gf gb (iribarren g0 H T (1 / cot))) in *. set (f' := taw_roughness gf gb (iribarren g0 H' T (1 / cot))) in *. clearbody f f'.
  apply smallest_lt; try (apply q_unit_pos; lra).
  - apply slope_height; try assumption; try lra. trivial.
  - apply max_height; try assumption; try lra; [trivial|].
    rewrite <- (sqrt_sqrt H), <- (sqrt_sqrt H') by lra. rewrite !Rmult_assoc. apply Rmult_le_compat; try lra. apply Rmult_le_pos; lra.
Qed.
Theorem C77_taw2002_period : forall H T' gf, 0 < H -> T < T' -> gf = 1 \/ gb = 1 /\ 0 < gf <= 1 /\ iribarren g0 H T' (1 / cot) <= 10 -> not_smaller1 (q02 H T gf) (q02 H T' gf).
Proof.
  intros H T' gf HH TT G. destruct (taw_value H T gf ltac:(lra) HT ltac:(lra)) as (r & ->). destruct (taw_value H T' gf ltac:(lra) ltac:(lra) ltac:(lra)) as (r' & ->).
  eexists _, _, r, r'. split; [reflexivity|]. split; [reflexivity|]. pose proof taw_A_pos. pose proof (tan_pos cot HC). pose proof g0_pos as G0. pose proof coefficients_pos.
  assert (0 <= Rc / H) by (unfold Rdiv; apply Rmult_le_pos; [assumption|left; apply Rinv_0_lt_compat, HH]).
  assert (E : 0 < taw_roughness gf gb (iribarren g0 H T (1 / cot)) <= taw_roughness gf gb (iribarren g0 H T' (1 / cot))).
  { destruct G as [->|[-> [G I]]]; [rewrite !rough_smooth; lra|]. apply roughness_period; try assumption; lra. }
  set (f := taw_roughness gf gb (iribarren g0 H T (1 / cot))) in *. set (f' := taw_roughness gf gb (iribarren g0 H T' (1 / cot))) in *. clearbody f f'.
  apply smallest_le; [apply q_unit_pos; lra| |apply max_up; try assumption; try lra; trivial].
  apply slope_up; try assumption; try lra; [trivial|].
  pose proof (iribarren_pos g0 H T (1 / cot) G0 HH HT ltac:(assumption)). split; [lra|].
  rewrite (iribarren_period g0 H T), (iribarren_period g0 H T') by lra. pose proof (iribarren_pos g0 H 1 (1 / cot) G0 HH ltac:(lra) ltac:(assumption)). nra.
Qed.
End Taw.

(** ** Where it is not so
    A rough slope with a berm: the roughness factor jumps where the berm factor times the
    Iribarren number is 1.8.  *)
Lemma exp_less a a' : a + 1 <= a' -> 2 * exp (- a') < exp (- a).
Proof.
  intros L. apply Rle_lt_trans with (2 * exp (- a - 1)); [apply Rmult_le_compat_l; [lra|apply exp_le; lra]|].
  replace (exp (- a)) with (exp (- a - 1) * exp 1) by (rewrite <- exp_plus; f_equal; ring). pose proof (exp_pos (- a - 1)). pose proof (exp_ineq1 1 ltac:(lra)). nra.
Qed.
Theorem C77_taw2002_rough_berm_refuted : exists H H' T Rc cot gb gf, 0 < H < H' /\ 0 < T /\ 0 < cot /\ 0 < gb <= 1 /\ 0.18 <= gf <= 1 /\ 0 <= Rc /\
  larger1 (discharge H' T Rc cot 1 gb gf 1 0 g0 false) (discharge H T Rc cot 1 gb gf 1 0 g0 false).
Proof.
  pose proof g0_pos as G0. pose proof (iribarren_pos g0 1 1 (1 / 1) G0 ltac:(lra) ltac:(lra) ltac:(lra)) as K. set (k := iribarren g0 1 1 (1 / 1)) in *.
  assert (HT : 0 < 2.25 / k) by (apply Rdiv_lt_0_compat; lra).
  exists 1, 1.0201, (2.25 / k), 10, 1, 0.8, 0.5. do 6 (split; [lra|]).
  destruct (discharge_given 1 (2.25 / k) 10 1 1 0.8 0.5 1 0 g0 false 4.3 2.3) as (r & E); try lra; [constructor|].
  destruct (discharge_given 1.0201 (2.25 / k) 10 1 1 0.8 0.5 1 0 g0 false 4.3 2.3) as (r' & E'); try lra; [constructor|].
  rewrite E, E'. eexists _, _, r', r. split; [reflexivity|]. split; [reflexivity|]. clear E E'.
  assert (X1 : iribarren g0 1 (2.25 / k) (1 / 1) = 2.25) by (rewrite (iribarren_period g0 1 _) by lra; fold k; field; lra).
  assert (S : sqrt 1.0201 = 1.01) by (replace 1.0201 with (1.01 * 1.01) by lra; apply sqrt_square; lra).
  assert (X2 : iribarren g0 1.0201 (2.25 / k) (1 / 1) = 2.25 / 1.01) by (rewrite (iribarren_height g0 1.0201 _) by lra; rewrite X1, S; reflexivity).
  assert (U : q_unit g0 1.0201 = 1.01 ^ 3 * q_unit g0 1).
  { unfold q_unit. replace (g0 * 1.0201 ^ 3) with (1.01 ^ 3 * 1.01 ^ 3 * (g0 * 1 ^ 3)) by lra. rewrite sqrt_mult by (try apply Rmult_le_pos; try apply pow_le; lra). rewrite sqrt_square by (apply pow_le; lra). reflexivity. }
  rewrite X1, X2, U. pose proof (q_unit_pos g0 1 G0 ltac:(lra)) as Q. set (u := q_unit g0 1) in *. clearbody u.
  unfold taw_q. cbv zeta.
  replace (taw_roughness 0.5 0.8 2.25) with (0.5 + 0.5 * (0.45 / 8.2)) by (unfold taw_roughness; destruct (Rle_dec 1.8 (0.8 * 2.25)); [destruct (Rle_dec (0.8 * 2.25) 10)|]; lra).
  replace (taw_roughness 0.5 0.8 (2.25 / 1.01)) with 0.5 by (unfold taw_roughness; destruct (Rle_dec 1.8 (0.8 * (2.25 / 1.01))); lra).
  assert (M : forall a b a' b', 0 < a -> 0 < b -> 0 < a' -> 0 < b' -> a * 1.1 < a' -> b * 1.1 < b' -> 0 < Rmin a b * (1.01 ^ 3 * u) < Rmin a' b' * u).
  { intros a b a' b' Pa Pb Pa' Pb' La Lb. assert (1.01 ^ 3 < 1.1) by lra. assert (0 < 1.01 ^ 3) by lra. set (v := 1.01 ^ 3) in *. clearbody v.
    assert (Rmin a b * v < Rmin a' b') by (unfold Rmin; destruct (Rle_dec a b), (Rle_dec a' b'); nra). assert (0 < Rmin a b) by (unfold Rmin; destruct (Rle_dec a b); assumption).
    split; [apply Rmult_lt_0_compat; [assumption|nra]|]. replace (Rmin a b * (v * u)) with (Rmin a b * v * u) by ring. apply Rmult_lt_compat_r; assumption. }
  assert (S1 : sqrt (1 / 1) = 1) by (replace (1 / 1) with (1 * 1) by field; apply sqrt_square; lra).
  apply M; unfold taw_q_slope, taw_q_max; rewrite ?S1; try solve [apply Rmult_lt_0_compat; [lra|apply exp_pos]].
  - pose proof (exp_less (4.3 * (10 / 1) / (2.25 * 0.8 * (0.5 + 0.5 * (0.45 / 8.2)) * 1 * 1)) (4.3 * (10 / 1.0201) / (2.25 / 1.01 * 0.8 * 0.5 * 1 * 1)) ltac:(dec; lra)) as L.
    pose proof (exp_pos (- (4.3 * (10 / 1.0201) / (2.25 / 1.01 * 0.8 * 0.5 * 1 * 1)))). set (e := exp _) in *. set (e' := exp (- (4.3 * (10 / 1) / _))) in *. clearbody e e'. lra.
  - pose proof (exp_less (2.3 * (10 / 1) / ((0.5 + 0.5 * (0.45 / 8.2)) * 1)) (2.3 * (10 / 1.0201) / (0.5 * 1)) ltac:(dec; lra)) as L.
    pose proof (exp_pos (- (2.3 * (10 / 1.0201) / (0.5 * 1)))). set (e := exp _) in *. set (e' := exp (- (2.3 * (10 / 1) / _))) in *. clearbody e e'. lra.
Qed.

(** Longer waves: beyond an Iribarren number of 10 the roughness counts in full again. *)
Theorem C77_eurotop2007_period_refuted : exists H T T' Rc cot gf, 0 < H /\ 0 < T < T' /\ 0 <= Rc /\ 0 < cot /\ 0.1 <= gf <= 1 /\
  let q T := value (OvertoppingEurotop2007.calculate_overtopping_discharge_q_rubble_mound (Fin H) (Fin T) (Fin Rc) NaN #1 (Fin gf) (Fin cot) #0.2 #2.6 true (Fin g0)) in
  larger (q T') (q T).
Proof.
  pose proof g0_pos as G0. pose proof (iribarren_pos g0 1 1 (1 / 1) G0 ltac:(lra) ltac:(lra) ltac:(lra)) as K. set (k := iribarren g0 1 1 (1 / 1)) in *.
  assert (HT : 0 < 10 / k) by (apply Rdiv_lt_0_compat; lra).
  exists 1, (10 / k), (2 * (10 / k)), 1, 1, 0.5. do 5 (split; [lra|]). cbv beta zeta.
  rewrite (C19_discharge 1 (10 / k) 1 1 0.5 1 0.2 2.6 0.2 2.6 g0 NaN #1 true), (C19_discharge 1 (2 * (10 / k)) 1 1 0.5 1 0.2 2.6 0.2 2.6 g0 NaN #1 true) by first [lra | constructor].
  eexists _, _. split; [reflexivity|]. split; [reflexivity|].
  rewrite (iribarren_period g0 1 (10 / k)), (iribarren_period g0 1 (2 * (10 / k))) by lra. fold k.
  replace (10 / k * k) with 10 by (field; lra). replace (2 * (10 / k) * k) with 20 by (field; lra).
  replace (taw_roughness 0.5 1 10) with 1 by (unfold taw_roughness; destruct (Rle_dec 1.8 (1 * 10)); [destruct (Rle_dec (1 * 10) 10)|]; lra).
  replace (taw_roughness 0.5 1 20) with 0.5 by (unfold taw_roughness; destruct (Rle_dec 1.8 (1 * 20)); [destruct (Rle_dec (1 * 20) 10)|]; lra).
  pose proof (exp_less (2.6 * (1 / 1) / (1 * 1)) (2.6 * (1 / 1) / (0.5 * 1)) ltac:(lra)) as L. pose proof (exp_pos (- (2.6 * (1 / 1) / (0.5 * 1)))). pose proof (q_unit_pos g0 1 G0 ltac:(lra)).
  split.
  - apply Rmult_lt_0_compat; [apply Rmult_lt_0_compat; [lra|exact (exp_pos _)]|assumption].
  - apply Rmult_lt_compat_r; [assumption|]. apply Rmult_lt_compat_l; lra.
Qed.
