(** Property C80, run-up: larger and longer waves run up higher, where they do not, and how fast they cross the crest. *)
From Coq Require Import Reals Lra List Bool String Psatz.
From Verif.Lib Require Import Num Monad RTac NTac.
From Verif.Spec Require Import Waves Taw Runup Response.
From Verif.Model Require Import CoreUtility CorePhysics RunupTAW2002 VanGent2002Velocity.
From Verif.Model Require RunupEurotop2018.
From Verif.Proofs Require Import Core Response Loads.
From Verif.Props Require Import RunupTAW RunupEurotop RunupVanGent ResponseWall.
Open Scope R_scope.

Notation runup_of H T cot beta gbeta gb gf B db cu c1 c2 c3 c4 :=
  (value (calculate_wave_runup_height_z2p (Fin H) (Fin T) beta (Fin gbeta) (Fin gb) (Fin gf) B db (Fin cot) NaN cu (Fin c1) (Fin c2) (Fin c3) (Fin c4) false)).

Lemma Rmin_lt2 a b a' b' : a < a' -> b < b' -> Rmin a b < Rmin a' b'.
Proof. intros. unfold Rmin. destruct (Rle_dec a b), (Rle_dec a' b'); lra. Qed.
Lemma Rmin_pos a b : 0 < a -> 0 < b -> 0 < Rmin a b.
Proof. intros. unfold Rmin. destruct (Rle_dec a b); assumption. Qed.
Lemma Rmin_higher P a b a' b' : higher P a a' -> higher P b b' -> higher P (Rmin a b) (Rmin a' b').
Proof. intros [A A'] [B B']. unfold Rmin. split; [|intros p; specialize (A' p); specialize (B' p)]; destruct (Rle_dec a b), (Rle_dec a' b'); lra. Qed.
Lemma Rmin_scale a b h : 0 < h -> Rmin a b * h = Rmin (a * h) (b * h).
Proof. intros. unfold Rmin. destruct (Rle_dec a b), (Rle_dec (a * h) (b * h)); nra. Qed.

Lemma taw_runup_height H H' T cot gf gbeta c1 c2 c3 c4 :
  0 < H < H' -> 0 < T -> 0 < cot -> 0.18 < gf <= 1 -> 0 < gbeta -> 0 < c1 -> 0 < c3 -> 2 * c3 <= c2 -> 0 < c4 ->
  0.4 <= iribarren g0 H' T (1 / cot) ->
  0 < taw_runup c1 c2 c3 c4 1 gf gbeta (iribarren g0 H T (1 / cot)) * H < taw_runup c1 c2 c3 c4 1 gf gbeta (iribarren g0 H' T (1 / cot)) * H'.
Proof.
  intros HH HT HC F GB C1 C3 C2 C4 X. unfold taw_runup. cbv zeta.
  pose proof g0_pos as G0. assert (CT : 0 < 1 / cot) by (apply Rdiv_lt_0_compat; lra).
  rewrite (iribarren_height g0 H' T) in * by lra. rewrite (iribarren_height g0 H T) by lra.
  pose proof (iribarren_pos g0 1 T (1 / cot) ltac:(lra) ltac:(lra) HT ltac:(lra)) as KP. set (K := iribarren g0 1 T (1 / cot)) in *. clearbody K.
  assert (RT : 0 < sqrt H < sqrt H') by (split; [apply sqrt_lt_R0; lra|apply sqrt_lt_1; lra]).
  assert (EH : H = sqrt H * sqrt H) by (rewrite sqrt_sqrt by lra; reflexivity). assert (EH' : H' = sqrt H' * sqrt H') by (rewrite sqrt_sqrt by lra; reflexivity).
  set (u := sqrt H) in *. set (v := sqrt H') in *. clearbody u v. subst H H'.
  assert (V : v <= K / 0.4). { apply (Rmult_le_compat_r v) in X; [|lra]. replace (K / v * v) with K in X by (field; lra). lra. }
  assert (SQ : forall w, 0 < w -> c3 / sqrt (K / w) = c3 * sqrt (w / K)).
  { intros w W. assert (P : 0 < K / w) by (apply Rdiv_lt_0_compat; lra). replace (w / K) with (/ (K / w)) by (field; lra). rewrite sqrt_inv. reflexivity. }
  rewrite !Rmin_scale by (apply Rmult_lt_0_compat; lra). unfold taw_slope_runup, taw_max_runup. rewrite !SQ by lra.
  pose proof (rough_slope_lt gf K ltac:(lra) KP u v ltac:(lra) ltac:(lra)) as I1. pose proof (rough_max_lt gf K c2 c3 ltac:(lra) KP C3 C2 u v ltac:(lra) V) as I2.
  cbv beta in I1, I2. pose proof (rough_ge gf K ltac:(lra) u ltac:(lra)) as RG. cbv beta in RG.
  set (ru := taw_roughness gf 1 (K / u)) in *. set (rv := taw_roughness gf 1 (K / v)) in *. clearbody ru rv.
  assert (XU : sqrt (u / K) <= 1.59).
  { apply Rle_trans with (sqrt (1.59 * 1.59)); [|rewrite sqrt_square by lra; lra]. apply sqrt_le_1_alt. apply (Rmult_le_reg_r K); [lra|]. replace (u / K * K) with u by (field; lra). lra. }
  set (x := sqrt (u / K)) in *. set (y := sqrt (v / K)) in *. clearbody x y.
  assert (FX : 0 < c2 - c3 * x) by (assert (c3 * x <= c3 * 1.59) by (apply Rmult_le_compat_l; lra); lra).
  replace (c1 * 1 * ru * gbeta * (K / u) * (u * u)) with (c1 * gbeta * K * (u * ru)) by (field; lra).
  replace (c1 * 1 * rv * gbeta * (K / v) * (v * v)) with (c1 * gbeta * K * (v * rv)) by (field; lra).
  replace (c4 * ru * gbeta * (c2 - c3 * x) * (u * u)) with (c4 * gbeta * (ru * (u * u) * (c2 - c3 * x))) by ring.
  replace (c4 * rv * gbeta * (c2 - c3 * y) * (v * v)) with (c4 * gbeta * (rv * (v * v) * (c2 - c3 * y))) by ring.
  assert (P1 : 0 < c1 * gbeta * K) by (repeat apply Rmult_lt_0_compat; assumption). assert (P2 : 0 < c4 * gbeta) by (apply Rmult_lt_0_compat; assumption).
  split.
  - apply Rmin_pos; apply Rmult_lt_0_compat; try assumption; repeat apply Rmult_lt_0_compat; lra.
  - apply Rmin_lt2; apply Rmult_lt_compat_l; assumption.
Qed.

Lemma roughness_higher gf gf' gb gb' xi xi' : 0 < gf <= gf' -> gf' <= 1 -> 0 < gb <= gb' -> gb' <= 1 -> 0 < xi <= xi' -> gb' * xi' <= 10 -> gf = gf' \/ xi' <= 10 ->
  0 < taw_roughness gf gb xi /\ higher (gf < gf' /\ xi' < 10) (taw_roughness gf gb xi) (taw_roughness gf' gb' xi').
Proof.
  intros F F' G G' X X' O. assert (L : gb * xi <= gb' * xi') by (apply Rmult_le_compat; lra).
  assert (B : gb * xi <= xi) by (rewrite <- (Rmult_1_l xi) at 2; apply Rmult_le_compat_r; lra).
  assert (B' : gb' * xi' <= xi') by (rewrite <- (Rmult_1_l xi') at 2; apply Rmult_le_compat_r; lra).
  unfold taw_roughness. destruct (Rle_dec 1.8 (gb * xi)) as [N|N]; destruct (Rle_dec (gb * xi) 10); destruct (Rle_dec 1.8 (gb' * xi')) as [N'|N']; destruct (Rle_dec (gb' * xi') 10); try lra.
  - assert (P : 0 <= (1 - gf) * ((xi - 1.8) / 8.2)) by (apply Rmult_le_pos; lra). split; [lra|].
    assert (Q : (1 - gf) * ((xi - 1.8) / 8.2) <= (1 - gf) * ((xi' - 1.8) / 8.2)) by (apply Rmult_le_compat_l; lra).
    assert (E : gf' + (1 - gf') * ((xi' - 1.8) / 8.2) - (gf + (1 - gf) * ((xi' - 1.8) / 8.2)) = (gf' - gf) * ((10 - xi') / 8.2)) by (dec; field).
    split.
    + destruct O as [<-|O]; [lra|]. assert (0 <= (gf' - gf) * ((10 - xi') / 8.2)) by (apply Rmult_le_pos; lra). lra.
    + intros [S S']. assert (0 < (gf' - gf) * ((10 - xi') / 8.2)) by (apply Rmult_lt_0_compat; lra). lra.
  - assert (P : 0 <= (1 - gf') * ((xi' - 1.8) / 8.2)) by (apply Rmult_le_pos; lra). split; [lra|]. split; [lra|]. intros [S _]; lra.
  - split; [lra|]. split; [lra|]. intros [S _]; lra.
Qed.

Lemma taw_runup_period H T T' cot cot' gf gf' gb gb' gbeta gbeta' c1 c2 c3 c4 :
  0 < H -> 0 < T <= T' -> 0 < cot' <= cot -> 0 < gf <= gf' -> gf' <= 1 -> 0 < gb <= gb' -> gb' <= 1 -> 0 < gbeta <= gbeta' -> 0 < c1 -> 0 < c3 -> 0 < c4 ->
  let xi := iribarren g0 H T (1 / cot) in let xi' := iribarren g0 H T' (1 / cot') in
  c3 < c2 * sqrt xi -> gb' * xi' <= 10 -> gf = gf' \/ xi' <= 10 ->
  0 < taw_runup c1 c2 c3 c4 gb gf gbeta xi /\
  higher (T < T' \/ cot' < cot \/ gbeta < gbeta' \/ (gf < gf' /\ xi' < 10)) (taw_runup c1 c2 c3 c4 gb gf gbeta xi) (taw_runup c1 c2 c3 c4 gb' gf' gbeta' xi').
Proof.
  intros HH HT HC F F1 G G1 GB C1 C3 C4 xi xi' X X10 O.
  pose proof (xi_period_slope H T T' cot cot' HH HT HC) as XI. fold xi xi' in XI.
  assert (XP : 0 < xi) by (apply iribarren_pos; try lra; [exact g0_pos|apply Rdiv_lt_0_compat; lra]).
  pose proof (proj1 XI) as XL.
  destruct (roughness_higher gf gf' gb gb' xi xi' F F1 G G1 (conj XP XL) X10 O) as [RP R].
  unfold taw_runup. cbv zeta. clearbody xi xi'. set (f := taw_roughness gf gb xi) in *. set (f' := taw_roughness gf' gb' xi') in *. clearbody f f'.
  assert (S : 0 < sqrt xi) by (apply sqrt_lt_R0; assumption).
  assert (Q : higher (T < T' \/ cot' < cot) (c2 - c3 / sqrt xi) (c2 - c3 / sqrt xi')).
  { split.
    - assert (c3 / sqrt xi' <= c3 / sqrt xi) by (apply Rmult_le_compat_l; [lra|]; apply Rinv_le_contravar; [assumption|apply sqrt_le_1_alt; assumption]). lra.
    - intros P. pose proof (proj2 XI P). assert (c3 / sqrt xi' < c3 / sqrt xi); [|lra]. apply Rmult_lt_compat_l; [lra|]. assert (sqrt xi < sqrt xi') by (apply sqrt_lt_1_alt; lra).
      apply Rinv_lt_contravar; [apply Rmult_lt_0_compat|]; lra. }
  assert (QP : 0 < c2 - c3 / sqrt xi). { apply (Rmult_lt_compat_r (/ sqrt xi)) in X; [|apply Rinv_0_lt_compat; assumption]. replace (c2 * sqrt xi * / sqrt xi) with c2 in X by (field; lra). unfold Rdiv. lra. }
  set (P := T < T' \/ cot' < cot \/ gbeta < gbeta' \/ (gf < gf' /\ xi' < 10)).
  pose proof (higher_mul _ _ _ _ _ _ RP (proj1 GB) R (higher_self _ _ (proj2 GB))) as M. assert (MP : 0 < f * gbeta) by (apply Rmult_lt_0_compat; lra).
  assert (MA : higher P (taw_slope_runup c1 gb f gbeta xi) (taw_slope_runup c1 gb' f' gbeta' xi')).
  { unfold taw_slope_runup. pose proof (higher_mul _ _ _ _ _ _ MP XP M XI) as M1. assert (MP1 : 0 < f * gbeta * xi) by (apply Rmult_lt_0_compat; lra).
    assert (CG : higher False (c1 * gb) (c1 * gb')) by (apply higher_le, Rmult_le_compat_l; lra). assert (CP : 0 < c1 * gb) by (apply Rmult_lt_0_compat; lra).
    pose proof (higher_mul _ _ _ _ _ _ CP MP1 CG M1) as M2.
    replace (c1 * gb * f * gbeta * xi) with (c1 * gb * (f * gbeta * xi)) by ring. replace (c1 * gb' * f' * gbeta' * xi') with (c1 * gb' * (f' * gbeta' * xi')) by ring.
    refine (higher_weaken _ P _ _ _ M2); unfold P; tauto. }
  assert (MB : higher P (taw_max_runup c2 c3 c4 f gbeta xi) (taw_max_runup c2 c3 c4 f' gbeta' xi')).
  { unfold taw_max_runup. pose proof (higher_mul _ _ _ _ _ _ MP QP M Q) as M1. assert (MP1 : 0 < f * gbeta * (c2 - c3 / sqrt xi)) by (apply Rmult_lt_0_compat; lra).
    pose proof (higher_mul _ _ _ _ _ _ C4 MP1 (higher_refl c4) M1) as M2.
    replace (c4 * f * gbeta * (c2 - c3 / sqrt xi)) with (c4 * (f * gbeta * (c2 - c3 / sqrt xi))) by ring. replace (c4 * f' * gbeta' * (c2 - c3 / sqrt xi')) with (c4 * (f' * gbeta' * (c2 - c3 / sqrt xi'))) by ring.
    refine (higher_weaken _ P _ _ _ M2); unfold P; tauto. }
  assert (ZP : 0 < Rmin (taw_slope_runup c1 gb f gbeta xi) (taw_max_runup c2 c3 c4 f gbeta xi)).
  { apply Rmin_pos; unfold taw_slope_runup, taw_max_runup; repeat apply Rmult_lt_0_compat; lra. }
  split; [exact ZP|]. exact (Rmin_higher P _ _ _ _ MA MB).
Qed.

(** ** TAW (2002) *)
(** Higher waves, without a berm. *)
Theorem C80_taw_height : forall H H' T cot gf gbeta c1 c2 c3 c4 (beta B db cu : num),
  0 < H < H' -> 0 < T -> 0 < cot -> 0.18 < gf <= 1 -> 0 < gbeta -> 0 < c1 -> 0 < c3 -> 2 * c3 <= c2 -> 0 < c4 ->
  0.4 <= iribarren g0 H' T (1 / cot) ->
  larger1 (runup_of H T cot beta gbeta 1 gf B db cu c1 c2 c3 c4) (runup_of H' T cot beta gbeta 1 gf B db cu c1 c2 c3 c4).
Proof.
  intros H H' T cot gf gbeta c1 c2 c3 c4 beta B db cu HH HT HC F GB C1 C3 C2 C4 X.
  destruct (C11_smaller_of_two H T cot 1 gf gbeta c1 c2 c3 c4 beta B db cu) as (r & _ & E & _); try lra.
  destruct (C11_smaller_of_two H' T cot 1 gf gbeta c1 c2 c3 c4 beta B db cu) as (r' & _ & E' & _); try lra.
  eexists _, _, r, r'. split; [exact E|]. split; [exact E'|]. apply taw_runup_height; assumption.
Qed.

(** Longer waves, steeper and smoother slopes, narrower berms, waves that come in less obliquely. *)
Theorem C80_taw_period : forall H T T' cot cot' gf gf' gb gb' gbeta gbeta' c1 c2 c3 c4 (beta beta' B B' db db' cu cu' : num),
  0 < H -> 0 < T <= T' -> 0 < cot' <= cot -> 0 < gf <= gf' -> gf' <= 1 -> 0 < gb <= gb' -> gb' <= 1 -> 0 < gbeta <= gbeta' -> 0 < c1 -> 0 < c3 -> 0 < c4 ->
  let xi := iribarren g0 H T (1 / cot) in let xi' := iribarren g0 H T' (1 / cot') in
  c3 < c2 * sqrt xi -> gb' * xi' <= 10 -> gf = gf' \/ xi' <= 10 ->
  grows1 (T < T' \/ cot' < cot \/ gbeta < gbeta' \/ (gf < gf' /\ xi' < 10))
    (runup_of H T cot beta gbeta gb gf B db cu c1 c2 c3 c4) (runup_of H T' cot' beta' gbeta' gb' gf' B' db' cu' c1 c2 c3 c4).
Proof.
  intros H T T' cot cot' gf gf' gb gb' gbeta gbeta' c1 c2 c3 c4 beta beta' B B' db db' cu cu' HH HT HC F F1 G G1 GB C1 C3 C4 xi xi' X X10 O.
  destruct (C11_smaller_of_two H T cot gb gf gbeta c1 c2 c3 c4 beta B db cu) as (r & _ & E & _); try lra.
  destruct (C11_smaller_of_two H T' cot' gb' gf' gbeta' c1 c2 c3 c4 beta' B' db' cu') as (r' & _ & E' & _); try lra.
  destruct (taw_runup_period H T T' cot cot' gf gf' gb gb' gbeta gbeta' c1 c2 c3 c4) as (P & L & L'); try assumption.
  split; [|intros p; specialize (L' p)]; eexists _, _, r, r'; (split; [exact E|]; split; [exact E'|]); split;
    try exact (Rmult_lt_0_compat _ _ P HH); [apply Rmult_le_compat_r|apply Rmult_lt_compat_r]; first [exact HH|exact L'|exact L|lra].
Qed.

(** With a berm factor a higher wave may run up less high: roughness suddenly counts in full. *)
Theorem C80_taw_berm_refuted : exists H H' T cot gb gf, 0 < H < H' /\ 0 < T /\ 0 < cot /\ 0.6 <= gb <= 1 /\ 0.18 < gf <= 1 /\ 0.4 <= iribarren g0 H' T (1 / cot) /\
  larger1 (runup_of H' T cot NaN 1 gb gf NaN NaN NaN 1.65 4 1.5 1) (runup_of H T cot NaN 1 gb gf NaN NaN NaN 1.65 4 1.5 1).
Proof.
  pose proof g0_pos as G0. pose proof (iribarren_pos g0 1 1 (1 / 1) G0 ltac:(lra) ltac:(lra) ltac:(lra)) as K. set (k := iribarren g0 1 1 (1 / 1)) in *.
  assert (HT : 0 < 3 / k) by (apply Rdiv_lt_0_compat; lra).
  assert (X1 : iribarren g0 1 (3 / k) (1 / 1) = 3) by (rewrite (iribarren_period g0 1 _) by lra; fold k; field; lra).
  assert (S : sqrt 1.0201 = 1.01) by (replace 1.0201 with (1.01 * 1.01) by lra; apply sqrt_square; lra).
  assert (X2 : iribarren g0 1.0201 (3 / k) (1 / 1) = 3 / 1.01) by (rewrite (iribarren_height g0 1.0201 _) by lra; rewrite X1, S; reflexivity).
  exists 1, 1.0201, (3 / k), 1, 0.6, 0.5. do 5 (split; [lra|]). split; [rewrite X2; lra|].
  destruct (C11_smaller_of_two 1 (3 / k) 1 0.6 0.5 1 1.65 4 1.5 1 NaN NaN NaN NaN) as (r & _ & E & _); try lra.
  destruct (C11_smaller_of_two 1.0201 (3 / k) 1 0.6 0.5 1 1.65 4 1.5 1 NaN NaN NaN NaN) as (r' & _ & E' & _); try lra.
  rewrite X1 in E. rewrite X2 in E'. eexists _, _, r', r. split; [exact E'|]. split; [exact E|]. clear E E'.
  replace (taw_roughness 0.5 0.6 3) with (0.5 + 0.5 * (1.2 / 8.2)) by (unfold taw_roughness; destruct (Rle_dec 1.8 (0.6 * 3)); [destruct (Rle_dec (0.6 * 3) 10)|]; lra).
  replace (taw_roughness 0.5 0.6 (3 / 1.01)) with 0.5 by (unfold taw_roughness; destruct (Rle_dec 1.8 (0.6 * (3 / 1.01))); lra).
  unfold taw_slope_runup, taw_max_runup.
  assert (Q : 1.7 < sqrt (3 / 1.01)) by (apply Rle_lt_trans with (sqrt (1.7 * 1.7)); [rewrite sqrt_square by lra; lra|apply sqrt_lt_1_alt; lra]).
  assert (Q' : sqrt (3 / 1.01) <= sqrt 3) by (apply sqrt_le_1_alt; lra). assert (Q3 : sqrt 3 < 1.74) by (apply Rlt_le_trans with (sqrt (1.74 * 1.74)); [apply sqrt_lt_1_alt; lra|rewrite sqrt_square by lra; lra]).
  assert (D : 1.5 / sqrt 3 <= 1.5 / sqrt (3 / 1.01)) by (apply Rmult_le_compat_l; [lra|]; apply Rinv_le_contravar; lra).
  assert (D' : 1.5 / sqrt (3 / 1.01) < 1.5 / 1.7) by (apply Rmult_lt_compat_l; [lra|]; apply Rinv_lt_contravar; [apply Rmult_lt_0_compat|]; lra).
  set (d := 1.5 / sqrt 3) in *. set (d' := 1.5 / sqrt (3 / 1.01)) in *. clearbody d d'.
  unfold Rmin. destruct (Rle_dec (1.65 * 0.6 * 0.5 * 1 * (3 / 1.01)) (1 * 0.5 * 1 * (4 - d'))), (Rle_dec (1.65 * 0.6 * (0.5 + 0.5 * (1.2 / 8.2)) * 1 * 3) (1 * (0.5 + 0.5 * (1.2 / 8.2)) * 1 * (4 - d))); lra.
Qed.

(** Longer waves: beyond an Iribarren number of 10 the roughness counts in full again. *)
Theorem C80_taw_period_refuted : exists H T T' cot gf, 0 < H /\ 0 < T < T' /\ 0 < cot /\ 0.18 < gf <= 1 /\
  larger1 (runup_of H T' cot NaN 1 1 gf NaN NaN NaN 1.65 4 1.5 1) (runup_of H T cot NaN 1 1 gf NaN NaN NaN 1.65 4 1.5 1).
Proof.
  pose proof g0_pos as G0. pose proof (iribarren_pos g0 1 1 (1 / 1) G0 ltac:(lra) ltac:(lra) ltac:(lra)) as K. set (k := iribarren g0 1 1 (1 / 1)) in *.
  assert (HT : 0 < 10 / k) by (apply Rdiv_lt_0_compat; lra).
  assert (X1 : iribarren g0 1 (10 / k) (1 / 1) = 10) by (rewrite (iribarren_period g0 1 _) by lra; fold k; field; lra).
  assert (X2 : iribarren g0 1 (2 * (10 / k)) (1 / 1) = 20) by (rewrite (iribarren_period g0 1 _) by lra; fold k; field; lra).
  exists 1, (10 / k), (2 * (10 / k)), 1, 0.5. do 4 (split; [lra|]).
  destruct (C11_smaller_of_two 1 (10 / k) 1 1 0.5 1 1.65 4 1.5 1 NaN NaN NaN NaN) as (r & _ & E & _); try lra.
  destruct (C11_smaller_of_two 1 (2 * (10 / k)) 1 1 0.5 1 1.65 4 1.5 1 NaN NaN NaN NaN) as (r' & _ & E' & _); try lra.
  rewrite X1 in E. rewrite X2 in E'. eexists _, _, r', r. split; [exact E'|]. split; [exact E|]. clear E E'.
  replace (taw_roughness 0.5 1 10) with 1 by (unfold taw_roughness; destruct (Rle_dec 1.8 (1 * 10)); [destruct (Rle_dec (1 * 10) 10)|]; lra).
  replace (taw_roughness 0.5 1 20) with 0.5 by (unfold taw_roughness; destruct (Rle_dec 1.8 (1 * 20)); [destruct (Rle_dec (1 * 20) 10)|]; lra).
  unfold taw_slope_runup, taw_max_runup.
  assert (Q : 3 < sqrt 10) by (apply Rle_lt_trans with (sqrt (3 * 3)); [rewrite sqrt_square by lra; lra|apply sqrt_lt_1_alt; lra]).
  assert (Q' : sqrt 10 < sqrt 20) by (apply sqrt_lt_1_alt; lra).
  assert (D : 1.5 / sqrt 20 < 1.5 / 3) by (apply Rmult_lt_compat_l; [lra|]; apply Rinv_lt_contravar; [apply Rmult_lt_0_compat|]; lra).
  assert (D' : 1.5 / sqrt 10 < 1.5 / 3) by (apply Rmult_lt_compat_l; [lra|]; apply Rinv_lt_contravar; [apply Rmult_lt_0_compat|]; lra).
  assert (D0 : 0 < 1.5 / sqrt 20) by (apply Rdiv_lt_0_compat; lra). 
  set (d := 1.5 / sqrt 10) in *. set (d' := 1.5 / sqrt 20) in *. clearbody d d'.
  unfold Rmin. destruct (Rle_dec (1.65 * 1 * 0.5 * 1 * 20) (1 * 0.5 * 1 * (4 - d'))), (Rle_dec (1.65 * 1 * 1 * 1 * 10) (1 * 1 * 1 * (4 - d))); lra.
Qed.

(** Waves under an angle. *)
Theorem C80_taw_angle : forall H T cot gf gb b b' c1 c2 c3 c4 (B db cu : num),
  0 < H -> 0 < T -> 0 < cot -> 0 < gf <= 1 -> 0 < gb <= 1 -> Rabs b' <= Rabs b -> 0 < c1 -> 0 < c3 -> 0 < c4 ->
  let xi := iribarren g0 H T (1 / cot) in c3 < c2 * sqrt xi -> gb * xi <= 10 ->
  let z b := value (calculate_wave_runup_height_z2p (Fin H) (Fin T) (Fin b) NaN (Fin gb) (Fin gf) B db (Fin cot) NaN cu (Fin c1) (Fin c2) (Fin c3) (Fin c4) false) in
  grows1 (Rabs b' < Rabs b /\ Rabs b' < 80) (z b) (z b').
Proof.
  intros H T cot gf gb b b' c1 c2 c3 c4 B db cu HH HT HC F G L C1 C3 C4 xi X X10 z. unfold z. rewrite !C11_angle by assumption.
  assert (M : Rmin (Rabs b') 80 <= Rmin (Rabs b) 80) by (unfold Rmin; destruct (Rle_dec (Rabs b') 80), (Rle_dec (Rabs b) 80); lra). pose proof (Rmin_r (Rabs b) 80).
  assert (GB : 0 < taw_oblique 0.0022 b <= taw_oblique 0.0022 b') by (unfold taw_oblique; lra).
  destruct (C80_taw_period H T T cot cot gf gf gb gb (taw_oblique 0.0022 b) (taw_oblique 0.0022 b') c1 c2 c3 c4 NaN NaN B B db db cu cu) as [N S]; try assumption; try lra.
  split; [exact N|]. intros [P P']. apply S. right. right. left. unfold taw_oblique. rewrite (Rmin_left (Rabs b')) by lra.
  assert (Rabs b' < Rmin (Rabs b) 80) by (apply Rmin_glb_lt; lra). lra.
Qed.

(** ** EurOtop (2018) *)
Notation runup18 H T cot b gbeta gb gf B db cu c1 c2 c3 c4 :=
  (value (RunupEurotop2018.calculate_wave_runup_height_z2p (Fin H) (Fin T) (Fin b) gbeta (Fin gb) (Fin gf) B db (Fin cot) NaN cu (Fin c1) (Fin c2) (Fin c3) (Fin c4) false)).
Lemma oblique18_pos gf b : 0 < eurotop_oblique 0.0022 gf b.
Proof. unfold eurotop_oblique, taw_oblique. pose proof (Rmin_r (Rabs b) 80). destruct (Rlt_dec 0.6 gf); lra. Qed.
Theorem C80_eurotop2018_height : forall H H' T cot gf b c1 c2 c3 c4 (gbeta B db cu : num),
  0 < H < H' -> 0 < T -> 0 < cot -> 0.18 < gf <= 1 -> 0 < c1 -> 0 < c3 -> 2 * c3 <= c2 -> 0 < c4 -> 0.4 <= iribarren g0 H' T (1 / cot) ->
  larger1 (runup18 H T cot b gbeta 1 gf B db cu c1 c2 c3 c4) (runup18 H' T cot b gbeta 1 gf B db cu c1 c2 c3 c4).
Proof.
  intros H H' T cot gf b c1 c2 c3 c4 gbeta B db cu HH HT HC F C1 C3 C2 C4 X.
  destruct (C17_runup H T b 1 gf cot c1 c2 c3 c4 gbeta B db cu false) as (r & E); try lra.
  destruct (C17_runup H' T b 1 gf cot c1 c2 c3 c4 gbeta B db cu false) as (r' & E'); try lra.
  eexists _, _, r, r'. split; [exact E|]. split; [exact E'|]. cbv iota. rewrite !(Rmult_comm _ (taw_runup _ _ _ _ _ _ _ _)).
  apply taw_runup_height; try assumption. apply oblique18_pos.
Qed.
Theorem C80_eurotop2018_period : forall H T T' cot cot' gf gb gb' b b' c1 c2 c3 c4 (gbeta gbeta' B B' db db' cu cu' : num),
  0 < H -> 0 < T <= T' -> 0 < cot' <= cot -> 0 < gf <= 1 -> 0 < gb <= gb' -> gb' <= 1 -> Rabs b' <= Rabs b -> 0 < c1 -> 0 < c3 -> 0 < c4 ->
  c3 < c2 * sqrt (iribarren g0 H T (1 / cot)) -> gb' * iribarren g0 H T' (1 / cot') <= 10 ->
  grows1 (T < T' \/ cot' < cot \/ (Rabs b' < Rabs b /\ Rabs b' < 80))
    (runup18 H T cot b gbeta gb gf B db cu c1 c2 c3 c4) (runup18 H T' cot' b' gbeta' gb' gf B' db' cu' c1 c2 c3 c4).
Proof.
  intros H T T' cot cot' gf gb gb' b b' c1 c2 c3 c4 gbeta gbeta' B B' db db' cu cu' HH HT HC F G G1 L C1 C3 C4 X X10.
  destruct (C17_runup H T b gb gf cot c1 c2 c3 c4 gbeta B db cu false) as (r & E); try lra.
  destruct (C17_runup H T' b' gb' gf cot' c1 c2 c3 c4 gbeta' B' db' cu' false) as (r' & E'); try lra.
  assert (M : higher (Rabs b' < Rabs b /\ Rabs b' < 80) (eurotop_oblique 0.0022 gf b) (eurotop_oblique 0.0022 gf b')).
  { unfold eurotop_oblique, taw_oblique. split.
    - assert (Rmin (Rabs b') 80 <= Rmin (Rabs b) 80) by (unfold Rmin; destruct (Rle_dec (Rabs b') 80), (Rle_dec (Rabs b) 80); lra). destruct (Rlt_dec 0.6 gf); lra.
    - intros [P P']. rewrite (Rmin_left (Rabs b')) by lra. assert (Rabs b' < Rmin (Rabs b) 80) by (apply Rmin_glb_lt; lra). destruct (Rlt_dec 0.6 gf); lra. }
  pose proof (oblique18_pos gf b) as GP. destruct M as [M M'].
  destruct (taw_runup_period H T T' cot cot' gf gf gb gb' (eurotop_oblique 0.0022 gf b) (eurotop_oblique 0.0022 gf b') c1 c2 c3 c4) as (P & Q & Q'); try assumption; try lra.
  split; [|intros p]; eexists _, _, r, r'; (split; [exact E|]; split; [exact E'|]); cbv iota; rewrite !(Rmult_comm H); split; try exact (Rmult_lt_0_compat _ _ P HH);
    [apply Rmult_le_compat_r; [left; exact HH|exact Q]|apply Rmult_lt_compat_r; [exact HH|apply Q'; tauto]].
Qed.

(** ** The velocity of overtopping water at the crest, Van Gent (2002) *)
Theorem C80_velocity : forall H H' z z' Rc Rc' B B' gf gf' gc gc' cu1 cu2 g g',
  0 < H <= H' -> z <= z' -> Rc' <= Rc -> Rc <= z -> 0 <= B' <= B -> 0 < gf' <= gf -> 0 < gc <= gc' -> 0 < cu1 -> 0 < cu2 -> 0 < g <= g' ->
  exists u u',
    calculate_maximum_wave_overtopping_velocity_uXp (Fin H) (Fin z) (Fin Rc) (Fin B) (Fin gf) (Fin gc) (Fin cu1) (Fin cu2) (Fin g) = Fin u
    /\ calculate_maximum_wave_overtopping_velocity_uXp (Fin H') (Fin z') (Fin Rc') (Fin B') (Fin gf') (Fin gc') (Fin cu1) (Fin cu2) (Fin g') = Fin u'
    /\ 0 <= u /\ higher (z < z' \/ Rc' < Rc \/ (Rc < z /\ ((H < H' /\ 0 < B) \/ B' < B \/ gf' < gf \/ gc < gc' \/ g < g'))) u u'.
Proof.
  intros H H' z z' Rc Rc' B B' gf gf' gc gc' cu1 cu2 g g' HH Hz HR HzR HB Hf Hc C1 C2 Hg.
  destruct (proj1 (C22_velocity H z Rc B gf gc cu1 cu2 g ltac:(lra) ltac:(lra) ltac:(lra) ltac:(lra) ltac:(lra) ltac:(lra) ltac:(lra)) HzR) as (E & P & _).
  destruct (proj1 (C22_velocity H' z' Rc' B' gf' gc' cu1 cu2 g' ltac:(lra) ltac:(lra) ltac:(lra) ltac:(lra) ltac:(lra) ltac:(lra) ltac:(lra)) ltac:(lra)) as (E' & P' & _).
  eexists _, _. split; [exact E|]. split; [exact E'|]. split; [exact P|]. clear E E' P P'. unfold crest_velocity.
  assert (I : higher (gf' < gf) (/ gf) (/ gf')) by (split; [apply Rinv_le_contravar; lra|intros; apply Rinv_lt_contravar; [apply Rmult_lt_0_compat|]; lra]).
  assert (IP : 0 < / gf) by (apply Rinv_0_lt_compat; lra).
  pose proof (higher_mul _ _ _ _ _ _ (proj1 Hg) (proj1 Hc) (higher_self _ _ (proj2 Hg)) (higher_self _ _ (proj2 Hc))) as M1.
  assert (MP1 : 0 < g * gc) by (apply Rmult_lt_0_compat; lra).
  pose proof (higher_mul _ _ _ _ _ _ MP1 IP M1 I) as [M2 M2']. assert (MP2 : 0 < g * gc * / gf) by (apply Rmult_lt_0_compat; lra).
  assert (SQ : higher (gf' < gf \/ gc < gc' \/ g < g') (sqrt (g * gc / gf)) (sqrt (g' * gc' / gf'))).
  { split; [apply sqrt_le_1_alt; exact M2|]. intros p. apply sqrt_lt_1_alt. split; [left; exact MP2|]. apply M2'. tauto. }
  assert (SP : 0 < sqrt (g * gc / gf)) by (apply sqrt_lt_R0; exact MP2).
  assert (IH : / H' <= / H) by (apply Rinv_le_contravar; lra). assert (IHP : 0 < / H') by (apply Rinv_0_lt_compat; lra).
  assert (BH : higher ((H < H' /\ 0 < B) \/ B' < B) (cu2 * B' / H') (cu2 * B / H)).
  { unfold Rdiv. rewrite !Rmult_assoc. assert (B' * / H' <= B * / H) by (apply Rmult_le_compat; lra). split; [apply Rmult_le_compat_l; lra|].
    intros [[p p']|p]; apply Rmult_lt_compat_l; try lra.
    - assert (/ H' < / H) by (apply Rinv_lt_contravar; [apply Rmult_lt_0_compat|]; lra). apply Rle_lt_trans with (B * / H'); [apply Rmult_le_compat_r; lra|apply Rmult_lt_compat_l; lra].
    - apply Rlt_le_trans with (B * / H'); [apply Rmult_lt_compat_r; lra|apply Rmult_le_compat_l; lra]. }
  assert (B0 : 0 <= cu2 * B' / H') by (unfold Rdiv; repeat apply Rmult_le_pos; lra).
  assert (W : higher ((H < H' /\ 0 < B) \/ B' < B) (/ (1 + cu2 * B / H)) (/ (1 + cu2 * B' / H'))).
  { destruct BH as [BH BH']. split; [apply Rinv_le_contravar; lra|]. intros p. specialize (BH' p). apply Rinv_lt_contravar; [apply Rmult_lt_0_compat|]; lra. }
  assert (WP : 0 < / (1 + cu2 * B / H)) by (apply Rinv_0_lt_compat; pose proof (proj1 BH); lra).
  pose proof (higher_mul _ _ _ _ _ _ SP WP SQ W) as M3. set (s := sqrt (g * gc / gf)) in *. set (s' := sqrt (g' * gc' / gf')) in *. set (w := / (1 + cu2 * B / H)) in *. set (w' := / (1 + cu2 * B' / H')) in *.
  replace (cu1 * s * sqrt (z - Rc) / (1 + cu2 * B / H)) with (cu1 * (s * w) * sqrt (z - Rc)) by (unfold w, Rdiv; ring).
  replace (cu1 * s' * sqrt (z' - Rc') / (1 + cu2 * B' / H')) with (cu1 * (s' * w') * sqrt (z' - Rc')) by (unfold w', Rdiv; ring).
  clearbody s s' w w'.
  assert (MP3 : 0 < cu1 * (s * w)) by (repeat apply Rmult_lt_0_compat; assumption).
  assert (M4 : higher (gf' < gf \/ gc < gc' \/ g < g' \/ (H < H' /\ 0 < B) \/ B' < B) (cu1 * (s * w)) (cu1 * (s' * w'))).
  { destruct M3 as [M3 M3']. split; [apply Rmult_le_compat_l; lra|]. intros p. apply Rmult_lt_compat_l; [assumption|]. apply M3'. tauto. }
  set (A := cu1 * (s * w)) in *. set (A' := cu1 * (s' * w')) in *. clearbody A A'. destruct M4 as [M4 M4'].
  assert (R0 : sqrt (z - Rc) <= sqrt (z' - Rc')) by (apply sqrt_le_1_alt; lra). pose proof (sqrt_pos (z - Rc)) as R1.
  split; [apply Rmult_le_compat; lra|]. intros p.
  assert (p' : (z < z' \/ Rc' < Rc) \/ (Rc < z /\ (gf' < gf \/ gc < gc' \/ g < g' \/ (H < H' /\ 0 < B) \/ B' < B))) by (clear - p; tauto).
  destruct p' as [q|[q q']].
  - assert (sqrt (z - Rc) < sqrt (z' - Rc')) by (apply sqrt_lt_1_alt; lra). apply Rlt_le_trans with (A * sqrt (z' - Rc')); [apply Rmult_lt_compat_l; lra|apply Rmult_le_compat_r; lra].
  - assert (0 < sqrt (z - Rc)) by (apply sqrt_lt_R0; lra). specialize (M4' q'). apply Rlt_le_trans with (A' * sqrt (z - Rc)); [apply Rmult_lt_compat_r; lra|apply Rmult_le_compat_l; lra].
Qed.

(** Waves of 1 and 2 m on a smooth slope of 1 in 4 without a berm. *)
Example C80_runup_example :
  larger1 (runup_of 1 6 4 NaN 1 1 1 NaN NaN NaN 1.65 4 1.5 1) (runup_of 2 6 4 NaN 1 1 1 NaN NaN NaN 1.65 4 1.5 1)
  /\ exists u u', calculate_maximum_wave_overtopping_velocity_uXp #2 #3 #2 #4 #1 #1 #1.7 #0.1 #9.81 = Fin u
       /\ calculate_maximum_wave_overtopping_velocity_uXp #2 #4 #2 #4 #1 #1 #1.7 #0.1 #9.81 = Fin u' /\ 0 <= u < u'.
Proof.
  split.
  - apply C80_taw_height; try lra. unfold iribarren, steepness. pose proof PI_4 as PL. pose proof PI_RGT_0 as PP. assert (G : 9 < g0) by (unfold g0; lra).
    assert (Q : sqrt (2 * PI * 2 / (g0 * 6 ^ 2)) <= 0.5).
    { apply Rle_trans with (sqrt (0.5 * 0.5)); [|rewrite sqrt_square by lra; lra]. apply sqrt_le_1_alt. apply (Rmult_le_reg_r (g0 * 6 ^ 2)); [lra|]. replace (2 * PI * 2 / (g0 * 6 ^ 2) * (g0 * 6 ^ 2)) with (2 * PI * 2) by (field; lra). lra. }
    assert (Q0 : 0 < sqrt (2 * PI * 2 / (g0 * 6 ^ 2))) by (apply sqrt_lt_R0, Rdiv_lt_0_compat; lra).
    apply (Rmult_le_reg_r (sqrt (2 * PI * 2 / (g0 * 6 ^ 2)))); [assumption|]. set (q := sqrt _) in *. replace (1 / 4 / q * q) with (1 / 4) by (field; lra). lra.
  - destruct (C80_velocity 2 2 3 4 2 2 4 4 1 1 1 1 1.7 0.1 9.81 9.81) as (u & u' & E & E' & P & _ & S); try lra.
    exists u, u'. split; [exact E|]. split; [exact E'|]. split; [exact P|]. apply S. lra.
Qed.
