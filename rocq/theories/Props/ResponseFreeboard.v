(** Property C77, continued: larger waves ask for a higher crest, and so does a smaller discharge. *)
From Coq Require Import Reals Lra Lia List Bool String.
From Verif.Lib Require Import Num Monad RTac NTac.
From Verif.Spec Require Import Waves Ranges Overtopping Response.
From Verif.Model Require Import CorePhysics.
From Verif.Proofs Require Import Core CheckTac Overtopping Response.
From Verif.Props Require Import ResponseVanGent.
From Verif.Props Require OvertoppingDeRidder24 OvertoppingDeRidder26 OvertoppingVanGent25 OvertoppingCaisson.
Open Scope R_scope.

Lemma crest (P : Prop) (f' : R -> R) q q' x R R' : 0 < q' <= q -> q <= x /\ (P -> q < x) -> x = f' R -> f' R' = q' -> (forall a b, a < b -> f' b < f' a) ->
  higher (P \/ q' < q) R R'.
Proof.
  intros Q [X Y] E E' D. split.
  - apply Rnot_lt_le. intros L. specialize (D R' R L). lra.
  - intros K. apply Rnot_le_lt. intros [L|L]; [specialize (D R' R L)|subst R']; destruct K as [K|K]; try specialize (Y K); lra.
Qed.
Lemma of_grows P a b x y : grows P a b -> a = Ok (Fin x) -> b = Ok (Fin y) -> x <= y /\ (P -> x < y).
Proof.
  intros [(u & v & A & B & L) S] EA EB. rewrite EA in A. rewrite EB in B. injection A as <-. injection B as <-. split; [lra|].
  intros p. destruct (S p) as (u & v & A & B & L'). rewrite EA in A. rewrite EB in B. injection A as <-. injection B as <-. lra.
Qed.
Lemma of_grows1 {A} P (a b : res (num * A)) x y u v : grows1 P a b -> a = Ok (Fin x, u) -> b = Ok (Fin y, v) -> x <= y /\ (P -> x < y).
Proof.
  intros [(m & n & u1 & v1 & X & B & L) S] EA EB. rewrite EA in X. rewrite EB in B. injection X as <- <-. injection B as <- <-. split; [lra|].
  intros p. destruct (S p) as (m & n & u1 & v1 & X & B & L'). rewrite EA in X. rewrite EB in B. injection X as <- <-. injection B as <- <-. lra.
Qed.

Section DeRidder.
Variables (H H' s s' gf gf' HLF HLF' q q' R R' : R).
Hypotheses (HH : 0 < H <= H') (HS : 0 < s' <= s) (HF : 0 < gf <= gf') (HL : HLF <= HLF') (HQ : 0 < q' <= q).
Section Year2024.
Import OvertoppingDeRidder24.
Theorem C77_deridder2024_eq24_crest : forall g g', 0 <= R ->
  value (Rc24 (Fin H) (Fin s) (Fin gf) (Fin q) g) = Ok (Fin R) -> value (Rc24 (Fin H') (Fin s') (Fin gf') (Fin q') g') = Ok (Fin R') -> higher (H < H' \/ q' < q) R R'.
Proof.
  intros g g' P E E'. pose proof g0_pos as G.
  apply (proj2 (C23_eq24_agree_with_relation H s gf ltac:(lra) ltac:(lra) ltac:(lra))) in E; [|lra]. apply (proj1 (C23_eq24_agree_with_relation H s gf ltac:(lra) ltac:(lra) ltac:(lra)) g0) in E; [|lra].
  apply (proj2 (C23_eq24_agree_with_relation H' s' gf' ltac:(lra) ltac:(lra) ltac:(lra))) in E'; [|lra]. apply (proj1 (C23_eq24_agree_with_relation H' s' gf' ltac:(lra) ltac:(lra) ltac:(lra)) g0) in E'; [|lra].
  pose proof (q24_value H' s' gf' ltac:(lra) ltac:(lra) ltac:(lra) g0) as V.
  pose proof (of_grows _ _ _ _ _ (C77_deridder2024_eq24 g0 H H' s s' gf gf' R R G HH HS HF ltac:(lra) P) E (V R G)) as W.
  rewrite (V R' G) in E'. injection E' as E'.
  apply (crest _ (fun R => 0.74 * exp (- (8.51 * Rpower s' 0.32 * (R / (H' * gf')))) * q_unit g0 H') q q' _ R R' HQ W eq_refl E').
  intros x y L. destruct (unit_le g0 H H' G HH) as [U _]. apply grow; try lra; [|left]; pose proof (exp_pos (0.32 * ln s')) as E1; fold (Rpower s' 0.32) in E1; assert (0 < / (H' * gf')) by (apply Rinv_0_lt_compat, Rmult_lt_0_compat; lra);
    [left|]; unfold Rdiv; apply Rmult_lt_compat_l; try lra; apply Rmult_lt_compat_r; assumption.
Qed.
Theorem C77_deridder2024_eq26_crest : forall g, 0 < g -> 0.21 * HLF' <= R ->
  value (Rc26 (Fin H) (Fin s) (Fin HLF) (Fin gf) (Fin q) (Fin g)) = Ok (Fin R) -> value (Rc26 (Fin H') (Fin s') (Fin HLF') (Fin gf') (Fin q') (Fin g)) = Ok (Fin R') -> higher (H < H' \/ q' < q) R R'.
Proof.
  intros g G P E E'.
  apply (proj2 (C23_eq26_agree_with_relation g H s HLF gf G ltac:(lra) ltac:(lra) ltac:(lra))) in E; [|lra]. apply (proj1 (C23_eq26_agree_with_relation g H s HLF gf G ltac:(lra) ltac:(lra) ltac:(lra))) in E.
  apply (proj2 (C23_eq26_agree_with_relation g H' s' HLF' gf' G ltac:(lra) ltac:(lra) ltac:(lra))) in E'; [|lra]. apply (proj1 (C23_eq26_agree_with_relation g H' s' HLF' gf' G ltac:(lra) ltac:(lra) ltac:(lra))) in E'.
  pose proof (q26_value H' s' gf' ltac:(lra) ltac:(lra) ltac:(lra) g HLF') as V.
  pose proof (of_grows _ _ _ _ _ (C77_deridder2024_eq26 g H H' s s' gf gf' HLF HLF' R R G HH HS HF HL ltac:(lra) P) E (V R G)) as W.
  rewrite (V R' G) in E'. injection E' as E'.
  apply (crest _ (fun R => 0.5 * exp (- (7.91 * Rpower s' 0.3 * ((R - 0.21 * HLF') / (H' * gf')))) * q_unit g H') q q' _ R R' HQ W eq_refl E').
  intros x y L. destruct (unit_le g H H' G HH) as [U _]. apply grow; try lra; [|left]; pose proof (exp_pos (0.3 * ln s')) as E1; fold (Rpower s' 0.3) in E1; assert (0 < / (H' * gf')) by (apply Rinv_0_lt_compat, Rmult_lt_0_compat; lra);
    [left|]; unfold Rdiv; apply Rmult_lt_compat_l; try lra; apply Rmult_lt_compat_r; lra.
Qed.
End Year2024.

Section Year2026.
Import OvertoppingDeRidder26.
Theorem C77_deridder2026_eq28_crest : forall g theta, 0 < g -> 0 <= R ->
  Rc28 (Fin H) (Fin s) (Fin gf) (Fin q) (Fin g) (Fin theta) = Fin R -> Rc28 (Fin H') (Fin s') (Fin gf') (Fin q') (Fin g) (Fin theta) = Fin R' -> higher (H < H' \/ q' < q) R R'.
Proof.
  intros g theta G P E E'.
  destruct (C24_agree_with_relations g H s 0 gf theta G ltac:(lra) ltac:(lra) ltac:(lra)) as (A1 & A2 & _). destruct (C24_agree_with_relations g H' s' 0 gf' theta G ltac:(lra) ltac:(lra) ltac:(lra)) as (B1 & B2 & _).
  apply A2, A1 in E; [|lra]. apply B2, B1 in E'; [|lra].
  pose proof (q28_value g H' s' gf' theta G ltac:(lra) ltac:(lra) ltac:(lra)) as V.
  pose proof (of_grows _ _ _ _ _ (C77_deridder2026_eq28 g H H' s s' gf gf' R R G HH HS HF ltac:(lra) theta P) E (V R)) as W.
  rewrite (V R') in E'. injection E' as E'. pose proof (gamma_pos theta).
  apply (crest _ (fun R => 0.16 * exp (- (6.93 * Rpower s' 0.36 * (R / (H' * gf' * deridder26_gamma theta)))) * q_unit g H') q q' _ R R' HQ W eq_refl E').
  intros x y L. destruct (unit_le g H H' G HH) as [U _]. apply grow; try lra; [|left]; pose proof (exp_pos (0.36 * ln s')) as E1; fold (Rpower s' 0.36) in E1; assert (0 < / (H' * gf' * deridder26_gamma theta)) by (apply Rinv_0_lt_compat; repeat apply Rmult_lt_0_compat; lra);
    [left|]; unfold Rdiv; apply Rmult_lt_compat_l; try lra; apply Rmult_lt_compat_r; lra.
Qed.
Theorem C77_deridder2026_eq32_crest : forall g theta, 0 < g -> 0.97 * HLF' <= R ->
  Rc32 (Fin H) (Fin s) (Fin HLF) (Fin gf) (Fin q) (Fin g) (Fin theta) = Fin R -> Rc32 (Fin H') (Fin s') (Fin HLF') (Fin gf') (Fin q') (Fin g) (Fin theta) = Fin R' -> higher (H < H' \/ q' < q) R R'.
Proof.
  intros g theta G P E E'.
  destruct (C24_agree_with_relations g H s HLF gf theta G ltac:(lra) ltac:(lra) ltac:(lra)) as (_ & _ & A1 & A2). destruct (C24_agree_with_relations g H' s' HLF' gf' theta G ltac:(lra) ltac:(lra) ltac:(lra)) as (_ & _ & B1 & B2).
  apply A2, A1 in E; [|lra]. apply B2, B1 in E'; [|lra].
  pose proof (q32_value g H' s' gf' theta G ltac:(lra) ltac:(lra) ltac:(lra) HLF') as V.
  pose proof (of_grows _ _ _ _ _ (C77_deridder2026_eq32 g H H' s s' gf gf' HLF HLF' R R G HH HS HF HL ltac:(lra) theta P) E (V R)) as W.
  rewrite (V R') in E'. injection E' as E'. pose proof (gamma_pos theta).
  apply (crest _ (fun R => 0.05 * exp (- (10.4 * sqrt s' * ((R - 0.97 * HLF') / (H' * gf' * deridder26_gamma theta)))) * q_unit g H') q q' _ R R' HQ W eq_refl E').
  intros x y L. destruct (unit_le g H H' G HH) as [U _]. apply grow; try lra; [|left]; pose proof (sqrt_lt_R0 s' ltac:(lra)); assert (0 < / (H' * gf' * deridder26_gamma theta)) by (apply Rinv_0_lt_compat; repeat apply Rmult_lt_0_compat; lra);
    [left|]; unfold Rdiv; apply Rmult_lt_compat_l; try lra; apply Rmult_lt_compat_r; lra.
Qed.
End Year2026.
End DeRidder.

Section VanGent2025.
Import OvertoppingVanGent25.
Variables (H H' T T' cot cot' gf gf' gb gb' gv gv' gbe gbe' Hsw Hsw' q q' R R' : R) (Ac beta B db Dn : num).
Hypotheses (HH : 0 < H <= H') (HT : 0 < T <= T') (HC : 0 < cot' <= cot) (HF : 0 < gf <= gf') (HB : 0 < gb <= gb') (HV : 0 < gv <= gv')
  (HBE : 0 < gbe <= gbe') (HS : Hsw <= Hsw') (HQ : 0 < q' <= q).

Lemma vg25_discharge_falls cot0 k g1 x y : 0 < cot0 -> 0 < k -> 0 < g1 -> x < y -> 0 < vg25_discharge cot0 k g1 y < vg25_discharge cot0 k g1 x.
Proof.
  intros C K G L. unfold vg25_discharge, vg25_general, vg25_maximum. pose proof (exp_pos (0.24 * ln k)) as E. fold (Rpower k 0.24) in E.
  assert (X : forall c p d, 0 < c -> 0 < p -> 0 < d -> 0 < c / cot0 * exp (- (p * y / d)) < c / cot0 * exp (- (p * x / d))).
  { intros c p d Pc Pp Pd. assert (0 < c / cot0) by (apply Rdiv_lt_0_compat; lra). split; [apply Rmult_lt_0_compat; [lra|apply exp_pos]|]. apply Rmult_lt_compat_l; [assumption|].
    apply exp_increasing, Ropp_lt_contravar. unfold Rdiv. apply Rmult_lt_compat_r; [apply Rinv_0_lt_compat, Pd|]. apply Rmult_lt_compat_l; assumption. }
  pose proof (X 6.8 5 (g1 * k) ltac:(lra) ltac:(lra) ltac:(apply Rmult_lt_0_compat; assumption)). pose proof (X 0.8 2.5 (g1 * Rpower k 0.24) ltac:(lra) ltac:(lra) ltac:(apply Rmult_lt_0_compat; assumption)).
  unfold Rmin. repeat destruct Rle_dec; lra.
Qed.

Theorem C77_vangent2025_crest : forall r r', 0.4 * Hsw' <= R ->
  value (Rv (Fin H) (Fin Hsw) (Fin T) (Fin q) Ac (Fin cot) beta B db Dn (Fin gf) (Fin gb) (Fin gv) (Fin gbe) false false) = Ok (Fin R, r) ->
  value (Rv (Fin H') (Fin Hsw') (Fin T') (Fin q') Ac (Fin cot') beta B db Dn (Fin gf') (Fin gb') (Fin gv') (Fin gbe') false false) = Ok (Fin R', r') ->
  higher (H < H' \/ q' < q) R R'.
Proof.
  intros r r' P E E'. pose proof g0_pos as G. destruct (unit_le g0 H H' G HH) as [U _].
  apply C26_freeboard in E; try lra. apply C26_freeboard in E'; try lra. cbv zeta in E, E'. destruct E as [E _], E' as [E' _].
  pose proof (qv_value H T cot gf gb gv gbe Hsw ltac:(lra) ltac:(lra) ltac:(lra) ltac:(lra) ltac:(lra) ltac:(lra) ltac:(lra) Ac beta B db Dn g0 R false G) as V. cbv zeta in V.
  pose proof (qv_value H' T' cot' gf' gb' gv' gbe' Hsw' ltac:(lra) ltac:(lra) ltac:(lra) ltac:(lra) ltac:(lra) ltac:(lra) ltac:(lra) Ac beta B db Dn g0 R false G) as V'. cbv zeta in V'.
  pose proof (of_grows1 _ _ _ _ _ _ _ (C77_vangent2025 g0 H H' T T' cot cot' gf gf' gb gb' gv gv' gbe gbe' Hsw Hsw' R R Ac beta B db Dn false G HH HT HC HF HB HV HBE HS ltac:(lra) P) V V') as W.
  cbv beta iota delta [designed] in W. rewrite <- E in W. replace (q / q_unit g0 H * q_unit g0 H) with q in W by (field; lra).
  set (k := iribarren g0 H' T' (1 / cot')) in *. set (g1 := gf' * gb' * gv' * gbe') in *.
  apply (crest _ (fun R => vg25_discharge cot' k g1 ((R - 0.4 * Hsw') / H') * q_unit g0 H') q q' _ R R' HQ W eq_refl); [rewrite <- E'; field; lra|].
  intros x y L. apply Rmult_lt_compat_r; [lra|]. apply vg25_discharge_falls; [lra| | |].
  - apply iribarren_pos; [exact G|lra|lra|apply Rdiv_lt_0_compat; lra].
  - unfold g1. repeat apply Rmult_lt_0_compat; lra.
  - unfold Rdiv. apply Rmult_lt_compat_r; [apply Rinv_0_lt_compat; lra|lra].
Qed.
End VanGent2025.

Section Caisson.
Import OvertoppingCaisson.
Variables (g H H' gb gb' cs Hsw Hsw' c a b cb gp q q' R R' : R) (short crossing parapet : bool) (beta : num).
Hypotheses (HG : 0 < g) (HH : 0 < H <= H') (HB : 0 < gb <= gb') (HQ : 0 < q' <= q) (F : caisson_fitted (short || crossing) parapet c a b cb gp)
  (HS : rise crossing cs Hsw <= rise crossing cs Hsw').
Theorem C77_vangent2021_crest : rise crossing cs Hsw' <= R ->
  value (Rcc (Fin H) (Fin q) beta (Fin gb) (Fin Hsw) (Fin c) (Fin cs) short crossing parapet (Fin g)) = Ok (Fin R) ->
  value (Rcc (Fin H') (Fin q') beta (Fin gb') (Fin Hsw') (Fin c) (Fin cs) short crossing parapet (Fin g)) = Ok (Fin R') ->
  higher (H < H' \/ q' < q) R R'.
Proof.
  intros P E E'. destruct (fitted_pos _ _ _ _ _ _ _ F) as (Hc & Ha & Hb & Hcb & Hgp). destruct (unit_le g H H' HG HH) as [U _].
  destruct (C25_agree_with_relation g H short crossing parapet c a b cb gp gb cs Hsw beta HG ltac:(lra) ltac:(lra) F) as [A1 A2].
  destruct (C25_agree_with_relation g H' short crossing parapet c a b cb gp gb' cs Hsw' beta HG ltac:(lra) ltac:(lra) F) as [B1 B2].
  apply A2 in E; [|lra]. apply A1 in E. apply B2 in E'; [|lra].
  destruct (proj1 (C25_round_trip g H' short crossing parapet c a b cb gp gb' cs Hsw' beta HG ltac:(lra) ltac:(lra) F) R ltac:(lra)) as (x & X & V & _).
  pose proof (of_grows _ _ _ _ _ (C77_vangent2021 g H H' gb gb' cs Hsw Hsw' R R short crossing parapet c a b cb gp beta HG HH HB ltac:(lra) F HS P) E V) as W.
  apply B1 in V. destruct V as (y & Y & V). destruct E' as (y' & Y' & V').
  assert (D : 0 < b / (gb' * gp)) by (apply Rdiv_lt_0_compat; [lra|apply Rmult_lt_0_compat; lra]).
  pose proof (crest (H < H') (fun y => a * exp (- (b / (gb' * gp) * y)) * q_unit g H') q q' x y y' HQ W) as K. cbv beta in K.
  destruct K as [K1 K2].
  - rewrite <- V. field. lra.
  - rewrite <- V'. field. lra.
  - intros m n L. apply grow; try lra; [left|left]; apply Rmult_lt_compat_l; assumption.
  - assert (Z : forall z z' w w', to_power z w c -> to_power z' w' c -> 0 <= z -> w <= w' -> z <= z').
    { intros z z' w w' T T' Z L. apply Rnot_lt_le. intros N. destruct T as [T|T T0|T T0].
      - inversion T'; subst; lra.
      - inversion T' as [t1 t2|t1 t2 t3|t1 t2 t3]; subst; try lra; [|pose proof (exp_pos (1.3 * ln z)) as e; fold (Rpower z 1.3) in e; lra]. pose proof (Rlt_Rpower_l z' z 1.3 ltac:(lra) ltac:(lra)). lra.
      - inversion T' as [t1 t2|t1 t2 t3|t1 t2 t3]; subst; lra. }
    assert (Z0 : 0 <= (R - rise crossing cs Hsw') / H') by (apply Rmult_le_pos; [lra|left; apply Rinv_0_lt_compat; lra]).
    assert (O : forall z z', (z - rise crossing cs Hsw') / H' <= (z' - rise crossing cs Hsw') / H' -> z <= z').
    { intros z z' L. apply (Rmult_le_compat_r H') in L; [|lra]. unfold Rdiv in L. rewrite !Rmult_assoc, !Rinv_l, !Rmult_1_r in L by lra. lra. }
    pose proof (O _ _ (Z _ _ _ _ Y Y' Z0 K1)) as RR. split; [exact RR|]. intros N. specialize (K2 N). destruct RR as [RR|RR]; [exact RR|]. subst R'.
    exfalso. destruct Y as [T|T T0|T T0]; inversion Y'; subst; lra.
Qed.
End Caisson.

(** ** EurOtop (2007, 2018) and TAW (2002) *)
From Verif.Spec Require Import Taw.
From Verif.Model Require OvertoppingEurotop2007 OvertoppingEurotop2018 OvertoppingTAW2002.
From Verif.Props Require Import OvertoppingTAW OvertoppingEurotop07 OvertoppingEurotop18 ResponseEurotop.

Lemma of_larger a b x y : larger a b -> a = Ok (Fin x) -> b = Ok (Fin y) -> x < y.
Proof. intros (u & v & A & B & L) EA EB. rewrite EA in A. rewrite EB in B. injection A as <-. injection B as <-. lra. Qed.
Lemma of_larger1 {A} (a b : res (num * A)) x y u v : larger1 a b -> a = Ok (Fin x, u) -> b = Ok (Fin y, v) -> x < y.
Proof. intros (m & n & u1 & v1 & X & B & L) EA EB. rewrite EA in X. rewrite EB in B. injection X as <- <-. injection B as <- <-. lra. Qed.

Theorem C77_eurotop2007_crest : forall T cot gbeta c2 c3 k2 k3 H H' gf q q' R R' (beta gbeta' : num) (bf : bool),
  0 < T -> 0 < cot -> 0 < gbeta -> 0 < k2 -> 0 < k3 -> eurotop07_coefficients c2 c3 bf k2 k3 -> known_or (runup_angle_factor beta) gbeta' gbeta ->
  0 < H < H' -> 0.1 <= gf <= 1 -> 0 < q' <= q -> 0 <= R ->
  value (OvertoppingEurotop2007.calculate_crest_freeboard_Rc_rubble_mound (Fin H) (Fin T) (Fin q) beta gbeta' (Fin gf) (Fin cot) (Fin c2) (Fin c3) bf) = Ok (Fin R) ->
  value (OvertoppingEurotop2007.calculate_crest_freeboard_Rc_rubble_mound (Fin H') (Fin T) (Fin q') beta gbeta' (Fin gf) (Fin cot) (Fin c2) (Fin c3) bf) = Ok (Fin R') ->
  R < R'.
Proof.
  intros T cot gbeta c2 c3 k2 k3 H H' gf q q' R R' beta gbeta' bf HT HC HB K2 K3 C A HH G Q P E E'. pose proof g0_pos as G0.
  apply (C19_round_trip H T R q cot gf gbeta c2 c3 k2 k3 beta gbeta' bf) in E; try assumption; try lra.
  apply (C19_round_trip H' T R' q' cot gf gbeta c2 c3 k2 k3 beta gbeta' bf) in E'; try assumption; try lra.
  pose proof (C19_discharge H' T R cot gf gbeta c2 c3 k2 k3 g0 beta gbeta' bf ltac:(lra) HT HC G0 ltac:(lra) HB K2 K3 C A) as V.
  pose proof (of_larger _ _ _ _ (C77_eurotop2007_wave_height T cot gbeta c2 c3 k2 k3 g0 R beta gbeta' bf HT HC G0 HB K2 K3 C A P H H' gf HH G) E V) as W.
  apply Rnot_le_lt. intros [L|L].
  - destruct (C19_positive_decreasing H' T R' R cot gf gbeta c2 c3 k2 k3 g0 beta gbeta' bf ltac:(lra) HT HC G0 ltac:(lra) HB K2 K3 C A L) as (a & b & Ea & Eb & D).
    change g_default with (Fin g0) in E'. rewrite E' in Ea. rewrite V in Eb. injection Ea as Ea. injection Eb as Eb. lra.
  - subst R'. change g_default with (Fin g0) in E'. rewrite V in E'. injection E' as E'. lra.
Qed.

Theorem C77_eurotop2018_mound_crest : forall T cot gbeta c2 c3 k2 k3 g B db H H' gf q q' R R' (beta gbeta' cu : num) (bf : bool),
  0 < T -> 0 < cot -> 0 < g -> 0 < gbeta -> 0 < k2 -> 0 < k3 -> eurotop_max_coefficients c2 c3 bf k2 k3 -> known_or (angle18 beta gf) gbeta' gbeta ->
  0 < H < H' -> 0.1 <= gf <= 1 -> 0 < q' <= q ->
  value (OvertoppingEurotop2018.calculate_crest_freeboard_Rc_rubble_mound (Fin H) (Fin T) (Fin q) beta gbeta' (Fin gf) (Fin B) (Fin db) (Fin cot) NaN cu (Fin c2) (Fin c3) bf (Fin g)) = Ok (Fin R) ->
  value (OvertoppingEurotop2018.calculate_crest_freeboard_Rc_rubble_mound (Fin H') (Fin T) (Fin q') beta gbeta' (Fin gf) (Fin B) (Fin db) (Fin cot) NaN cu (Fin c2) (Fin c3) bf (Fin g)) = Ok (Fin R') ->
  R < R'.
Proof.
  intros T cot gbeta c2 c3 k2 k3 g B db H H' gf q q' R R' beta gbeta' cu bf HT HC HG HB K2 K3 C A HH G Q E E'.
  apply (C18_mound_round_trip H T B db cot _ gf gbeta c2 c3 k2 k3 R q g (Fin cot) NaN cu beta gbeta' bf ltac:(lra) HT HC ltac:(lra) HB K2 K3 HG ltac:(lra) C A (one_slope _ _ _ _ _ _ _ _ _) (one_slope _ _ _ _ _ _ _ _ _)) in E.
  apply (C18_mound_round_trip H' T B db cot _ gf gbeta c2 c3 k2 k3 R' q' g (Fin cot) NaN cu beta gbeta' bf ltac:(lra) HT HC ltac:(lra) HB K2 K3 HG ltac:(lra) C A (one_slope _ _ _ _ _ _ _ _ _) (one_slope _ _ _ _ _ _ _ _ _)) in E'.
  rewrite (C18_mound_discharge H' T B db cot _ gf gbeta c2 c3 k2 k3 R' g (Fin cot) NaN cu beta gbeta' bf ltac:(lra) HT HC ltac:(lra) HB K2 K3 HG C A (one_slope _ _ _ _ _ _ _ _ _)) in E'.
  pose proof E as E0. rewrite (C18_mound_discharge H T B db cot _ gf gbeta c2 c3 k2 k3 R g (Fin cot) NaN cu beta gbeta' bf ltac:(lra) HT HC ltac:(lra) HB K2 K3 HG C A (one_slope _ _ _ _ _ _ _ _ _)) in E0.
  destruct (Rle_dec 0 R) as [P|P]; [|discriminate]. destruct (Rle_dec 0 R') as [P'|P']; [|discriminate]. clear E0. injection E' as E'.
  pose proof (C18_mound_discharge H' T B db cot _ gf gbeta c2 c3 k2 k3 R g (Fin cot) NaN cu beta gbeta' bf ltac:(lra) HT HC ltac:(lra) HB K2 K3 HG C A (one_slope _ _ _ _ _ _ _ _ _)) as V.
  destruct (Rle_dec 0 R) as [_|]; [|contradiction].
  pose proof (of_larger _ _ _ _ (C77_eurotop2018_mound_wave_height T cot gbeta c2 c3 k2 k3 g R B db beta gbeta' cu bf HT HC HG HB K2 K3 C P H H' gf HH G A) E V) as W.
  apply Rnot_le_lt. intros L. set (f := taw_roughness gf 1 (iribarren g0 H' T (1 / cot))) in *. pose proof (q_unit_pos g H' HG ltac:(lra)) as U.
  assert (FP : 0 < f). { destruct (effective_height gf T cot H H' HT HC G HH) as [F1 F2]. fold f in F2. apply (Rmult_lt_reg_l H'); lra. }
  enough (eurotop_q_max k2 k3 f gbeta 1 (R / H') <= eurotop_q_max k2 k3 f gbeta 1 (R' / H')) by nra.
  unfold eurotop_q_max. apply Rmult_le_compat_l; [lra|]. apply exp_le, Ropp_le_contravar, pow13_le. unfold Rdiv. apply Rmult_le_compat_r; [left; apply Rinv_0_lt_compat; repeat apply Rmult_lt_0_compat; lra|].
  apply Rmult_le_compat_l; [lra|]. apply Rmult_le_compat_r; [left; apply Rinv_0_lt_compat; lra|exact L].
Qed.

Theorem C77_taw2002_crest : forall T cot gbeta gb gv sigma c1 c3 B H H' gf q q' R R' (beta db gbeta' cu : num) (bf r r' : bool),
  0 < T -> 0 < cot -> 0 < gbeta -> 0 < gv -> 0 < gb <= 1 -> taw_coefficients bf sigma c1 c3 -> -7 < sigma -> known_or (angle_factor beta) gbeta' gbeta ->
  0 < H < H' -> gf = 1 \/ gb = 1 /\ 0.18 <= gf <= 1 -> 0 < q' <= q -> 0 <= R ->
  value (OvertoppingTAW2002.calculate_crest_freeboard_Rc (Fin H) (Fin T) (Fin q) (Fin cot) NaN cu beta (Fin B) db gbeta' (Fin gb) (Fin gf) (Fin gv) (Fin sigma) g_default bf) = Ok (Fin R, r) ->
  value (OvertoppingTAW2002.calculate_crest_freeboard_Rc (Fin H') (Fin T) (Fin q') (Fin cot) NaN cu beta (Fin B) db gbeta' (Fin gb) (Fin gf) (Fin gv) (Fin sigma) g_default bf) = Ok (Fin R', r') ->
  R < R'.
Proof.
  intros T cot gbeta gb gv sigma c1 c3 B H H' gf q q' R R' beta db gbeta' cu bf r r' HT HC HB HV Hgb C HS A HH G Q P E E'. pose proof g0_pos as G0.
  assert (GF : 0 < gf <= 1) by lra.
  apply (C13_round_trip H T R q cot B gf gbeta gb gv sigma c1 c3 cu beta db gbeta' (Fin gb) bf r) in E; try assumption; try lra; [|constructor].
  apply (C13_round_trip H' T R' q' cot B gf gbeta gb gv sigma c1 c3 cu beta db gbeta' (Fin gb) bf r') in E'; try assumption; try lra; [|constructor].
  change g_default with (Fin g0) in E, E'.
  destruct (C13_discharge H' T R cot B gf gbeta gb gv sigma c1 c3 g0 cu beta db gbeta' (Fin gb) bf ltac:(lra) HT HC G0 C A (known _ _) GF Hgb HB HV) as (v & V & _).
  destruct (C13_discharge H' T R' cot B gf gbeta gb gv sigma c1 c3 g0 cu beta db gbeta' (Fin gb) bf ltac:(lra) HT HC G0 C A (known _ _) GF Hgb HB HV) as (v' & V' & _).
  rewrite E' in V'. injection V' as V' _.
  pose proof (of_larger1 _ _ _ _ _ _ (C77_taw2002_wave_height T cot gbeta gb gv sigma c1 c3 g0 R B beta db gbeta' cu bf HT HC G0 HB HV Hgb C HS A P H H' gf HH G) E V) as W.
  apply Rnot_le_lt. intros L. set (xi := iribarren g0 H' T (1 / cot)) in *. pose proof (q_unit_pos g0 H' G0 ltac:(lra)) as U.
  assert (X : 0 < xi) by (apply iribarren_pos; [exact G0|lra|lra|apply Rdiv_lt_0_compat; lra]).
  assert (FP : 0 < taw_roughness gf gb xi). { destruct G as [->|[-> G]]; [rewrite rough_smooth by assumption; lra|]. destruct (roughness_factor gf 1 xi); lra. }
  enough (taw_q c1 c3 (1 / cot) gb gf gbeta gv xi (R / H') <= taw_q c1 c3 (1 / cot) gb gf gbeta gv xi (R' / H')) by nra.
  assert (L' : R' / H' <= R / H') by (unfold Rdiv; apply Rmult_le_compat_r; [left; apply Rinv_0_lt_compat; lra|exact L]).
  assert (C13 : 0 < c1 /\ 0 < c3) by (destruct C; lra). destruct C13 as [C1 C3]. unfold taw_q. set (f := taw_roughness gf gb xi) in *. clearbody f xi.
  assert (Z : forall d k, 0 < d -> 0 < k -> exp (- (k * (R / H') / d)) <= exp (- (k * (R' / H') / d))).
  { intros d k Pd Pk. apply exp_le, Ropp_le_contravar. set (m := R / H') in *. set (n := R' / H') in *. assert (0 < k / d) by (apply Rdiv_lt_0_compat; assumption). replace (k * m / d) with (k / d * m) by (field; lra). replace (k * n / d) with (k / d * n) by (field; lra). apply Rmult_le_compat_l; lra. }
  apply Rmin_glb; [eapply Rle_trans; [apply Rmin_l|]|eapply Rle_trans; [apply Rmin_r|]]; unfold taw_q_slope, taw_q_max; (apply Rmult_le_compat_l; [|apply Z; [repeat apply Rmult_lt_0_compat; lra|lra]]).
  - assert (0 < sqrt (1 / cot)) by (apply sqrt_lt_R0, Rdiv_lt_0_compat; lra). left. apply Rmult_lt_0_compat; [apply Rmult_lt_0_compat; [apply Rdiv_lt_0_compat|]|]; lra.
  - lra.
Qed.

(** Twice as high waves: with a discharge of [0.16 e^-1 sqrt g] the crest has to be above
    [1 / 6.93] for a wave height of 1, by the first theorem, and higher for a wave height of 2. *)
Example C77_crest_example : exists R R',
  OvertoppingDeRidder26.Rc28 #1 #1 #1 (Fin (0.16 * exp (- (1)) * q_unit g0 1)) (Fin g0) #0 = Fin R /\
  OvertoppingDeRidder26.Rc28 #2 #1 #1 (Fin (0.16 * exp (- (1)) * q_unit g0 1)) (Fin g0) #0 = Fin R' /\ R = 1 / 6.93 /\ R < R'.
Proof.
  pose proof g0_pos as G. pose proof (q_unit_pos g0 1 G ltac:(lra)) as U. set (q := 0.16 * exp (- (1)) * q_unit g0 1).
  assert (Q : 0 < q) by (unfold q; apply Rmult_lt_0_compat; [apply Rmult_lt_0_compat; [lra|apply exp_pos]|exact U]).
  pose proof (OvertoppingDeRidder26.Rc28_value g0 1 1 1 0 G ltac:(lra) ltac:(lra) q Q) as E. pose proof (OvertoppingDeRidder26.Rc28_value g0 2 1 1 0 G ltac:(lra) ltac:(lra) q Q) as E'.
  assert (D : deridder26_gamma 0 = 1). { pose proof (proj1 (proj2 OvertoppingDeRidder26.C24_angle_factor)) as A. rewrite OvertoppingDeRidder26.gamma_fin in A. injection A as A. exact A. }
  assert (V : - (ln (q / q_unit g0 1) - ln 0.16) / (6.93 * Rpower 1 0.36) * 1 * deridder26_gamma 0 * 1 = 1 / 6.93).
  { rewrite D, Rpower_1_base. unfold q. replace (0.16 * exp (- (1)) * q_unit g0 1 / q_unit g0 1) with (0.16 * exp (- (1))) by (field; lra).
    rewrite ln_mult, ln_exp by (try apply exp_pos; lra). lra. }
  rewrite V in E. do 2 eexists. split; [exact E|]. split; [exact E'|]. split; [reflexivity|].
  apply (C77_deridder2026_eq28_crest 1 2 1 1 1 1 q q (1 / 6.93) _ ltac:(lra) ltac:(lra) ltac:(lra) ltac:(lra) g0 0 G ltac:(lra) E E'). left. lra.
Qed.
