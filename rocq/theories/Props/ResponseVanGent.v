(** Property C77, continued: larger waves give more overtopping over the structures of De Ridder
    et al. (2024, 2026) and Van Gent (2021, 2025), and ask for a higher crest. *)
From Coq Require Import Reals Lra Lia List Bool String.
From Verif.Lib Require Import Num Monad RTac NTac.
From Verif.Spec Require Import Waves Ranges Overtopping Response.
From Verif.Proofs Require Import Core CheckTac Overtopping Response.
From Verif.Props Require OvertoppingDeRidder24 OvertoppingDeRidder26 OvertoppingVanGent25 OvertoppingCaisson.
Open Scope R_scope.

Lemma frac_le x x' d d' : 0 <= x' <= x -> 0 < d <= d' -> x' / d' <= x / d.
Proof.
  intros X D. apply Rle_trans with (x' / d); [apply quotient_le; lra|]. unfold Rdiv. apply Rmult_le_compat_r; [left; apply Rinv_0_lt_compat; lra|lra].
Qed.
Lemma unit_le g H H' : 0 < g -> 0 < H <= H' -> 0 < q_unit g H <= q_unit g H' /\ (H < H' -> q_unit g H < q_unit g H').
Proof.
  intros G [P [L|<-]]; pose proof (q_unit_pos g H G P).
  - pose proof (q_unit_lt g H H' G (conj P L)). lra.
  - split; lra.
Qed.
Lemma grow A u u' h h' : 0 < A -> u' <= u -> 0 < h <= h' -> 0 < A * exp (- u) * h <= A * exp (- u') * h' /\ (u' < u \/ h < h' -> A * exp (- u) * h < A * exp (- u') * h').
Proof.
  intros HA U [P L]. pose proof (exp_le (- u) (- u') ltac:(lra)) as E. pose proof (exp_pos (- u)) as E0. set (e := exp (- u)) in *. assert (S : u' < u -> e < exp (- u')) by (intros; apply exp_increasing; lra). set (e' := exp (- u')) in *. clearbody e e'.
  assert (0 < A * e <= A * e') by nra. split; [nra|]. intros [K|K]; [specialize (S K); assert (A * e < A * e') by nra|]; nra.
Qed.
Lemma Rpower_le s s' p : 0 < s' <= s -> 0 < p -> 0 < Rpower s' p <= Rpower s p.
Proof. intros [P L] Q. split; [apply exp_pos|]. apply Rle_Rpower_l; lra. Qed.
Lemma by_values (P : Prop) x y : (0 < x <= y) /\ (P -> x < y) -> grows P (Ok (Fin x)) (Ok (Fin y)).
Proof. intros [A B]. split; [|intros p; specialize (B p)]; exists x, y; repeat split; lra. Qed.

(** ** De Ridder et al. *)
Section DeRidder.
Variables (g H H' s s' gf gf' HLF HLF' Rc Rc' : R).
Hypotheses (HG : 0 < g) (HH : 0 < H <= H') (HS : 0 < s' <= s) (HF : 0 < gf <= gf') (HL : HLF <= HLF') (HR : Rc' <= Rc).
(** Higher waves, longer waves, a rougher slope made smooth, more infragravity waves and a lower
    crest each give more. *)
Section Year2024.
Import OvertoppingDeRidder24.

Theorem C77_deridder2024_eq24 : 0 <= Rc' ->
  grows (H < H') (value (q24 (Fin H) (Fin s) (Fin gf) (Fin Rc) (Fin g))) (value (q24 (Fin H') (Fin s') (Fin gf') (Fin Rc') (Fin g))).
Proof.
  intros R0. rewrite !q24_value by lra. apply by_values. destruct (unit_le g H H' HG HH) as [U V].
  destruct (grow 0.74 (8.51 * Rpower s 0.32 * (Rc / (H * gf))) (8.51 * Rpower s' 0.32 * (Rc' / (H' * gf'))) (q_unit g H) (q_unit g H')) as [A B]; [lra| |lra|split; [exact A|tauto]].
  pose proof (Rpower_le s s' 0.32 HS ltac:(lra)). assert (0 <= Rc' / (H' * gf')) by (apply Rmult_le_pos; [exact R0|left; apply Rinv_0_lt_compat; apply Rmult_lt_0_compat; lra]).
  pose proof (frac_le Rc Rc' (H * gf) (H' * gf') ltac:(lra) ltac:(split; [apply Rmult_lt_0_compat; lra|apply Rmult_le_compat; lra])). apply Rmult_le_compat; lra.
Qed.
Theorem C77_deridder2024_eq26 : 0.21 * HLF' <= Rc' ->
  grows (H < H') (value (q26 (Fin H) (Fin s) (Fin HLF) (Fin gf) (Fin Rc) (Fin g))) (value (q26 (Fin H') (Fin s') (Fin HLF') (Fin gf') (Fin Rc') (Fin g))).
Proof.
  intros R0. rewrite !q26_value by lra. apply by_values. destruct (unit_le g H H' HG HH) as [U V].
  destruct (grow 0.5 (7.91 * Rpower s 0.3 * ((Rc - 0.21 * HLF) / (H * gf))) (7.91 * Rpower s' 0.3 * ((Rc' - 0.21 * HLF') / (H' * gf'))) (q_unit g H) (q_unit g H')) as [A B]; [lra| |lra|split; [exact A|tauto]].
  pose proof (Rpower_le s s' 0.3 HS ltac:(lra)). assert (0 <= (Rc' - 0.21 * HLF') / (H' * gf')) by (apply Rmult_le_pos; [lra|left; apply Rinv_0_lt_compat; apply Rmult_lt_0_compat; lra]).
  pose proof (frac_le (Rc - 0.21 * HLF) (Rc' - 0.21 * HLF') (H * gf) (H' * gf') ltac:(lra) ltac:(split; [apply Rmult_lt_0_compat; lra|apply Rmult_le_compat; lra])). apply Rmult_le_compat; lra.
Qed.
End Year2024.

Section Year2026.
Import OvertoppingDeRidder26.
Variables (theta : R).
Let P := gamma_pos theta.

Theorem C77_deridder2026_eq28 : 0 <= Rc' ->
  grows (H < H') (value (q28 (Fin H) (Fin s) (Fin gf) (Fin Rc) (Fin g) (Fin theta))) (value (q28 (Fin H') (Fin s') (Fin gf') (Fin Rc') (Fin g) (Fin theta))).
Proof.
  intros R0. rewrite !q28_value by lra. apply by_values. destruct (unit_le g H H' HG HH) as [U V]. pose proof P. set (t := deridder26_gamma theta) in *.
  destruct (grow 0.16 (6.93 * Rpower s 0.36 * (Rc / (H * gf * t))) (6.93 * Rpower s' 0.36 * (Rc' / (H' * gf' * t))) (q_unit g H) (q_unit g H')) as [A B]; [lra| |lra|split; [exact A|tauto]].
  assert (D : 0 < H * gf * t <= H' * gf' * t) by (split; [repeat apply Rmult_lt_0_compat; lra|apply Rmult_le_compat_r; [lra|]; apply Rmult_le_compat; lra]).
  pose proof (Rpower_le s s' 0.36 HS ltac:(lra)). assert (0 <= Rc' / (H' * gf' * t)) by (apply Rmult_le_pos; [exact R0|left; apply Rinv_0_lt_compat; lra]).
  pose proof (frac_le Rc Rc' (H * gf * t) (H' * gf' * t) ltac:(lra) D). apply Rmult_le_compat; lra.
Qed.
Theorem C77_deridder2026_eq32 : 0.97 * HLF' <= Rc' ->
  grows (H < H') (value (q32 (Fin H) (Fin s) (Fin HLF) (Fin gf) (Fin Rc) (Fin g) (Fin theta))) (value (q32 (Fin H') (Fin s') (Fin HLF') (Fin gf') (Fin Rc') (Fin g) (Fin theta))).
Proof.
  intros R0. rewrite !q32_value by lra. apply by_values. destruct (unit_le g H H' HG HH) as [U V]. pose proof P. set (t := deridder26_gamma theta) in *.
  destruct (grow 0.05 (10.4 * sqrt s * ((Rc - 0.97 * HLF) / (H * gf * t))) (10.4 * sqrt s' * ((Rc' - 0.97 * HLF') / (H' * gf' * t))) (q_unit g H) (q_unit g H')) as [A B]; [lra| |lra|split; [exact A|tauto]].
  assert (D : 0 < H * gf * t <= H' * gf' * t) by (split; [repeat apply Rmult_lt_0_compat; lra|apply Rmult_le_compat_r; [lra|]; apply Rmult_le_compat; lra]).
  pose proof (sqrt_le_1 s' s ltac:(lra) ltac:(lra) ltac:(lra)). pose proof (sqrt_pos s'). assert (0 <= (Rc' - 0.97 * HLF') / (H' * gf' * t)) by (apply Rmult_le_pos; [lra|left; apply Rinv_0_lt_compat; lra]).
  pose proof (frac_le (Rc - 0.97 * HLF) (Rc' - 0.97 * HLF') (H * gf * t) (H' * gf' * t) ltac:(lra) D). apply Rmult_le_compat; lra.
Qed.
End Year2026.
End DeRidder.

(** ** Van Gent et al. (2025) *)
Lemma by_values1 {A} (P : Prop) x y (u v : A) : (0 < x <= y) /\ (P -> x < y) -> grows1 P (Ok (Fin x, u)) (Ok (Fin y, v)).
Proof. intros [X B]. split; [|intros p; specialize (B p)]; exists x, y, u, v; repeat split; lra. Qed.
Lemma slope_le cot cot' : 0 < cot' <= cot -> 0 < 1 / cot <= 1 / cot'.
Proof. intros C. split; [apply Rdiv_lt_0_compat; lra|apply quotient_le; lra]. Qed.
Lemma iribarren_split H T t : 0 < H -> 0 < T -> H * iribarren g0 H T t = sqrt H * (T * (t * iribarren g0 1 1 1)).
Proof.
  intros HH HT. pose proof g0_pos. rewrite (iribarren_height g0 H T), (iribarren_period g0 1 T) by lra.
  replace (iribarren g0 1 1 t) with (t * iribarren g0 1 1 1) by (unfold iribarren; field; apply Rgt_not_eq, sqrt_lt_R0; unfold steepness; pose proof PI_RGT_0; apply Rdiv_lt_0_compat; [nra|]; replace (g0 * 1 ^ 2) with g0 by ring; assumption).
  rewrite <- (sqrt_sqrt H) at 1 by lra. field. apply Rgt_not_eq, sqrt_lt_R0, HH.
Qed.
Lemma iribarren_le H H' T T' cot cot' : 0 < H <= H' -> 0 < T <= T' -> 0 < cot' <= cot ->
  0 < H * iribarren g0 H T (1 / cot) <= H' * iribarren g0 H' T' (1 / cot').
Proof.
  intros HH HT HC. rewrite !iribarren_split by lra. destruct (slope_le cot cot' HC) as [C0 C1]. pose proof (iribarren_pos g0 1 1 1 g0_pos ltac:(lra) ltac:(lra) ltac:(lra)) as K.
  pose proof (sqrt_lt_R0 H ltac:(lra)). pose proof (sqrt_le_1 H H' ltac:(lra) ltac:(lra) ltac:(lra)).
  assert (0 < 1 / cot * iribarren g0 1 1 1 <= 1 / cot' * iribarren g0 1 1 1) by (split; [apply Rmult_lt_0_compat|apply Rmult_le_compat_r]; lra).
  assert (0 < T * (1 / cot * iribarren g0 1 1 1) <= T' * (1 / cot' * iribarren g0 1 1 1)) by (split; [apply Rmult_lt_0_compat|apply Rmult_le_compat]; lra).
  split; [apply Rmult_lt_0_compat|apply Rmult_le_compat]; lra.
Qed.
Lemma root_le H H' k k' : 0 < H <= H' -> 0 < k -> 0 < k' -> H * k <= H' * k' -> 0 < H * Rpower k 0.24 <= H' * Rpower k' 0.24.
Proof.
  intros HH K K' L. assert (E : forall h x, 0 < h -> 0 < x -> h * Rpower x 0.24 = Rpower h 0.76 * Rpower (h * x) 0.24).
  { intros h x Ph Px. rewrite (Rpower_mult_distr_l h x) || rewrite <- (Rpower_mult_distr h x) by assumption. rewrite <- Rmult_assoc, <- Rpower_plus. replace (0.76 + 0.24) with 1 by lra. rewrite Rpower_1 by assumption. reflexivity. }
  rewrite (E H k), (E H' k') by lra. pose proof (Rpower_le H' H 0.76 HH ltac:(lra)). pose proof (Rpower_le (H' * k') (H * k) 0.24 ltac:(split; [apply Rmult_lt_0_compat; lra|exact L]) ltac:(lra)).
  split; [apply Rmult_lt_0_compat; lra|apply Rmult_le_compat; lra].
Qed.

Section VanGent2025.
Import OvertoppingVanGent25.
Variables (g H H' T T' cot cot' gf gf' gb gb' gv gv' gbe gbe' Hsw Hsw' Rc Rc' : R) (Ac beta B db Dn : num) (design : bool).
Hypotheses (HG : 0 < g) (HH : 0 < H <= H') (HT : 0 < T <= T') (HC : 0 < cot' <= cot) (HF : 0 < gf <= gf') (HB : 0 < gb <= gb') (HV : 0 < gv <= gv')
  (HBE : 0 < gbe <= gbe') (HS : Hsw <= Hsw') (HR : Rc' <= Rc) (R0 : 0.4 * Hsw' <= Rc').
Let gam := gf * gb * gv * gbe.
Let gam' := gf' * gb' * gv' * gbe'.
Let ksi := iribarren g0 H T (1 / cot).
Let ksi' := iribarren g0 H' T' (1 / cot').

Lemma gam_le : 0 < gam <= gam'.
Proof.
  unfold gam, gam'. assert (0 < gf * gb <= gf' * gb') by (split; [apply Rmult_lt_0_compat|apply Rmult_le_compat]; lra).
  assert (0 < gf * gb * gv <= gf' * gb' * gv') by (split; [apply Rmult_lt_0_compat|apply Rmult_le_compat]; lra). split; [apply Rmult_lt_0_compat|apply Rmult_le_compat]; lra.
Qed.
Lemma exponent_le c k k' : 0 < c -> 0 < k -> 0 < k' -> H * k <= H' * k' -> c * ((Rc' - 0.4 * Hsw') / H') / (gam' * k') <= c * ((Rc - 0.4 * Hsw) / H) / (gam * k).
Proof.
  intros P K K' L. pose proof gam_le. replace (c * ((Rc' - 0.4 * Hsw') / H') / (gam' * k')) with ((c * (Rc' - 0.4 * Hsw')) / (gam' * (H' * k'))) by (field; lra).
  replace (c * ((Rc - 0.4 * Hsw) / H) / (gam * k)) with ((c * (Rc - 0.4 * Hsw)) / (gam * (H * k))) by (field; lra).
  assert (0 < H * k) by (apply Rmult_lt_0_compat; lra). assert (0 < gam * (H * k)) by (apply Rmult_lt_0_compat; lra).
  apply frac_le; [split; [apply Rmult_le_pos; lra|apply Rmult_le_compat_l; lra]|split; [assumption|apply Rmult_le_compat; lra]].
Qed.
Lemma discharge_le : 0 < vg25_discharge cot ksi gam ((Rc - 0.4 * Hsw) / H) <= vg25_discharge cot' ksi' gam' ((Rc' - 0.4 * Hsw') / H').
Proof.
  pose proof (iribarren_le H H' T T' cot cot' HH HT HC) as I. fold ksi ksi' in I.
  assert (K : 0 < ksi) by (apply iribarren_pos; [exact g0_pos|lra|lra|apply slope_le with cot'; lra]).
  assert (K' : 0 < ksi') by (apply iribarren_pos; [exact g0_pos|lra|lra|apply slope_le with cot'; lra]).
  pose proof (root_le H H' ksi ksi' HH K K' ltac:(lra)) as J.
  pose proof (exponent_le 5 ksi ksi' ltac:(lra) K K' ltac:(lra)) as E. pose proof (exponent_le 2.5 _ _ ltac:(lra) (exp_pos _) (exp_pos _) (proj2 J)) as F. fold (Rpower ksi 0.24) (Rpower ksi' 0.24) in F.
  apply Ropp_le_contravar, exp_le in E, F.
  assert (A : forall c, 0 < c -> 0 < c / cot <= c / cot') by (intros c Pc; split; [apply Rdiv_lt_0_compat; lra|apply quotient_le; lra]).
  assert (X : forall c e e', 0 < c -> 0 < e <= e' -> 0 < c / cot * e <= c / cot' * e') by (intros c e e' Pc Pe; specialize (A c Pc); split; [apply Rmult_lt_0_compat|apply Rmult_le_compat]; lra).
  pose proof (X 6.8 _ _ ltac:(lra) (conj (exp_pos _) E)) as E2. pose proof (X 0.8 _ _ ltac:(lra) (conj (exp_pos _) F)) as F2.
  unfold vg25_discharge, vg25_general, vg25_maximum. split; [apply Rmin_glb_lt; lra|apply Rmin_glb; [eapply Rle_trans; [apply Rmin_l|]|eapply Rle_trans; [apply Rmin_r|]]; lra].
Qed.

Theorem C77_vangent2025 :
  grows1 (H < H') (value (qv (Fin H) (Fin Hsw) (Fin T) (Fin Rc) Ac (Fin cot) beta B db Dn (Fin gf) (Fin gb) (Fin gv) (Fin gbe) (Fin g) design false))
    (value (qv (Fin H') (Fin Hsw') (Fin T') (Fin Rc') Ac (Fin cot') beta B db Dn (Fin gf') (Fin gb') (Fin gv') (Fin gbe') (Fin g) design false)).
Proof.
  rewrite !qv_value by lra. apply by_values1. destruct (unit_le g H H' HG HH) as [U V]. fold gam gam' ksi ksi'. pose proof discharge_le as D.
  assert (D2 : 0 < designed design (vg25_discharge cot ksi gam ((Rc - 0.4 * Hsw) / H)) <= designed design (vg25_discharge cot' ksi' gam' ((Rc' - 0.4 * Hsw') / H'))).
  { unfold designed. destruct design; [apply Rpower_le; lra|exact D]. }
  split; [split; [apply Rmult_lt_0_compat; lra|apply Rmult_le_compat; lra]|]. intros L. specialize (V L). apply Rle_lt_trans with (designed design (vg25_discharge cot' ksi' gam' ((Rc' - 0.4 * Hsw') / H')) * q_unit g H); [apply Rmult_le_compat_r; lra|apply Rmult_lt_compat_l; lra].
Qed.
End VanGent2025.

(** ** Caissons *)
Section Caisson.
Import OvertoppingCaisson.
Variables (g H H' gb gb' cs Hsw Hsw' Rc Rc' : R) (short crossing parapet : bool) (c a b cb gp : R) (beta : num).
Hypotheses (HG : 0 < g) (HH : 0 < H <= H') (HB : 0 < gb <= gb') (HR : Rc' <= Rc) (F : caisson_fitted (short || crossing) parapet c a b cb gp)
  (HS : rise crossing cs Hsw <= rise crossing cs Hsw') (R0 : rise crossing cs Hsw' <= Rc').

Lemma to_power_le x x' y y' : 0 <= x' <= x -> to_power x y c -> to_power x' y' c -> 0 <= y' <= y.
Proof.
  intros X P P'. destruct P as [E|E E'|E E'].
  - inversion P' as [E2 E3|E2 E3 E4|E2 E3 E4]; subst; try lra.
  - inversion P' as [E2 E3|E2 E3 E4|E2 E3 E4]; subst; try lra; [|split; [lra|left; apply exp_pos]]. pose proof (Rpower_le x x' 1.3 ltac:(lra) ltac:(lra)). lra.
  - inversion P' as [E2 E3|E2 E3 E4|E2 E3 E4]; subst; lra.
Qed.

Theorem C77_vangent2021 :
  grows (H < H') (value (qc (Fin H) (Fin Rc) beta (Fin gb) (Fin Hsw) (Fin c) (Fin cs) short crossing parapet (Fin g)))
    (value (qc (Fin H') (Fin Rc') beta (Fin gb') (Fin Hsw') (Fin c) (Fin cs) short crossing parapet (Fin g))).
Proof.
  destruct (fitted_pos _ _ _ _ _ _ _ F) as (Hc & Ha & Hb & Hcb & Hgp).
  destruct (proj1 (C25_round_trip g H short crossing parapet c a b cb gp gb cs Hsw beta HG ltac:(lra) ltac:(lra) F) Rc ltac:(lra)) as (q & Q & E & _).
  destruct (proj1 (C25_round_trip g H' short crossing parapet c a b cb gp gb' cs Hsw' beta HG ltac:(lra) ltac:(lra) F) Rc' ltac:(lra)) as (q' & Q' & E' & _).
  rewrite E, E'. apply (proj1 (C25_agree_with_relation g H short crossing parapet c a b cb gp gb cs Hsw beta HG ltac:(lra) ltac:(lra) F)) in E. apply (proj1 (C25_agree_with_relation g H' short crossing parapet c a b cb gp gb' cs Hsw' beta HG ltac:(lra) ltac:(lra) F)) in E'.
  destruct E as (y & P & V). destruct E' as (y' & P' & V'). destruct (unit_le g H H' HG HH) as [U W].
  set (u := q_unit g H) in *. set (u' := q_unit g H') in *. assert (X : q = a * exp (- (b / (gb * gp) * y)) * u) by (rewrite <- V; field; lra). assert (X' : q' = a * exp (- (b / (gb' * gp) * y')) * u') by (rewrite <- V'; field; lra).
  assert (Y : 0 <= y' <= y). { eapply to_power_le; [|exact P|exact P']. split; [apply Rmult_le_pos; [lra|left; apply Rinv_0_lt_compat; lra]|]. apply frac_le; lra. }
  apply by_values. rewrite X, X'. destruct (grow a (b / (gb * gp) * y) (b / (gb' * gp) * y') u u') as [A1 B1]; [lra| |lra|split; [exact A1|tauto]].
  assert (D : 0 < gb * gp <= gb' * gp) by (split; [apply Rmult_lt_0_compat; lra|apply Rmult_le_compat_r; lra]). pose proof (quotient_le b _ _ ltac:(lra) D). assert (0 < b / (gb' * gp)) by (apply Rdiv_lt_0_compat; lra). apply Rmult_le_compat; lra.
Qed.
End Caisson.
