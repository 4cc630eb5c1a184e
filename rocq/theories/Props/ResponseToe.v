(** Property C78, continued: rock in the toe and on the rear side. *)
From Coq Require Import Reals Lra Lia List Bool String ZArith.
From Verif.Lib Require Import Num Monad RTac NTac.
From Verif.Spec Require Import Waves Toe Rear Runup Response.
From Verif.Model Require CorePhysics VanGent2001 VanderMeer1988 Gerding1993 VanderMeer1998 EtemadShahidi2021 VanGentVanderWerf2014 RearVanGent2007 RearVanGentPozueta2004.
From Verif.Proofs Require Import Core CheckTac VdM Runup2001 Stones Response.
From Verif.Props Require ToeGerding ToeVanderMeer ToeEtemad ToeVanGentVanderWerf RearVanGent RearPozueta.
From Verif.Props Require Import ResponseVanGent ResponseArmour.
Open Scope R_scope.

(** ** Toes: higher waves, less water above the toe, less damage, lighter stones. *)
Theorem C78_gerding : forall H H' ht ht' Nod Nod' rw rs rs' h h',
  0 < H <= H' -> 0 <= ht' <= ht -> 0 < Nod' <= Nod -> 0 < rw -> rw < rs' <= rs ->
  rises (H < H' \/ ht' < ht \/ Nod' < Nod \/ rs' < rs)
    (value (Gerding1993.calculate_nominal_diameter_Dn50 (Fin H) (Fin ht) h (Fin Nod) (Fin rs) (Fin rw)))
    (value (Gerding1993.calculate_nominal_diameter_Dn50 (Fin H') (Fin ht') h' (Fin Nod') (Fin rs') (Fin rw))).
Proof.
  intros H H' ht ht' Nod Nod' rw rs rs' h h' HH Ht HN Hw Hs.
  assert (V : forall a b c d r, 0 < a -> 0 < c -> rw < r ->
    value (Gerding1993.calculate_nominal_diameter_Dn50 (Fin a) (Fin b) d (Fin c) (Fin r) (Fin rw)) = Ok (Fin ((a / ((r / rw - 1) * Rpower c 0.15) - 0.24 * b) / 1.6))).
  { intros a b c d r Pa Pc Pr. unfold Gerding1993.calculate_nominal_diameter_Dn50. pose proof (buoyant_pos r rw Hw Pr) as B. rewrite Delta_fin by lra. mval. rewrite ToeGerding.checks. mval.
    assert (0 < Rpower c 0.15) by rpos. nfin. do 2 f_equal. unfold buoyant in *. set (de := r / rw - 1) in *. clearbody de. set (k := Rpower c 0.15) in *. dec. field. lra. }
  rewrite !V by lra. do 2 eexists. split; [reflexivity|]. split; [reflexivity|]. clear V.
  destruct (buoyant_le rs rs' rw Hw Hs) as [B B']. destruct (ln_le2 _ _ B) as [C C']. destruct (ln_le2 _ _ HH) as [A1 B1]. destruct (ln_le2 _ _ HN) as [A2 B2].
  set (de := rs / rw - 1) in *. set (de' := rs' / rw - 1) in *. clearbody de de'.
  set (x := H / (de * Rpower Nod 0.15)). set (x' := H' / (de' * Rpower Nod' 0.15)).
  assert (Px : 0 < x) by (unfold x; rpos). assert (Px' : 0 < x') by (unfold x'; rpos).
  assert (E : ln x = ln H - ln de - 0.15 * ln Nod) by (unfold x; assert (0 < H) by lra; assert (0 < de) by lra; assert (0 < Nod) by lra; ln_push; lra).
  assert (E' : ln x' = ln H' - ln de' - 0.15 * ln Nod') by (unfold x'; assert (0 < H') by lra; assert (0 < de') by lra; assert (0 < Nod') by lra; ln_push; lra).
  assert (L : x <= x') by (apply ln_le_iff; [assumption..|]; lra). split; [lra|].
  intros [K|[K|[K|K]]]; [specialize (B1 K)|lra|specialize (B2 K)|specialize (C' (B' K))]; (assert (x < x') by (apply ln_lt_iff; [assumption..|]; lra); lra).
Qed.

Theorem C78_vandermeer1998 : forall H H' ht ht' d d' Nod Nod' rw rs rs',
  0 < H <= H' -> 0 < ht' <= ht -> 0 < d <= d' -> 0 < Nod' <= Nod -> 0 < rw -> rw < rs' <= rs ->
  grows (H < H' \/ ht' < ht \/ d < d' \/ Nod' < Nod \/ rs' < rs)
    (value (VanderMeer1998.calculate_nominal_diameter_Dn50 (Fin H) (Fin ht) (Fin d) (Fin Nod) (Fin rs) (Fin rw)))
    (value (VanderMeer1998.calculate_nominal_diameter_Dn50 (Fin H') (Fin ht') (Fin d') (Fin Nod') (Fin rs') (Fin rw))).
Proof.
  intros H H' ht ht' d d' Nod Nod' rw rs rs' HH Ht Hd HN Hw Hs.
  destruct (ToeVanderMeer.C52_diameter_total H ht d Nod rs rw) as (D & HD & -> & R1); [lra..|]. destruct (ToeVanderMeer.C52_diameter_total H' ht' d' Nod' rs' rw) as (D' & HD' & -> & R2); [lra..|].
  apply by_logs; [assumption..|]. unfold vandermeer1998 in R1, R2. destruct (buoyant_le rs rs' rw Hw Hs) as [B B']. destruct (ln_le2 _ _ B) as [C C']. destruct (ln_le2 _ _ HH) as [A1 B1]. destruct (ln_le2 _ _ HN) as [A2 B2]. destruct (ln_le2 _ _ Ht) as [A3 B3]. destruct (ln_le2 _ _ Hd) as [A4 B4].
  set (de := rs / rw - 1) in *. set (de' := rs' / rw - 1) in *. clearbody de de'. assert (0 < H) by lra. assert (0 < H') by lra. assert (0 < ht) by lra. assert (0 < ht') by lra. assert (0 < d) by lra. assert (0 < d') by lra. assert (0 < Nod) by lra. assert (0 < Nod') by lra. assert (0 < de) by lra. assert (0 < de') by lra.
  assert (Q : Rpower (ht' / d') 2.7 <= Rpower (ht / d) 2.7 /\ (ht' < ht \/ d < d' -> Rpower (ht' / d') 2.7 < Rpower (ht / d) 2.7)).
  { assert (0 < ht / d) by rpos. assert (0 < ht' / d') by rpos. split.
    - apply ln_le_iff; [rpos..|]. ln_push. lra.
    - intros K. apply ln_lt_iff; [rpos..|]. ln_push. destruct K as [K|K]; [specialize (B3 K)|specialize (B4 K)]; lra. }
  assert (0 < Rpower (ht' / d') 2.7) by apply exp_pos. set (q := Rpower (ht / d) 2.7) in *. set (q' := Rpower (ht' / d') 2.7) in *. clearbody q q'. destruct Q as [Q Q'].
  destruct (ln_le2 (6.2 * q' + 2) (6.2 * q + 2) ltac:(lra)) as [A5 B5]. assert (0 < 6.2 * q' + 2) by lra. assert (0 < 6.2 * q + 2) by lra. set (w := 6.2 * q + 2) in *. set (w' := 6.2 * q' + 2) in *.
  assert (S5 : ht' < ht \/ d < d' -> ln w' < ln w) by (intros K; apply B5; unfold w, w'; specialize (Q' K); lra). clearbody w w'.
  rewrite ln_eq_iff in R1 by rpos. rewrite ln_eq_iff in R2 by rpos. revert R1 R2. ln_push. intros R1 R2.
  split; [lra|]. intros [K|[K|[K|[K|K]]]]; [specialize (B1 K)|specialize (S5 (or_introl K))|specialize (S5 (or_intror K))|specialize (B2 K)|specialize (C' (B' K))]; lra.
Qed.

(** Etemad-Shahidi et al.: also longer waves, deeper water, a wider toe and a steeper foreshore. *)
Theorem C78_etemad_shahidi_2021 : forall H H' T T' d d' ht ht' Bt Bt' m m' Nod Nod' rw rs rs' g,
  0 < H <= H' -> 0 < T <= T' -> 0 < d <= d' -> 0 < ht' <= ht -> 0 < Bt <= Bt' -> m <= m' -> m' < 1 / 3.7 -> 0 < Nod' <= Nod -> 0 < rw -> rw < rs' <= rs -> 0 < g ->
  grows (H < H' \/ T < T' \/ d < d' \/ ht' < ht \/ Bt < Bt' \/ m < m' \/ Nod' < Nod \/ rs' < rs)
    (value (ToeEtemad.diameter_d (Fin H) (Fin T) (Fin d) (Fin ht) (Fin Bt) (Fin Nod) (Fin m) (Fin rs) (Fin rw) (Fin g)))
    (value (ToeEtemad.diameter_d (Fin H') (Fin T') (Fin d') (Fin ht') (Fin Bt') (Fin Nod') (Fin m') (Fin rs') (Fin rw) (Fin g))).
Proof.
  intros H H' T T' d d' ht ht' Bt Bt' m m' Nod Nod' rw rs rs' g HH HT Hd Ht HB Hm Hm' HN Hw Hs Hg.
  assert (V : forall h t de x b k n r, 0 < h -> 0 < t -> 0 < de -> 0 < x -> 0 < b -> k < 1 / 3.7 -> 0 < n -> rw < r -> exists z, 0 < z
    /\ value (ToeEtemad.diameter_d (Fin h) (Fin t) (Fin de) (Fin x) (Fin b) (Fin n) (Fin k) (Fin r) (Fin rw) (Fin g)) = Ok (Fin (/ ((r / rw - 1) * (1.2 / h + z))))
    /\ ln z = ln 11.2 + 7 / 4 * (ln x - ln de) + 1 / 6 * (ln (2 * PI / g) - 2 * ln t) + 2 / 5 * ln n - 1 / 10 * ln b - 11 / 15 * ln h + ln (1 - 3.7 * k)).
  { intros h t de x b k n r P1 P2 P3 P4 P5 P6 P7 P8. pose proof (buoyant_pos r rw Hw P8) as B. assert (K : 0 < 1 - 3.7 * k) by lra. set (s := 2 * PI * h / (g * t ^ 2)). assert (PS : 0 < s) by (unfold s; rpos).
    set (w := 11.2 * Rpower (x / de) (7 / 4) * Rpower s (1 / 6) * Rpower n (2 / 5) * Rpower (b / h) (- (1 / 10)) * (1 - 3.7 * k)). assert (W : 0 < w) by (unfold w; rpos).
    exists (w / h). split; [rpos|]. split.
    - set (D := / ((r / rw - 1) * (1.2 / h + w / h))). unfold buoyant in B. assert (0 < w / h) by rpos. assert (0 < 1.2 / h) by rpos. assert (PD : 0 < D) by (unfold D; apply Rinv_0_lt_compat; apply Rmult_lt_0_compat; lra).
      destruct (ToeEtemad.C53_damage_and_diameter_agree_with_relation h t de x b k D n r rw g) as [_ E]; try assumption. fold s. unfold etemad2021, etemad2021_Ns. fold w. unfold D. set (e := r / rw - 1) in *. clearbody e w. field. repeat split; lra.
    - assert (0 < x / de) by rpos. assert (0 < b / h) by rpos. unfold w. set (kk := 1 - 3.7 * k) in *. clearbody kk. assert (LS : ln s = ln (2 * PI / g) - 2 * ln t + ln h).
      { unfold s. replace (2 * PI * h / (g * t ^ 2)) with (2 * PI / g * h / t ^ 2) by (field; lra). assert (0 < 2 * PI / g) by rpos. set (p := 2 * PI / g) in *. clearbody p. ln_push. simpl INR. lra. }
      clearbody s. set (lp := ln (2 * PI / g)) in *. clearbody lp. ln_push. rewrite LS. lra. }
  destruct (V H T d ht Bt m Nod rs) as (z & Z & -> & E); [lra..|]. destruct (V H' T' d' ht' Bt' m' Nod' rs') as (z' & Z' & -> & E'); [lra..|]. clear V.
  destruct (buoyant_le rs rs' rw Hw Hs) as [B B']. set (de := rs / rw - 1) in *. set (de' := rs' / rw - 1) in *. clearbody de de'.
  destruct (ln_le2 _ _ HH) as [A1 B1]. destruct (ln_le2 _ _ HT) as [A2 B2]. destruct (ln_le2 _ _ Hd) as [A3 B3]. destruct (ln_le2 _ _ Ht) as [A4 B4]. destruct (ln_le2 _ _ HB) as [A5 B5]. destruct (ln_le2 (1 - 3.7 * m') (1 - 3.7 * m) ltac:(lra)) as [A6 B6]. destruct (ln_le2 _ _ HN) as [A7 B7].
  assert (L : z' <= z) by (apply ln_le_iff; [assumption..|]; lra). assert (HI : 0 < 1.2 / H' <= 1.2 / H) by (split; [rpos|apply frac_le; lra]).
  assert (G : 0 < de' * (1.2 / H' + z') <= de * (1.2 / H + z)) by (split; [apply Rmult_lt_0_compat; lra|apply Rmult_le_compat; lra]).
  apply by_values. split; [split; [apply Rinv_0_lt_compat; lra|apply Rinv_le_contravar; lra]|]. intros K.
  assert (M : z' < z \/ de' < de).
  { destruct K as [K|[K|[K|[K|[K|[K|[K|K]]]]]]]; [left; specialize (B1 K)|left; specialize (B2 K)|left; specialize (B3 K)|left; specialize (B4 K)|left; specialize (B5 K)|left; specialize (B6 ltac:(lra))|left; specialize (B7 K)|right; exact (B' K)]; (apply ln_lt_iff; [assumption..|]; lra). }
  clear - M B G HI L Z'. apply Rinv_lt_contravar; [apply Rmult_lt_0_compat; lra|]. set (a := 1.2 / H) in *. set (a' := 1.2 / H') in *. clearbody a a'.
  destruct M as [M|M]; [apply Rle_lt_trans with (de * (a' + z')); [apply Rmult_le_compat_r; lra|apply Rmult_lt_compat_l; lra]|apply Rlt_le_trans with (de * (a' + z')); [apply Rmult_lt_compat_r; lra|apply Rmult_le_compat_l; lra]].
Qed.

(** Van Gent & Van der Werf: a wider or thicker toe needs larger stones. *)
Theorem C78_vangent_vanderwerf : forall H H' T ht ht' Bt Bt' tt tt' Nod Nod' rw rs rs' ca ca' g,
  0 < H <= H' -> 0 < T -> 0 < ht' <= ht -> 0 < Bt <= Bt' -> 0 < tt <= tt' -> 0 < Nod' <= Nod -> 0 < rw -> rw < rs' <= rs -> 0 < g ->
  grows (H < H' \/ ht' < ht \/ Bt < Bt' \/ tt < tt' \/ Nod' < Nod \/ rs' < rs)
    (value (VanGentVanderWerf2014.calculate_nominal_diameter_Dn50 (Fin H) (Fin T) (Fin ht) (Fin Bt) (Fin tt) (Fin Nod) (Fin rs) (Fin rw) ca (Fin g)))
    (value (VanGentVanderWerf2014.calculate_nominal_diameter_Dn50 (Fin H') (Fin T) (Fin ht') (Fin Bt') (Fin tt') (Fin Nod') (Fin rs') (Fin rw) ca' (Fin g))).
Proof.
  intros H H' T ht ht' Bt Bt' tt tt' Nod Nod' rw rs rs' ca ca' g HH HT Ht HB Htt HN Hw Hs Hg.
  set (c := 4 * PI ^ 2 / (g * T ^ 2)). assert (Pc : 0 < c) by (unfold c; rpos).
  assert (SI : forall x, 0 < x -> 0 < sinh x) by (intros x X; rewrite <- sinh_0; apply sinh_lt; exact X).
  assert (V : forall h x b t n r a, 0 < h -> 0 < x -> 0 < b -> 0 < t -> 0 < n -> rw < r -> exists D, 0 < D
    /\ value (VanGentVanderWerf2014.calculate_nominal_diameter_Dn50 (Fin h) (Fin T) (Fin x) (Fin b) (Fin t) (Fin n) (Fin r) (Fin rw) a (Fin g)) = Ok (Fin D)
    /\ 3 * ln D = ln 0.032 + ln t + 0.3 * ln b + 2.2 * ln h - 3 * ln (r / rw - 1) + ln PI - ln T - ln (sinh (c * x)) - / 2 * ln g - ln (1000 / 1024) - ln n).
  { intros h x b t n r a P1 P2 P3 P4 P5 P6. destruct (ToeVanGentVanderWerf.diameter_fin h T x b t r rw g a P1 HT P2 P3 P4 Hw P6 Hg n P5) as (D & HD & E & R1).
    exists D. split; [exact HD|]. split; [exact E|]. unfold vgvdw_Nod, vgvdw_velocity in R1. fold c in R1. pose proof (buoyant_pos r rw Hw P6) as B. unfold buoyant in B. set (e := r / rw - 1) in *. clearbody e.
    pose proof (SI (c * x) ltac:(rpos)) as S0. set (s := sinh (c * x)) in *. clearbody s. assert (0 < sqrt (g * h)) by rpos. assert (0 < h / (e * D)) by rpos. assert (0 < t / h) by rpos. assert (0 < b / h) by rpos. pose proof PI_RGT_0 as PP.
    set (kk := 1000 / 1024) in *. assert (0 < kk) by (unfold kk; lra). clearbody kk.
    rewrite ln_eq_iff in R1 by rpos. revert R1. ln_push. simpl INR. lra. }
  destruct (V H ht Bt tt Nod rs ca) as (D & HD & -> & E); [lra..|]. destruct (V H' ht' Bt' tt' Nod' rs' ca') as (D' & HD' & -> & E'); [lra..|]. clear V.
  apply by_logs; [assumption..|]. destruct (buoyant_le rs rs' rw Hw Hs) as [B B']. destruct (ln_le2 _ _ B) as [C C'].
  destruct (ln_le2 _ _ HH) as [A1 B1]. destruct (ln_le2 _ _ HB) as [A2 B2]. destruct (ln_le2 _ _ Htt) as [A3 B3]. destruct (ln_le2 _ _ HN) as [A4 B4].
  assert (Q : 0 < sinh (c * ht') <= sinh (c * ht) /\ (ht' < ht -> sinh (c * ht') < sinh (c * ht))).
  { assert (M : ht' < ht -> sinh (c * ht') < sinh (c * ht)) by (intros; apply sinh_lt; apply Rmult_lt_compat_l; lra). split; [|exact M]. split; [apply SI; apply Rmult_lt_0_compat; lra|].
    destruct Ht as [_ [L|L]]; [left; exact (M L)|rewrite L; apply Rle_refl]. }
  destruct Q as [Q Q']. destruct (ln_le2 _ _ Q) as [A5 B5]. split; [lra|].
  intros [K|[K|[K|[K|[K|K]]]]]; [specialize (B1 K)|specialize (B5 (Q' K))|specialize (B2 K)|specialize (B3 K)|specialize (B4 K)|specialize (C' (B' K))]; lra.
Qed.

(** ** Rear side *)
(** The run-up level grows with the height and the length of the waves, and is less on a gentler
    or rougher slope. *)
Lemma level_le ga ga' H H' T T' cot cot' : 0 < ga <= ga' -> 0 < H <= H' -> 0 < T <= T' -> 0 < cot' <= cot ->
  let z g h t k := g * h * vangent_curve 1.45 5.1 (iribarren g0 h t (1 / k)) in
  0 < z ga H T cot <= z ga' H' T' cot' /\ (ga < ga' \/ H < H' \/ T < T' \/ cot' < cot -> z ga H T cot < z ga' H' T' cot').
Proof.
  intros Hg HH HT Hc z. unfold z. pose proof g0_pos as G.
  assert (CP : forall h t k, 0 < h -> 0 < t -> 0 < k -> 0 < vangent_curve 1.45 5.1 (iribarren g0 h t (1 / k))) by (intros; apply curve_pos; [lra|lra|apply iribarren_pos; rpos]).
  (* the height *)
  assert (A : H * vangent_curve 1.45 5.1 (iribarren g0 H T (1 / cot)) <= H' * vangent_curve 1.45 5.1 (iribarren g0 H' T (1 / cot))
    /\ (H < H' -> H * vangent_curve 1.45 5.1 (iribarren g0 H T (1 / cot)) < H' * vangent_curve 1.45 5.1 (iribarren g0 H' T (1 / cot)))).
  { assert (M : H < H' -> H * vangent_curve 1.45 5.1 (iribarren g0 H T (1 / cot)) < H' * vangent_curve 1.45 5.1 (iribarren g0 H' T (1 / cot))) by (intros; apply (level_increasing T cot 1.45 5.1); lra).
    split; [|exact M]. destruct HH as [_ [L|<-]]; [left; exact (M L)|apply Rle_refl]. }
  (* the similarity parameter *)
  assert (X : 0 < iribarren g0 H' T (1 / cot) <= iribarren g0 H' T' (1 / cot') /\ (T < T' \/ cot' < cot -> iribarren g0 H' T (1 / cot) < iribarren g0 H' T' (1 / cot'))).
  { assert (PX : 0 < iribarren g0 H' T (1 / cot)) by (apply iribarren_pos; rpos). assert (PX' : 0 < iribarren g0 H' T' (1 / cot')) by (apply iribarren_pos; rpos).
    destruct (ln_le2 _ _ HT) as [A1 B1]. destruct (ln_le2 _ _ Hc) as [A2 B2]. split; [split; [exact PX|]; apply ln_le_iff; [assumption..|]; rewrite !ln_iribarren by lra; lra|].
    intros K. apply ln_lt_iff; [assumption..|]. rewrite !ln_iribarren by lra. destruct K as [K|K]; [specialize (B1 K)|specialize (B2 K)]; lra. }
  assert (C : vangent_curve 1.45 5.1 (iribarren g0 H' T (1 / cot)) <= vangent_curve 1.45 5.1 (iribarren g0 H' T' (1 / cot')) /\ (T < T' \/ cot' < cot -> vangent_curve 1.45 5.1 (iribarren g0 H' T (1 / cot)) < vangent_curve 1.45 5.1 (iribarren g0 H' T' (1 / cot')))).
  { destruct X as [X X']. set (x := iribarren g0 H' T (1 / cot)) in *. set (x' := iribarren g0 H' T' (1 / cot')) in *. clearbody x x'. assert (M : x < x' -> vangent_curve 1.45 5.1 x < vangent_curve 1.45 5.1 x') by (intros; apply curve_increasing; lra).
    split; [|intros K; exact (M (X' K))]. destruct X as [_ [L|<-]]; [left; exact (M L)|apply Rle_refl]. }
  pose proof (CP H T cot ltac:(lra) ltac:(lra) ltac:(lra)) as P1. pose proof (CP H' T cot ltac:(lra) ltac:(lra) ltac:(lra)) as P2.
  set (a := vangent_curve 1.45 5.1 (iribarren g0 H T (1 / cot))) in *. set (b := vangent_curve 1.45 5.1 (iribarren g0 H' T (1 / cot))) in *. set (c := vangent_curve 1.45 5.1 (iribarren g0 H' T' (1 / cot'))) in *. clearbody a b c. clear X CP.
  destruct A as [A A'], C as [C C'].
  assert (Q1 : 0 < H * a) by (apply Rmult_lt_0_compat; lra). assert (Q2 : H' * b <= H' * c) by (apply Rmult_le_compat_l; lra).
  rewrite !Rmult_assoc. split; [split; [apply Rmult_lt_0_compat; lra|apply Rmult_le_compat; lra]|].
  intros [K|[K|K]].
  - apply Rlt_le_trans with (ga' * (H * a)); [apply Rmult_lt_compat_r; lra|apply Rmult_le_compat_l; lra].
  - specialize (A' K). apply Rle_lt_trans with (ga' * (H * a)); [apply Rmult_le_compat_r; lra|apply Rmult_lt_compat_l; lra].
  - specialize (C' K). assert (H' * b < H' * c) by (apply Rmult_lt_compat_l; lra). apply Rle_lt_trans with (ga' * (H * a)); [apply Rmult_le_compat_r; lra|apply Rmult_lt_compat_l; lra].
Qed.
Lemma level_value ga H T cot : 0 < H -> 0 < T -> 0 < cot ->
  VanGent2001.calculate_wave_runup_height_z1p (Fin H) (Fin T) (Fin ga) (Fin cot) VanGent2001.z1p_c0 VanGent2001.z1p_c1 = Fin (ga * H * vangent_curve 1.45 5.1 (iribarren g0 H T (1 / cot))).
Proof. exact (RearVanGent.z1_fin H T ga cot). Qed.

(** Van Gent (2007): higher or longer waves, a steeper front, a gentler rear slope, a lower front
    edge and a higher rear edge of the crest element, a longer storm and less damage. The run-up
    reaches above the crest. *)
Theorem C78_rear_vangent2007 : forall cot cot' phi phi' ga ga' H H' T T' Rc front front' rear rear' N N' S S' z,
  0 < cot' <= cot -> 0 < phi <= phi' -> 0 < ga <= ga' -> 0 < H <= H' -> 0 < T <= T' -> 0 < Rc -> 0 <= front' <= front -> 0 <= rear <= rear' -> rear' < Rc -> 0 < N <= N' -> 0 < S' <= S ->
  VanGent2001.calculate_wave_runup_height_z1p (Fin H) (Fin T) (Fin ga) (Fin cot) VanGent2001.z1p_c0 VanGent2001.z1p_c1 = Fin z -> Rc < z ->
  grows (cot' < cot \/ phi < phi' \/ ga < ga' \/ H < H' \/ T < T' \/ front' < front \/ rear < rear' \/ N < N' \/ S' < S)
    (value (RearVanGent2007.calculate_nominal_rock_diameter_Dn50 (Fin cot) (Fin phi) (Fin ga) (Fin S) (Fin H) (Fin T) (Fin Rc) (Fin front) (Fin rear) (Fin N)))
    (value (RearVanGent2007.calculate_nominal_rock_diameter_Dn50 (Fin cot') (Fin phi') (Fin ga') (Fin S') (Fin H') (Fin T') (Fin Rc) (Fin front') (Fin rear') (Fin N'))).
Proof.
  intros cot cot' phi phi' ga ga' H H' T T' Rc front front' rear rear' N N' S S' z Hc Hp Hg HH HT HR Hf Hr Hr' HN HS Ez Lz.
  destruct (level_le ga ga' H H' T T' cot cot' Hg HH HT Hc) as [Z Z']. pose proof (level_value ga' H' T' cot' ltac:(lra) ltac:(lra) ltac:(lra)) as Ez'. rewrite level_value in Ez by lra. injection Ez as Ez. rewrite Ez in Z, Z'.
  set (z' := ga' * H' * vangent_curve 1.45 5.1 (iribarren g0 H' T' (1 / cot'))) in *.
  destruct (RearVanGent.C49_published_formulas cot phi ga T Rc front rear N H z) as [_ V]; try lra; [rewrite level_value by lra; f_equal; exact Ez|]. rewrite (V S) by lra. clear V.
  destruct (RearVanGent.C49_published_formulas cot' phi' ga' T' Rc front' rear' N' H' z') as [_ V]; try lra; [exact Ez'|]. rewrite (V S') by lra. clear V Ez Ez'. clearbody z'.
  unfold rear_diameter, rear_load.
  assert (Fr : 0 < 1 + front' / H' <= 1 + front / H /\ (front' < front -> 1 + front' / H' < 1 + front / H)).
  { assert (0 <= front' / H') by (apply Rmult_le_pos; [lra|left; apply Rinv_0_lt_compat; lra]). pose proof (frac_le front front' H H' ltac:(lra) ltac:(lra)). split; [lra|]. intros K.
    assert (front' / H < front / H) by (unfold Rdiv; apply Rmult_lt_compat_r; [apply Rinv_0_lt_compat|]; lra). pose proof (frac_le front' front' H H' ltac:(lra) ltac:(lra)). lra. }
  assert (Re : 0 < 1 + 5 * rear / (Rc - rear) <= 1 + 5 * rear' / (Rc - rear') /\ (rear < rear' -> 1 + 5 * rear / (Rc - rear) < 1 + 5 * rear' / (Rc - rear'))).
  { assert (0 <= 5 * rear / (Rc - rear)) by (apply Rmult_le_pos; [lra|left; apply Rinv_0_lt_compat; lra]). pose proof (frac_le (5 * rear') (5 * rear) (Rc - rear') (Rc - rear) ltac:(lra) ltac:(lra)). split; [lra|]. intros K.
    assert (5 * rear / (Rc - rear') < 5 * rear' / (Rc - rear')) by (unfold Rdiv; apply Rmult_lt_compat_r; [apply Rinv_0_lt_compat|]; lra). pose proof (frac_le (5 * rear) (5 * rear) (Rc - rear') (Rc - rear) ltac:(lra) ltac:(lra)). lra. }
  destruct Fr as [F F'], Re as [E E']. set (f := 1 + front / H) in *. set (f' := 1 + front' / H') in *. set (e := 1 + 5 * rear / (Rc - rear)) in *. set (e' := 1 + 5 * rear' / (Rc - rear')) in *. clearbody f f' e e'.
  assert (D1 : 0 < z - Rc <= z' - Rc) by lra. destruct (ln_le2 _ _ D1) as [A1 B1]. destruct (ln_le2 _ _ F) as [A2 B2]. destruct (ln_le2 _ _ E) as [A3 B3]. destruct (ln_le2 _ _ Hp) as [A4 B4]. destruct (ln_le2 _ _ HN) as [A5 B5]. destruct (ln_le2 _ _ HS) as [A6 B6].
  set (y := z - Rc) in *. set (y' := z' - Rc) in *. assert (BZ : cot' < cot \/ ga < ga' \/ H < H' \/ T < T' -> ln y < ln y') by (intros K; apply B1; assert (z < z') by (apply Z'; tauto); unfold y, y'; lra). clearbody y y'.
  assert (0 < y) by lra. assert (0 < y') by lra. assert (0 < phi) by lra. assert (0 < phi') by lra. assert (0 < e) by lra. assert (0 < e') by lra. assert (0 < f) by lra. assert (0 < f') by lra. assert (0 < N) by lra. assert (0 < N') by lra. assert (0 < S) by lra. assert (0 < S') by lra. assert (0 < sqrt N) by rpos. assert (0 < sqrt N') by rpos.
  assert (0 < sqrt Rc) by rpos. assert (0 < Rpower phi 1.25 * y ^ 2 * sqrt Rc * e / f) by rpos. assert (0 < Rpower phi' 1.25 * y' ^ 2 * sqrt Rc * e' / f') by rpos. assert (0 < S / sqrt N) by rpos. assert (0 < S' / sqrt N') by rpos.
  apply by_logs; [rpos|rpos|]. ln_push. simpl INR. split; [lra|].
  intros [K|[K|[K|[K|[K|[K|[K|[K|K]]]]]]]];
    [assert (ln y < ln y') by (apply BZ; tauto)|specialize (B4 K)|assert (ln y < ln y') by (apply BZ; tauto)|assert (ln y < ln y') by (apply BZ; tauto)|assert (ln y < ln y') by (apply BZ; tauto)|specialize (B2 (F' K))|specialize (B3 (E' K))|specialize (B5 K)|specialize (B6 K)]; lra.
Qed.

(** Van Gent & Pozueta (2004): higher or longer waves, a steeper front, a *steeper* rear slope, a
    lower and narrower and smoother crest, a lower rear side, a longer storm, less damage, lighter stones. *)
Theorem C78_rear_pozueta : forall cot cot' phi phi' gf gc gc' H H' T T' Rc Rc' rear rear' B B' N N' S S' rw rs rs' cs cs' z,
  0 < cot' <= cot -> 0 < phi' <= phi -> 0 < gf -> 0 < gc <= gc' -> 0 < H <= H' -> 0 < T <= T' -> Rc' <= Rc -> 0 <= rear' <= rear -> 0 <= B' <= B -> 0 < N <= N' -> 0 < S' <= S ->
  0 < rw -> rw < rs' <= rs -> 0 < cs <= cs' ->
  VanGent2001.calculate_wave_runup_height_z1p (Fin H) (Fin T) (Fin gf) (Fin cot) VanGent2001.z1p_c0 VanGent2001.z1p_c1 = Fin z -> Rc < z ->
  grows (cot' < cot \/ phi' < phi \/ gc < gc' \/ H < H' \/ T < T' \/ Rc' < Rc \/ rear' < rear \/ B' < B \/ N < N' \/ S' < S \/ rs' < rs \/ cs < cs')
    (value (RearVanGentPozueta2004.calculate_nominal_rock_diameter_Dn50 (Fin cot) (Fin phi) (Fin gf) (Fin gc) (Fin S) (Fin H) (Fin T) (Fin Rc) (Fin rear) (Fin B) (Fin rs) (Fin N) (Fin rw) (Fin cs)))
    (value (RearVanGentPozueta2004.calculate_nominal_rock_diameter_Dn50 (Fin cot') (Fin phi') (Fin gf) (Fin gc') (Fin S') (Fin H') (Fin T') (Fin Rc') (Fin rear') (Fin B') (Fin rs') (Fin N') (Fin rw) (Fin cs'))).
Proof.
  intros cot cot' phi phi' gf gc gc' H H' T T' Rc Rc' rear rear' B B' N N' S S' rw rs rs' cs cs' z Hc Hp Hf Hg HH HT HR Hr HB HN HS Hw Hs Hcs Ez Lz.
  destruct (level_le gf gf H H' T T' cot cot' ltac:(lra) HH HT Hc) as [Z Z']. pose proof (level_value gf H' T' cot' ltac:(lra) ltac:(lra) ltac:(lra)) as Ez'. pose proof Ez as Ez0. rewrite level_value in Ez by lra. injection Ez as Ez. rewrite Ez in Z, Z'.
  set (z' := gf * H' * vangent_curve 1.45 5.1 (iribarren g0 H' T' (1 / cot'))) in *.
  assert (V : forall k p gg h t r re b n s rr c y, 0 < k -> 0 < p -> 0 < gg -> 0 < h -> 0 < t -> 0 <= b -> 0 < n -> 0 < s -> rw < rr -> 0 < c -> r < y ->
    VanGent2001.calculate_wave_runup_height_z1p (Fin h) (Fin t) (Fin gf) (Fin k) VanGent2001.z1p_c0 VanGent2001.z1p_c1 = Fin y -> exists D, 0 < D
    /\ value (RearVanGentPozueta2004.calculate_nominal_rock_diameter_Dn50 (Fin k) (Fin p) (Fin gf) (Fin gg) (Fin s) (Fin h) (Fin t) (Fin r) (Fin re) (Fin b) (Fin rr) (Fin n) (Fin rw) (Fin c)) = Ok (Fin D)
    /\ ln D = ln 1.7 + / 2 * (ln g0 + ln gg - ln gf) + / 2 * ln (y - r) - ln (1 + 0.1 * b / h) + ln t - / 2 * ln (rr / rw - 1) + 1 / 6 * (ln c - 2.5 * ln p + ln (1 + 10 * exp (- (re / h))) - ln s + / 2 * ln n)).
  { intros k p gg h t r re b n s rr c y P1 P2 P3 P4 P5 P6 P7 P8 P9 P10 P11 Ey. pose proof (RearPozueta.u_pos h y r b gf gg P4 P11 P6 Hf P3) as PU.
    set (u := crest_velocity 1.7 0.1 g0 h y r b gf gg) in *. pose proof (buoyant_pos rr rw Hw P9) as PD. unfold buoyant in PD.
    assert (LU : ln u = ln 1.7 + / 2 * (ln g0 + ln gg - ln gf) + / 2 * ln (y - r) - ln (1 + 0.1 * b / h)).
    { unfold u, crest_velocity. pose proof g0_pos. assert (0 <= 0.1 * b / h) by rpos. assert (0 < 1 + 0.1 * b / h) by lra. set (w := 1 + 0.1 * b / h) in *. clearbody w. assert (0 < y - r) by lra. set (v := y - r) in *. clearbody v. assert (0 < g0 * gg / gf) by rpos. ln_push. lra. }
    set (l := ln u + ln t - / 2 * ln (rr / rw - 1) + 1 / 6 * (ln c - 2.5 * ln p + ln (1 + 10 * exp (- (re / h))) - ln s + / 2 * ln n)).
    exists (exp l). split; [apply exp_pos|]. rewrite ln_exp. split; [|unfold l; rewrite LU; lra].
    refine (proj1 (proj2 (proj1 (RearPozueta.C50_functions_agree_with_relation k p gf gg h t r re b n (exp l) NaN rr rw c y s P1 P2 Hf P3 P4 P5 P6 P7 (exp_pos l) Hw P9 P10 P8 Ey P11) _))).
    fold u. apply RearPozueta.pozueta_log; try assumption; try apply exp_pos. rewrite ln_exp. unfold l. lra. }
  destruct (V cot phi gc H T Rc rear B N S rs cs z) as (D & HD & -> & E); try lra; [exact Ez0|]. destruct (V cot' phi' gc' H' T' Rc' rear' B' N' S' rs' cs' z') as (D' & HD' & -> & E'); try lra; [exact Ez'|]. clear V Ez Ez0 Ez'. clearbody z'.
  apply by_logs; [assumption..|].
  assert (Cw : 0 < 1 + 0.1 * B' / H' <= 1 + 0.1 * B / H /\ (B' < B -> 1 + 0.1 * B' / H' < 1 + 0.1 * B / H)).
  { assert (0 <= 0.1 * B' / H') by (apply Rmult_le_pos; [lra|left; apply Rinv_0_lt_compat; lra]). pose proof (frac_le (0.1 * B) (0.1 * B') H H' ltac:(lra) ltac:(lra)). split; [lra|]. intros K.
    assert (0.1 * B' / H < 0.1 * B / H) by (unfold Rdiv; apply Rmult_lt_compat_r; [apply Rinv_0_lt_compat|]; lra). pose proof (frac_le (0.1 * B') (0.1 * B') H H' ltac:(lra) ltac:(lra)). lra. }
  assert (Re : 0 < 1 + 10 * exp (- (rear / H)) <= 1 + 10 * exp (- (rear' / H')) /\ (rear' < rear -> 1 + 10 * exp (- (rear / H)) < 1 + 10 * exp (- (rear' / H')))).
  { pose proof (frac_le rear rear' H H' ltac:(lra) ltac:(lra)) as Q. pose proof (exp_pos (- (rear / H))). pose proof (exp_le (- (rear / H)) (- (rear' / H')) ltac:(lra)). split; [lra|]. intros K.
    assert (rear' / H < rear / H) by (unfold Rdiv; apply Rmult_lt_compat_r; [apply Rinv_0_lt_compat|]; lra). pose proof (frac_le rear' rear' H H' ltac:(lra) ltac:(lra)). pose proof (exp_increasing (- (rear / H)) (- (rear' / H')) ltac:(lra)). lra. }
  destruct Cw as [F F'], Re as [G G']. set (f := 1 + 0.1 * B / H) in *. set (f' := 1 + 0.1 * B' / H') in *. set (e := 1 + 10 * exp (- (rear / H))) in *. set (e' := 1 + 10 * exp (- (rear' / H'))) in *. clearbody f f' e e'.
  destruct (buoyant_le rs rs' rw Hw Hs) as [Bu Bu']. destruct (ln_le2 _ _ Bu) as [C C']. set (de := rs / rw - 1) in *. set (de' := rs' / rw - 1) in *. clearbody de de'.
  assert (D1 : 0 < z - Rc <= z' - Rc') by lra. destruct (ln_le2 _ _ D1) as [A1 B1]. destruct (ln_le2 _ _ F) as [A2 B2]. destruct (ln_le2 _ _ G) as [A3 B3]. destruct (ln_le2 _ _ Hp) as [A4 B4]. destruct (ln_le2 _ _ HN) as [A5 B5]. destruct (ln_le2 _ _ HS) as [A6 B6]. destruct (ln_le2 _ _ Hg) as [A7 B7]. destruct (ln_le2 _ _ HT) as [A8 B8]. destruct (ln_le2 _ _ Hcs) as [A9 B9].
  assert (BZ : cot' < cot \/ H < H' \/ T < T' \/ Rc' < Rc -> ln (z - Rc) < ln (z' - Rc')).
  { intros K. apply B1. assert (ZZ : z < z' \/ Rc' < Rc) by tauto. clear - ZZ Z HR. lra. }
  rewrite E, E'. clear E E' Z Z' B1. set (lz := ln (z - Rc)) in *. set (lz' := ln (z' - Rc')) in *. clearbody lz lz'.
  split; [clear - A1 A2 A3 A4 A5 A6 A7 A8 A9 C; lra|].
  intros K. assert (M : lz < lz' \/ ln phi' < ln phi \/ ln gc < ln gc' \/ ln T < ln T' \/ ln e < ln e' \/ ln f' < ln f \/ ln N < ln N' \/ ln S' < ln S \/ ln de' < ln de \/ ln cs < ln cs') by tauto.
  clear - A1 A2 A3 A4 A5 A6 A7 A8 A9 C M. destruct M as [M|[M|[M|[M|[M|[M|[M|[M|[M|M]]]]]]]]]; lra.
Qed.

(** The two formulas for the rear side disagree about the rear slope: a gentler one asks for
    larger stones in the formula of 2007 and for smaller ones in that of 2004. *)
Theorem C78_rear_slope_disagrees : forall cot phi phi' ga gc H T Rc front rear B N S rw rs cs z,
  0 < cot -> 0 < phi < phi' -> 0 < ga -> 0 < gc -> 0 < H -> 0 < T -> 0 < Rc -> 0 <= front -> 0 <= rear < Rc -> 0 <= B -> 0 < N -> 0 < S -> 0 < rw < rs -> 0 < cs ->
  VanGent2001.calculate_wave_runup_height_z1p (Fin H) (Fin T) (Fin ga) (Fin cot) VanGent2001.z1p_c0 VanGent2001.z1p_c1 = Fin z -> Rc < z ->
  larger (value (RearVanGent2007.calculate_nominal_rock_diameter_Dn50 (Fin cot) (Fin phi) (Fin ga) (Fin S) (Fin H) (Fin T) (Fin Rc) (Fin front) (Fin rear) (Fin N)))
         (value (RearVanGent2007.calculate_nominal_rock_diameter_Dn50 (Fin cot) (Fin phi') (Fin ga) (Fin S) (Fin H) (Fin T) (Fin Rc) (Fin front) (Fin rear) (Fin N)))
  /\ larger (value (RearVanGentPozueta2004.calculate_nominal_rock_diameter_Dn50 (Fin cot) (Fin phi') (Fin ga) (Fin gc) (Fin S) (Fin H) (Fin T) (Fin Rc) (Fin rear) (Fin B) (Fin rs) (Fin N) (Fin rw) (Fin cs)))
            (value (RearVanGentPozueta2004.calculate_nominal_rock_diameter_Dn50 (Fin cot) (Fin phi) (Fin ga) (Fin gc) (Fin S) (Fin H) (Fin T) (Fin Rc) (Fin rear) (Fin B) (Fin rs) (Fin N) (Fin rw) (Fin cs))).
Proof.
  intros cot phi phi' ga gc H T Rc front rear B N S rw rs cs z Hc Hp Hg Hgc HH HT HR Hf Hr HB HN HS Hw Hcs Ez Lz. split.
  - destruct (C78_rear_vangent2007 cot cot phi phi' ga ga H H T T Rc front front rear rear N N S S z) as [_ G]; try lra; [assumption|]. apply G. tauto.
  - destruct (C78_rear_pozueta cot cot phi' phi ga gc gc H H T T Rc Rc rear rear B B N N S S rw rs rs cs cs z) as [_ G]; try lra; [assumption|]. apply G. tauto.
Qed.
(** Nor does a lower crest always ask for larger stones in the formula of 2007: very low crests
    ask for small ones. *)
Theorem C78_rear_lower_crest_refuted : exists Rc Rc', 0 < Rc' < Rc
  /\ larger (value (RearVanGent2007.calculate_nominal_rock_diameter_Dn50 (Fin 2) (Fin 2) (Fin 0.5) (Fin 2) (Fin 2) (Fin 6) (Fin Rc') (Fin 0) (Fin 0) (Fin 1000)))
            (value (RearVanGent2007.calculate_nominal_rock_diameter_Dn50 (Fin 2) (Fin 2) (Fin 0.5) (Fin 2) (Fin 2) (Fin 6) (Fin Rc) (Fin 0) (Fin 0) (Fin 1000))).
Proof.
  pose proof (level_value 0.5 2 6 2 ltac:(lra) ltac:(lra) ltac:(lra)) as Ez. destruct (level_le 0.5 0.5 2 2 6 6 2 2) as [Z _]; [lra..|]. cbv beta zeta in Z. set (z := 0.5 * 2 * vangent_curve 1.45 5.1 (iribarren g0 2 6 (1 / 2))) in *. destruct Z as [Z _]. clearbody z.
  exists (z / 4), (z / 100). split; [lra|].
  destruct (RearVanGent.C49_published_formulas 2 2 0.5 6 (z / 4) 0 0 1000 2 z) as [_ V]; try lra; [exact Ez|]. rewrite (V 2) by lra. clear V.
  destruct (RearVanGent.C49_published_formulas 2 2 0.5 6 (z / 100) 0 0 1000 2 z) as [_ V]; try lra; [exact Ez|]. rewrite (V 2) by lra. clear V Ez.
  do 2 eexists. split; [reflexivity|]. split; [reflexivity|]. unfold rear_diameter, rear_load.
  assert (Q1 : sqrt (z / 4) = sqrt z / 2) by (rewrite sqrt_div by lra; f_equal; replace 4 with (2 * 2) by lra; apply sqrt_square; lra).
  assert (Q2 : sqrt (z / 100) = sqrt z / 10) by (rewrite sqrt_div by lra; f_equal; replace 100 with (10 * 10) by lra; apply sqrt_square; lra).
  rewrite Q1, Q2. assert (W : 0 < sqrt z) by (apply sqrt_lt_R0; exact Z). set (w := sqrt z) in *. clearbody w. assert (P : 0 < Rpower 2 1.25) by apply exp_pos. set (p := Rpower 2 1.25) in *. clearbody p. assert (ZZ : 0 < z ^ 2) by (apply pow_lt; exact Z).
  replace (p * (z - z / 100) ^ 2 * (w / 10) * (1 + 5 * 0 / (z / 100 - 0)) / (1 + 0 / 2)) with (0.09801 * (p * (z ^ 2 * w))) by (dec; field; lra).
  replace (p * (z - z / 4) ^ 2 * (w / 2) * (1 + 5 * 0 / (z / 4 - 0)) / (1 + 0 / 2)) with (0.28125 * (p * (z ^ 2 * w))) by (dec; field; lra).
  assert (Y : 0 < p * (z ^ 2 * w)) by rpos. set (y := p * (z ^ 2 * w)) in *. clearbody y.
  assert (0 < Rpower (2 / sqrt 1000) (- (0.4))) by apply exp_pos. pose proof (Rlt_Rpower_l (0.09801 * y) (0.28125 * y) 0.4 ltac:(lra) ltac:(lra)). pose proof (exp_pos (0.4 * ln (0.09801 * y))). fold (Rpower (0.09801 * y) 0.4) in *.
  set (k := Rpower (2 / sqrt 1000) (- (0.4))) in *. set (a := Rpower (0.09801 * y) 0.4) in *. set (b := Rpower (0.28125 * y) 0.4) in *. clearbody k a b.
  split; [|apply Rmult_lt_compat_r; [assumption|lra]]. apply Rmult_lt_0_compat; lra.
Qed.

(** Waves of 2 m and of 3 m on a breakwater: the armour, and the toe by two formulas. *)
Example C78_example :
  larger (value (VanderMeer1988.calculate_nominal_rock_diameter_Dn50 (Fin 2) (Fin 2.8) (Fin 8) (Fin 2000) (Fin 2) (Fin 0.4) (Fin 2650) (Fin 2) VanderMeer1988.c_pl_default VanderMeer1988.c_s_default (Fin 1025)))
         (value (VanderMeer1988.calculate_nominal_rock_diameter_Dn50 (Fin 3) (Fin 4.2) (Fin 8) (Fin 2000) (Fin 2) (Fin 0.4) (Fin 2650) (Fin 2) VanderMeer1988.c_pl_default VanderMeer1988.c_s_default (Fin 1025)))
  /\ larger (value (VanderMeer1998.calculate_nominal_diameter_Dn50 (Fin 2) (Fin 3) (Fin 6) (Fin 0.5) (Fin 2650) (Fin 1025)))
            (value (VanderMeer1998.calculate_nominal_diameter_Dn50 (Fin 3) (Fin 3) (Fin 6) (Fin 0.5) (Fin 2650) (Fin 1025)))
  /\ larger (value (VanGentVanderWerf2014.calculate_nominal_diameter_Dn50 (Fin 2) (Fin 8) (Fin 3) (Fin 3) (Fin 1.5) (Fin 0.5) (Fin 2650) (Fin 1025) NaN (Fin 9.81)))
            (value (VanGentVanderWerf2014.calculate_nominal_diameter_Dn50 (Fin 3) (Fin 8) (Fin 3) (Fin 3) (Fin 1.5) (Fin 0.5) (Fin 2650) (Fin 1025) NaN (Fin 9.81))).
Proof.
  split; [|split].
  - destruct (C78_vandermeer1988 8 2 0.4 1025 8.7 1.4 2 3 1.4 1.4 2 2 2000 2000 2650 2650) as [_ G]; [lra..|]. replace 2.8 with (1.4 * 2) by lra. replace 4.2 with (1.4 * 3) by lra. apply G. lra.
  - destruct (C78_vandermeer1998 2 3 3 3 6 6 0.5 0.5 1025 2650 2650) as [_ G]; [lra..|]. apply G. lra.
  - destruct (C78_vangent_vanderwerf 2 3 8 3 3 3 3 1.5 1.5 0.5 0.5 1025 2650 2650 NaN NaN 9.81) as [_ G]; [lra..|]. apply G. lra.
Qed.
