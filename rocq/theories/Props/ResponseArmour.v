(** Property C78: larger waves ask for larger stones. *)
From Coq Require Import Reals Lra Lia List Bool String ZArith.
From Verif.Lib Require Import Num Monad RTac NTac.
From Verif.Spec Require Import Waves Rock Armour Response.
From Verif.Model Require Import CoreUtility CorePhysics Hudson1959 HudsonUnits VanderMeer1988 VanderMeer1988Modified.
From Verif.Proofs Require Import Core CheckTac VdM Stones.
From Verif.Props Require Hudson RockVdM RockScaravaglione RockJumelet ConcreteUnits.
From Verif.Props Require Import ResponseVanGent.
Open Scope R_scope.

Lemma by_logs (P : Prop) x y : 0 < x -> 0 < y -> ln x <= ln y /\ (P -> ln x < ln y) -> grows P (Ok (Fin x)) (Ok (Fin y)).
Proof.
  intros X Y [A B]. apply by_values. split; [split; [exact X|apply ln_le_iff; assumption]|]. intros p. apply ln_lt_iff; [assumption..|]. apply B. exact p.
Qed.
Lemma buoyant_le rs rs' rw : 0 < rw -> rw < rs' <= rs -> 0 < rs' / rw - 1 <= rs / rw - 1 /\ (rs' < rs -> rs' / rw - 1 < rs / rw - 1).
Proof.
  intros W [A B]. pose proof (buoyant_pos rs' rw W A). unfold buoyant in *. assert (0 < / rw) by rpos. unfold Rdiv in *. split; [split; [lra|]|intros]; nra.
Qed.
Lemma ln_le2 x y : 0 < x <= y -> ln x <= ln y /\ (x < y -> ln x < ln y).
Proof. intros L. split; [apply ln_le_mono; lra|]. intros. apply ln_increasing; lra. Qed.

(** ** Van der Meer *)
Section VanderMeer.
Variables (T cot P rw cp cs H H' r r' S S' N N' rs rs' : R).
Hypotheses (HT : 0 < T) (Hc : 0 < cot) (HP : 0 < P) (Hrw : 0 < rw) (Hcp : 0 < cp) (Hcs : 0 < cs).
Hypotheses (HH : 0 < H <= H') (Hr : 0 < r <= r') (HS : 0 < S' <= S) (HN : 0 < N <= N') (Hrs : rw < rs' <= rs).

(** Higher waves, a larger 2% height, less allowed damage, a longer storm, lighter stones. *)
Theorem C78_vandermeer1988 :
  grows (H < H' \/ r < r' \/ S' < S \/ rs' < rs)
    (value (VanderMeer1988.calculate_nominal_rock_diameter_Dn50 (Fin H) (Fin (r * H)) (Fin T) (Fin N) (Fin cot) (Fin P) (Fin rs) (Fin S) (Fin cp) (Fin cs) (Fin rw)))
    (value (VanderMeer1988.calculate_nominal_rock_diameter_Dn50 (Fin H') (Fin (r' * H')) (Fin T) (Fin N') (Fin cot) (Fin P) (Fin rs') (Fin S') (Fin cp) (Fin cs) (Fin rw))).
Proof.
  destruct (RockVdM.C43_diameter_total H T N cot P rs rw cp cs r S) as (D & HD & E); [lra..|].
  destruct (RockVdM.C43_diameter_total H' T N' cot P rs' rw cp cs r' S') as (D' & HD' & E'); [lra..|].
  destruct (RockVdM.C43_functions_agree_with_relation H D T N cot P rs rw cp cs r S NaN) as (_ & V & _); try assumption; try lra.
  destruct (RockVdM.C43_functions_agree_with_relation H' D' T N' cot P rs' rw cp cs r' S' NaN) as (_ & V' & _); try assumption; try lra.
  rewrite V, V'. apply by_values. destruct (buoyant_le rs rs' rw Hrw Hrs) as [B B'].
  pose proof (RockVdM.storm_pos N ltac:(lra)) as P1. pose proof (RockVdM.storm_increasing N N' ltac:(lra) ltac:(lra)) as P2.
  assert (Q : 0 < S' / vdm_storm N' <= S / vdm_storm N) by (split; [apply Rdiv_lt_0_compat; lra|apply frac_le; lra]).
  assert (Q' : S' < S -> S' / vdm_storm N' < S / vdm_storm N).
  { intros L. apply Rle_lt_trans with (S' / vdm_storm N); [apply frac_le; lra|]. unfold Rdiv. apply Rmult_lt_compat_r; [apply Rinv_0_lt_compat|]; lra. }
  destruct (stones_grow cp cs P cot g0 T (rs / rw - 1) (rs' / rw - 1) D D' H H' r r' (S / vdm_storm N) (S' / vdm_storm N')) as [G1 G2]; try assumption; try apply g0_pos.
  split; [lra|]. intros K. apply G2. tauto.
Qed.
Theorem C78_vandermeer1988_modified :
  grows (H < H' \/ r < r' \/ S' < S \/ N < N' \/ rs' < rs)
    (value (VanderMeer1988Modified.calculate_nominal_rock_diameter_Dn50 (Fin H) (Fin (r * H)) (Fin T) (Fin N) (Fin cot) (Fin P) (Fin rs) (Fin S) (Fin cp) (Fin cs) (Fin rw)))
    (value (VanderMeer1988Modified.calculate_nominal_rock_diameter_Dn50 (Fin H') (Fin (r' * H')) (Fin T) (Fin N') (Fin cot) (Fin P) (Fin rs') (Fin S') (Fin cp) (Fin cs) (Fin rw))).
Proof.
  destruct (RockVdM.C44_any_two_determine_the_third T N cot P rs rw cp cs r) as (_ & X & _); [lra..|]. destruct (X H S) as (D & HD & E); [lra..|]. clear X.
  destruct (RockVdM.C44_any_two_determine_the_third T N' cot P rs' rw cp cs r') as (_ & X & _); [lra..|]. destruct (X H' S') as (D' & HD' & E'); [lra..|]. clear X.
  destruct (RockVdM.C44_modified_functions_agree_with_relation H D T N cot P rs rw cp cs r S NaN) as (_ & V & _); try assumption; try lra.
  destruct (RockVdM.C44_modified_functions_agree_with_relation H' D' T N' cot P rs' rw cp cs r' S' NaN) as (_ & V' & _); try assumption; try lra.
  rewrite V, V'. apply by_values. destruct (buoyant_le rs rs' rw Hrw Hrs) as [B B'].
  assert (P1 : 0 < sqrt N) by (apply sqrt_lt_R0; lra). assert (P2 : sqrt N <= sqrt N') by (apply sqrt_le_1; lra).
  assert (P3 : N < N' -> sqrt N < sqrt N') by (intros; apply sqrt_lt_1; lra).
  assert (Q : 0 < S' / sqrt N' <= S / sqrt N) by (split; [apply Rdiv_lt_0_compat; lra|apply frac_le; lra]).
  assert (Q' : S' < S \/ N < N' -> S' / sqrt N' < S / sqrt N).
  { intros [L|L].
    - apply Rle_lt_trans with (S' / sqrt N); [apply frac_le; lra|]. unfold Rdiv. apply Rmult_lt_compat_r; [apply Rinv_0_lt_compat|]; lra.
    - apply Rlt_le_trans with (S' / sqrt N); [|apply frac_le; lra]. specialize (P3 L). unfold Rdiv. apply Rmult_lt_compat_l; [lra|]. apply Rinv_lt_contravar; [apply Rmult_lt_0_compat|]; lra. }
  destruct (stones_grow cp cs P cot g0 T (rs / rw - 1) (rs' / rw - 1) D D' H H' r r' (S / sqrt N) (S' / sqrt N')) as [G1 G2]; try assumption; try apply g0_pos.
  split; [lra|]. intros K. apply G2. tauto.
Qed.
End VanderMeer.

(** The formula of 2021 has its own water density. *)
Theorem C78_vandermeer2021 : forall T cot P cp cs mp ms H H' S S' N N' rs rs',
  0 < T -> 0 < cot -> 0 < P -> 0 < cp -> 0 < cs -> 0 < mp -> 0 < ms -> 0 < H <= H' -> 0 < S' <= S -> 0 < N <= N' -> 1025 < rs' <= rs ->
  grows (H < H' \/ S' < S \/ N < N' \/ rs' < rs)
    (value (VanderMeer1988Modified.nominal_rock_diameter_Dn50_2021 (Fin H) (Fin T) (Fin N) (Fin cot) (Fin P) (Fin rs) (Fin S) (Fin cp) (Fin cs) (Fin mp) (Fin ms)))
    (value (VanderMeer1988Modified.nominal_rock_diameter_Dn50_2021 (Fin H') (Fin T) (Fin N') (Fin cot) (Fin P) (Fin rs') (Fin S') (Fin cp) (Fin cs) (Fin mp) (Fin ms))).
Proof.
  intros T cot P cp cs mp ms H H' S S' N N' rs rs' HT Hc HP Hcp Hcs Hmp Hms HH HS HN Hrs.
  destruct (RockVdM.C44_2021_is_the_modified_formula (Fin H) (Fin T) (Fin N) (Fin cot) (Fin P) (Fin rs) NaN NaN (Fin S) (Fin cp) (Fin cs) (Fin mp) (Fin ms) NaN) as (_ & -> & _).
  destruct (RockVdM.C44_2021_is_the_modified_formula (Fin H') (Fin T) (Fin N') (Fin cot) (Fin P) (Fin rs') NaN NaN (Fin S') (Fin cp) (Fin cs) (Fin mp) (Fin ms) NaN) as (_ & -> & _).
  rewrite !nmul_fin. pose proof (C78_vandermeer1988_modified T cot P 1025 (cp * mp) (cs * ms) H H' 1 1 S S' N N' rs rs' HT Hc HP ltac:(lra) ltac:(rpos) ltac:(rpos) HH ltac:(lra) HS HN Hrs) as G.
  rewrite !Rmult_1_l in G. destruct G as [G1 G2]. split; [exact G1|]. intros K. apply G2. tauto.
Qed.

(** *** Period and slope *)
Definition stones1988 (cp cs H r T N cot P rs rw S : R) : res num :=
  value (VanderMeer1988.calculate_nominal_rock_diameter_Dn50 (Fin H) (Fin (r * H)) (Fin T) (Fin N) (Fin cot) (Fin P) (Fin rs) (Fin S) (Fin cp) (Fin cs) (Fin rw)).
Definition stones_modified (cp cs H r T N cot P rs rw S : R) : res num :=
  value (VanderMeer1988Modified.calculate_nominal_rock_diameter_Dn50 (Fin H) (Fin (r * H)) (Fin T) (Fin N) (Fin cot) (Fin P) (Fin rs) (Fin S) (Fin cp) (Fin cs) (Fin rw)).
Section Values.
Variables (cp cs H r T N cot P rs rw S : R).
Hypotheses (Hcp : 0 < cp) (Hcs : 0 < cs) (HH : 0 < H) (Hr : 0 < r) (HT : 0 < T) (HN : 0 < N) (Hc : 0 < cot) (HP : 0 < P) (Hrw : 0 < rw) (Hrs : rw < rs) (HS : 0 < S).
Lemma stones1988_value : exists D, 0 < D /\ stones1988 cp cs H r T N cot P rs rw S = Ok (Fin D) /\ vdm cp cs P cot (iribarren g0 H T (1 / cot)) (rs / rw - 1) D H r (S / vdm_storm N).
Proof.
  destruct (RockVdM.C43_diameter_total H T N cot P rs rw cp cs r S) as (D & HD & E); [lra..|]. exists D. split; [exact HD|]. split; [|exact E].
  destruct (RockVdM.C43_functions_agree_with_relation H D T N cot P rs rw cp cs r S NaN) as (_ & V & _); try assumption; try lra.
Qed.
Lemma stones_modified_value : exists D, 0 < D /\ stones_modified cp cs H r T N cot P rs rw S = Ok (Fin D) /\ vdm cp cs P cot (iribarren g0 H T (1 / cot)) (rs / rw - 1) D H r (S / sqrt N).
Proof.
  destruct (RockVdM.C44_any_two_determine_the_third T N cot P rs rw cp cs r) as (_ & X & _); [lra..|]. destruct (X H S) as (D & HD & E); [lra..|].
  exists D. split; [exact HD|]. split; [|exact E].
  destruct (RockVdM.C44_modified_functions_agree_with_relation H D T N cot P rs rw cp cs r S NaN) as (_ & V & _); try assumption; try lra.
Qed.
End Values.

(** On slopes steeper than 1:4 longer waves ask for larger stones as long as they plunge, and for
    smaller ones once they surge. *)
Definition peaks_at_transition (stones : R -> R -> R -> R -> R -> R -> R -> R -> R -> R -> R -> res num) : Prop :=
  forall cp cs H r T T' N cot P rs rw S,
    0 < cp -> 0 < cs -> 0 < H -> 0 < r -> 0 < T < T' -> 0 < N -> 0 < cot < 4 -> 0 < P -> 0 < rw < rs -> 0 < S ->
    (iribarren g0 H T' (1 / cot) <= xi_critical cp cs P cot -> larger (stones cp cs H r T N cot P rs rw S) (stones cp cs H r T' N cot P rs rw S))
    /\ (xi_critical cp cs P cot <= iribarren g0 H T (1 / cot) -> larger (stones cp cs H r T' N cot P rs rw S) (stones cp cs H r T N cot P rs rw S)).
Theorem C78_vandermeer_period : peaks_at_transition stones1988 /\ peaks_at_transition stones_modified.
Proof.
  split; intros cp cs H r T T' N cot P rs rw S Hcp Hcs HH Hr HT HN Hc HP Hrs HS; pose proof (buoyant_pos rs rw ltac:(lra) ltac:(lra)) as B; unfold buoyant in B.
  - pose proof (RockVdM.storm_pos N HN) as SP. assert (0 < S / vdm_storm N) by rpos.
    destruct (stones1988_value cp cs H r T N cot P rs rw S) as (D & HD & V & E); [lra..|]. destruct (stones1988_value cp cs H r T' N cot P rs rw S) as (D' & HD' & V' & E'); [lra..|].
    destruct (stones_period cp cs P cot g0 (rs / rw - 1) H r (S / vdm_storm N) T T' D D') as [G1 G2]; try assumption; try apply g0_pos; try lra.
    rewrite V, V'. split; intros K; [specialize (G1 K); exists D, D'|specialize (G2 K); exists D', D]; repeat split; lra.
  - assert (0 < S / sqrt N) by rpos.
    destruct (stones_modified_value cp cs H r T N cot P rs rw S) as (D & HD & V & E); [lra..|]. destruct (stones_modified_value cp cs H r T' N cot P rs rw S) as (D' & HD' & V' & E'); [lra..|].
    destruct (stones_period cp cs P cot g0 (rs / rw - 1) H r (S / sqrt N) T T' D D') as [G1 G2]; try assumption; try apply g0_pos; try lra.
    rewrite V, V'. split; intros K; [specialize (G1 K); exists D, D'|specialize (G2 K); exists D', D]; repeat split; lra.
Qed.
(** A gentler slope asks for smaller stones, the permeability being less than a half and both slopes
    on the same side of 1:4. *)
Definition falls_with_slope (stones : R -> R -> R -> R -> R -> R -> R -> R -> R -> R -> R -> res num) : Prop :=
  forall cp cs H r T N cot cot' P rs rw S,
    0 < cp -> 0 < cs -> 0 < H -> 0 < r -> 0 < T -> 0 < N -> 0 < cot < cot' -> cot' < 4 \/ 4 <= cot -> 0 < P < 1 / 2 -> 0 < rw < rs -> 0 < S ->
    larger (stones cp cs H r T N cot' P rs rw S) (stones cp cs H r T N cot P rs rw S).
Theorem C78_vandermeer_slope : falls_with_slope stones1988 /\ falls_with_slope stones_modified.
Proof.
  split; intros cp cs H r T N cot cot' P rs rw S Hcp Hcs HH Hr HT HN Hc Hc' HP Hrs HS; pose proof (buoyant_pos rs rw ltac:(lra) ltac:(lra)) as B; unfold buoyant in B.
  - pose proof (RockVdM.storm_pos N HN) as SP. assert (0 < S / vdm_storm N) by rpos.
    destruct (stones1988_value cp cs H r T N cot P rs rw S) as (D & HD & V & E); [lra..|]. destruct (stones1988_value cp cs H r T N cot' P rs rw S) as (D' & HD' & V' & E'); [lra..|].
    pose proof (stones_slope cp cs P cot cot' g0 (rs / rw - 1) H r (S / vdm_storm N) T D D' Hcp Hcs HP Hc Hc' g0_pos HT B HD HD' HH Hr ltac:(assumption) E E') as G.
    rewrite V, V'. exists D', D. repeat split; lra.
  - assert (0 < S / sqrt N) by rpos.
    destruct (stones_modified_value cp cs H r T N cot P rs rw S) as (D & HD & V & E); [lra..|]. destruct (stones_modified_value cp cs H r T N cot' P rs rw S) as (D' & HD' & V' & E'); [lra..|].
    pose proof (stones_slope cp cs P cot cot' g0 (rs / rw - 1) H r (S / sqrt N) T D D' Hcp Hcs HP Hc Hc' g0_pos HT B HD HD' HH Hr ltac:(assumption) E E') as G.
    rewrite V, V'. exists D', D. repeat split; lra.
Qed.

(** A numerical handle on the similarity parameter of waves of 1 m. *)
Lemma xi_at T cot x : 0 < T -> 0 < cot -> 0 < x -> x * cot < T -> x < iribarren g0 1 T (1 / cot).
Proof.
  intros HT Hc Hx L. unfold iribarren. pose proof g0_pos.
  assert (S : 0 < steepness g0 1 T < / T ^ 2).
  { split; [apply steepness_pos; lra|]. unfold steepness. pose proof PI_4 as U. unfold g0 in *. assert (0 < T ^ 2) by (apply pow_lt; lra).
    replace (2 * PI * 1 / (9.81 * T ^ 2)) with ((2 * PI / 9.81) * / T ^ 2) by (field; lra). assert (0 < / T ^ 2) by rpos. assert (2 * PI / 9.81 < 1) by lra. nra. }
  assert (Q : sqrt (steepness g0 1 T) < / T).
  { replace (/ T) with (sqrt (/ T ^ 2)); [apply sqrt_lt_1; lra|]. replace (/ T ^ 2) with (/ T * / T) by (field; lra). rewrite sqrt_square; [reflexivity|]. left. rpos. }
  assert (Q0 : 0 < sqrt (steepness g0 1 T)) by (apply sqrt_lt_R0; lra). set (q := sqrt (steepness g0 1 T)) in *. clearbody q.
  apply Rlt_trans with (1 / cot / / T).
  - replace (1 / cot / / T) with (T / cot) by (field; lra). apply (Rmult_lt_reg_r cot); [lra|]. replace (T / cot * cot) with T by (field; lra). lra.
  - unfold Rdiv. apply Rmult_lt_compat_l; [rpos|]. apply Rinv_lt_contravar; [apply Rmult_lt_0_compat; [lra|rpos]|lra].
Qed.

Lemma critical_below P cot : 0.5 <= P -> P <= 1 -> 1 <= cot -> xi_critical 8.7 1.4 P cot <= 6.22.
Proof.
  intros P0 P1 C. unfold xi_critical. assert (A : 0 < Rpower P 0.31 <= 1).
  { split; [apply exp_pos|]. rewrite <- (Rpower_1_base 0.31). apply Rle_Rpower_l; lra. }
  assert (B : 0 < sqrt (1 / cot) <= 1).
  { assert (0 < 1 / cot) by rpos. split; [apply sqrt_lt_R0; assumption|]. apply Rle_trans with (sqrt 1); [|rewrite sqrt_1; lra]. apply sqrt_le_1; [lra|lra|]. apply (Rmult_le_reg_r cot); [lra|]. replace (1 / cot * cot) with 1 by (field; lra). lra. }
  set (a := Rpower P 0.31) in *. set (b := sqrt (1 / cot)) in *. clearbody a b. assert (0 < a * b <= 1) by (split; [apply Rmult_lt_0_compat; lra|]; rewrite <- (Rmult_1_l 1); apply Rmult_le_compat; lra).
  assert (Q : 0 < 8.7 / 1.4 * a * b <= 6.22) by (rewrite Rmult_assoc; lra). set (y := 8.7 / 1.4 * a * b) in *. clearbody y.
  assert (E : 0 < 1 / (P + 0.5) <= 1).
  { assert (0 < 1 / (P + 0.5)) by rpos. split; [assumption|]. apply (Rmult_le_reg_r (P + 0.5)); [lra|]. replace (1 / (P + 0.5) * (P + 0.5)) with 1 by (field; lra). lra. }
  set (e := 1 / (P + 0.5)) in *. clearbody e. apply Rle_trans with (Rpower 6.22 e); [apply Rle_Rpower_l; lra|].
  rewrite <- (Rpower_1 6.22) at 2 by lra. apply Rle_Rpower; lra.
Qed.
(** Longer waves do not always ask for larger stones. *)
Theorem C78_longer_waves_larger_stones_refuted :
  exists T T', 0 < T < T' /\ larger (stones1988 8.7 1.4 1 1.4 T' 2000 1.5 0.5 2650 1025 2) (stones1988 8.7 1.4 1 1.4 T 2000 1.5 0.5 2650 1025 2).
Proof.
  exists 10, 12. split; [lra|]. destruct C78_vandermeer_period as [Q _]. destruct (Q 8.7 1.4 1 1.4 10 12 2000 1.5 0.5 2650 1025 2) as [_ G]; [lra..|]. apply G.
  pose proof (critical_below 0.5 1.5 ltac:(lra) ltac:(lra) ltac:(lra)). pose proof (xi_at 10 1.5 6.22 ltac:(lra) ltac:(lra) ltac:(lra) ltac:(lra)). lra.
Qed.
(** Nor does a gentler slope always allow smaller ones: not on a permeable structure, and not
    where the code changes to the plunging formula at 1:4. *)
Theorem C78_gentler_slope_smaller_stones_refuted :
  (exists cot cot', 0 < cot < cot' /\ cot' < 4 /\ larger (stones1988 8.7 1.4 1 1.4 13 2000 cot 0.6 2650 1025 2) (stones1988 8.7 1.4 1 1.4 13 2000 cot' 0.6 2650 1025 2))
  /\ (exists cot cot', 0 < cot < cot' /\ larger (stones1988 8.7 1.4 1 1.4 16 2000 cot 0.4 2650 1025 2) (stones1988 8.7 1.4 1 1.4 16 2000 cot' 0.4 2650 1025 2)).
Proof.
  pose proof (RockVdM.storm_pos 2000 ltac:(lra)) as SP. assert (SD : 0 < 2 / vdm_storm 2000) by rpos. split.
  - exists 1.5, 2. split; [lra|]. split; [lra|].
    destruct (stones1988_value 8.7 1.4 1 1.4 13 2000 1.5 0.6 2650 1025 2) as (D & HD & V & E); [lra..|]. destruct (stones1988_value 8.7 1.4 1 1.4 13 2000 2 0.6 2650 1025 2) as (D' & HD' & V' & E'); [lra..|].
    pose proof (critical_below 0.6 1.5 ltac:(lra) ltac:(lra) ltac:(lra)). pose proof (xi_at 13 1.5 6.22 ltac:(lra) ltac:(lra) ltac:(lra) ltac:(lra)).
    pose proof (critical_below 0.6 2 ltac:(lra) ltac:(lra) ltac:(lra)). pose proof (xi_at 13 2 6.22 ltac:(lra) ltac:(lra) ltac:(lra) ltac:(lra)).
    pose proof (stones_slope_permeable 8.7 1.4 0.6 1.5 2 g0 (2650 / 1025 - 1) 1 1.4 (2 / vdm_storm 2000) 13 D D' ltac:(lra) ltac:(lra) ltac:(lra) ltac:(lra) ltac:(lra) g0_pos ltac:(lra) ltac:(lra) HD HD' ltac:(lra) ltac:(lra) SD ltac:(lra) ltac:(lra) E E').
    rewrite V, V'. exists D, D'. repeat split; assumption.
  - exists 3, 4. split; [lra|].
    destruct (stones1988_value 8.7 1.4 1 1.4 16 2000 3 0.4 2650 1025 2) as (D & HD & V & E); [lra..|]. destruct (stones1988_value 8.7 1.4 1 1.4 16 2000 4 0.4 2650 1025 2) as (D' & HD' & V' & E'); [lra..|].
    rewrite V, V'. exists D, D'. split; [reflexivity|]. split; [reflexivity|]. split; [assumption|].
    pose proof (xi_at 16 3 5 ltac:(lra) ltac:(lra) ltac:(lra) ltac:(lra)) as X1. pose proof (xi_at 16 4 3.9 ltac:(lra) ltac:(lra) ltac:(lra) ltac:(lra)) as X2.
    apply vdm_log in E; try lra. apply vdm_log in E'; try lra. destruct E as (A & c & C & -> & E), E' as (A' & c' & C' & -> & E').
    apply ln_increasing in X1; [|lra]. apply ln_increasing in X2; [|lra].
    set (x := ln (iribarren g0 1 16 (1 / 3))) in *. set (x' := ln (iribarren g0 1 16 (1 / 4))) in *.
    assert (LP : ln 0.4 < 0) by (rewrite <- ln_1; apply ln_increasing; lra).
    assert (L1 : 10 * (ln 8.7 - ln 1.4) - 5 * ln 3 < 9 * ln 5).
    { assert (K : ln (8.7 ^ 10) < ln (1.4 ^ 10 * 3 ^ 5 * 5 ^ 9)) by (apply ln_increasing; simpl; lra). revert K. ln_push. simpl INR. lra. }
    assert (L2 : 10 * (ln 8.7 - ln 1.4) - 5 * ln 3 < 5 * ln 3.9 + 4 * ln 5).
    { assert (K : ln (8.7 ^ 10) < ln (1.4 ^ 10 * 3 ^ 5 * 3.9 ^ 5 * 5 ^ 4)) by (apply ln_increasing; simpl; lra). revert K. ln_push. simpl INR. lra. }
    apply ln_lt_iff; [assumption..|]. destruct E as [([R1|R1] & E)|(R1 & E)]; [exfalso; lra|exfalso; lra|]. destruct E' as [(R2 & E')|(R2 & E')]; [|exfalso; lra]. rewrite E, E'. lra.
Qed.
