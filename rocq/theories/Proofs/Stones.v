(** How the stone size of the Van der Meer relations responds to waves, damage, density,
    period and slope. *)
From Coq Require Import Reals Lra Psatz.
From Verif.Lib Require Import Num RTac.
From Verif.Spec Require Import Waves Rock Response.
From Verif.Proofs Require Import Core VdM.
Open Scope R_scope.

(** The relation in logarithms. *)
Lemma vdm_log cp cs P cot x De D H r d : 0 < cp -> 0 < cs -> 0 < P -> 0 < cot -> 0 < x -> 0 < De -> 0 < D -> 0 < H -> 0 < r -> 0 < d ->
  vdm cp cs P cot x De D H r d ->
  exists A c, (P + 0.5) * c = ln cp - ln cs + 0.31 * ln P - / 2 * ln cot /\ A = ln cp + 0.18 * ln P
    /\ ((ln x < c \/ 4 <= cot) /\ ln D = ln r - ln De - 0.2 * ln d + ln H - A + / 2 * ln x
        \/ (c <= ln x /\ cot < 4) /\ ln D = ln r - ln De - 0.2 * ln d + ln H - A + (P + 0.5) * c - P * ln x).
Proof.
  intros Hcp Hcs HP Hc Hx HDe HD HH Hr Hd E. exists (ln cp + 0.18 * ln P), (ln (xi_critical cp cs P cot)).
  pose proof (ln_xc cp cs P cot Hcp Hcs HP Hc) as C. pose proof (xc_pos cp cs P cot) as CP. unfold xc in C, CP. set (k := xi_critical cp cs P cot) in *.
  split; [exact C|]. split; [reflexivity|]. unfold vdm, plunging in E. fold k in E.
  destruct E as [(R1 & E)|(R1 & E)]; [left|right].
  - split; [destruct R1 as [R1|R1]; [left; apply ln_increasing; assumption|right; exact R1]|].
    unfold vdm_plunging in E. rewrite ln_eq_iff in E by rpos. revert E. ln_push. lra.
  - apply Decidable.not_or in R1. destruct R1 as [R1 R2]. split; [split; [apply ln_le_mono; [assumption|lra]|lra]|].
    unfold vdm_surging in E. rewrite ln_eq_iff in E by rpos. revert E. ln_push. rewrite C. lra.
Qed.
Lemma ln_iribarren g H T cot : 0 < g -> 0 < H -> 0 < T -> 0 < cot -> ln (iribarren g H T (1 / cot)) = ln T - ln cot - / 2 * (ln (2 * PI / g) + ln H).
Proof.
  intros. pose proof (ln_xi cot g T ltac:(assumption) ltac:(assumption) ltac:(assumption) H ltac:(assumption)) as E. unfold xi in E. rewrite E. unfold VdM.K.
  replace (2 * PI / (g * T ^ 2)) with (2 * PI / g / T ^ 2) by (field; lra). assert (0 < 2 * PI / g) by rpos. set (k := 2 * PI / g) in *. clearbody k. ln_push. simpl INR. lra.
Qed.
Lemma ln_le x y : 0 < x <= y -> ln x <= ln y.
Proof. intros. apply ln_le_mono; lra. Qed.

(** Higher waves, a larger 2% height, less damage, lighter stones: larger stones. *)
Lemma stones_grow cp cs P cot g T De De' D D' H H' r r' d d' :
  0 < cp -> 0 < cs -> 0 < P -> 0 < cot -> 0 < g -> 0 < T -> 0 < De' <= De -> 0 < D -> 0 < D' -> 0 < H <= H' -> 0 < r <= r' -> 0 < d' <= d ->
  vdm cp cs P cot (iribarren g H T (1 / cot)) De D H r d -> vdm cp cs P cot (iribarren g H' T (1 / cot)) De' D' H' r' d' ->
  D <= D' /\ (H < H' \/ r < r' \/ d' < d \/ De' < De -> D < D').
Proof.
  intros Hcp Hcs HP Hc Hg HT HDe HD HD' HH Hr Hd E E'.
  assert (X : forall h, 0 < h -> 0 < iribarren g h T (1 / cot)) by (intros; apply iribarren_pos; rpos).
  apply vdm_log in E; try lra; [|apply X; lra]. apply vdm_log in E'; try lra; [|apply X; lra].
  rewrite ln_iribarren in E by lra. rewrite ln_iribarren in E' by lra.
  destruct E as (A & c & C & -> & E), E' as (A' & c' & C' & -> & E'). assert (c' = c) as -> by (apply (Rmult_eq_reg_l (P + 0.5)); lra).
  pose proof (ln_le De' De HDe). pose proof (ln_le H H' HH). pose proof (ln_le r r' Hr). pose proof (ln_le d' d Hd).
  assert (S1 : H < H' -> ln H < ln H') by (intros; apply ln_increasing; lra). assert (S2 : r < r' -> ln r < ln r') by (intros; apply ln_increasing; lra).
  assert (S3 : d' < d -> ln d' < ln d) by (intros; apply ln_increasing; lra). assert (S4 : De' < De -> ln De' < ln De) by (intros; apply ln_increasing; lra).
  assert (G : ln D <= ln D' /\ (ln H < ln H' \/ ln r < ln r' \/ ln d' < ln d \/ ln De' < ln De -> ln D < ln D')).
  { set (h := ln H) in *. set (h' := ln H') in *. clearbody h h'. assert (0 <= P * (h' - h)) by (apply Rmult_le_pos; lra).
    assert (Q : ln D' - ln D >= (ln r' - ln r) + (ln De - ln De') + 0.2 * (ln d - ln d') + / 2 * (h' - h)).
    { destruct E as [(R1 & E)|(R1 & E)], E' as [(R2 & E')|(R2 & E')]; rewrite E, E'.
      - lra.
      - exfalso. lra.
      - destruct R2 as [R2|R2]; [|lra]. set (x := ln T - ln cot - / 2 * (ln (2 * PI / g) + h)) in *. set (x' := ln T - ln cot - / 2 * (ln (2 * PI / g) + h')) in *.
        assert (x - x' = / 2 * (h' - h)) by (unfold x, x'; lra). assert (0 <= P * (x - c)) by (apply Rmult_le_pos; lra). nra.
      - nra. }
    split; [lra|]. intros [K|[K|[K|K]]]; lra. }
  destruct G as [G1 G2]. split; [apply ln_le_iff; lra|]. intros K. apply ln_lt_iff; [lra..|]. apply G2. tauto.
Qed.

(** On a slope steeper than 1:4 the stones are largest for waves at the
    transition between plunging and surging. *)
Lemma stones_period cp cs P cot g De H r d T T' D D' :
  0 < cp -> 0 < cs -> 0 < P -> 0 < cot < 4 -> 0 < g -> 0 < T -> T < T' -> 0 < De -> 0 < D -> 0 < D' -> 0 < H -> 0 < r -> 0 < d ->
  vdm cp cs P cot (iribarren g H T (1 / cot)) De D H r d -> vdm cp cs P cot (iribarren g H T' (1 / cot)) De D' H r d ->
  (iribarren g H T' (1 / cot) <= xi_critical cp cs P cot -> D < D')
  /\ (xi_critical cp cs P cot <= iribarren g H T (1 / cot) -> D' < D).
Proof.
  intros Hcp Hcs HP Hc Hg HT LT HDe HD HD' HH Hr Hd E E'.
  assert (X : forall t, 0 < t -> 0 < iribarren g H t (1 / cot)) by (intros; apply iribarren_pos; rpos).
  apply vdm_log in E; try lra; [|apply X; lra]. apply vdm_log in E'; try lra; [|apply X; lra].
  destruct E as (A & c & C & -> & E), E' as (A' & c' & C' & -> & E'). assert (c' = c) as -> by (apply (Rmult_eq_reg_l (P + 0.5)); lra).
  pose proof (ln_xc cp cs P cot Hcp Hcs HP ltac:(lra)) as CC. pose proof (xc_pos cp cs P cot) as CP. unfold xc in CC, CP.
  assert (ln (xi_critical cp cs P cot) = c) as EC by (apply (Rmult_eq_reg_l (P + 0.5)); lra). set (k := xi_critical cp cs P cot) in *.
  assert (LX : ln (iribarren g H T (1 / cot)) < ln (iribarren g H T' (1 / cot))).
  { rewrite !ln_iribarren by lra. pose proof (ln_increasing T T' HT LT). lra. }
  pose proof (X T HT) as X1. pose proof (X T' ltac:(lra)) as X2. set (x := iribarren g H T (1 / cot)) in *. set (x' := iribarren g H T' (1 / cot)) in *.
  split; intros L; (apply ln_lt_iff; [assumption..|]).
  - assert (ln x' <= c) by (rewrite <- EC; apply ln_le; lra).
    destruct E as [(R1 & E)|(R1 & E)]; [|exfalso; lra]. destruct E' as [(R2 & E')|(R2 & E')]; rewrite E, E'; [lra|].
    assert (ln x' = c) as -> by lra. lra.
  - assert (c <= ln x) by (rewrite <- EC; apply ln_le; lra).
    destruct E as [(R1 & E)|(R1 & E)]; [exfalso; lra|]. destruct E' as [(R2 & E')|(R2 & E')]; [exfalso; lra|]; rewrite E, E'.
    assert (0 < P * (ln x' - ln x)) by (apply Rmult_lt_0_compat; lra). lra.
Qed.

(** Gentler slopes, the permeability below a half and the slopes on one side of 1:4: smaller stones. *)
Lemma stones_slope cp cs P cot cot' g De H r d T D D' :
  0 < cp -> 0 < cs -> 0 < P < 1 / 2 -> 0 < cot < cot' -> cot' < 4 \/ 4 <= cot -> 0 < g -> 0 < T -> 0 < De -> 0 < D -> 0 < D' -> 0 < H -> 0 < r -> 0 < d ->
  vdm cp cs P cot (iribarren g H T (1 / cot)) De D H r d -> vdm cp cs P cot' (iribarren g H T (1 / cot')) De D' H r d ->
  D' < D.
Proof.
  intros Hcp Hcs HP Hc Hs Hg HT HDe HD HD' HH Hr Hd E E'.
  assert (X : forall t, 0 < t -> 0 < iribarren g H T (1 / t)) by (intros; apply iribarren_pos; rpos).
  apply vdm_log in E; try lra; [|apply X; lra]. apply vdm_log in E'; try lra; [|apply X; lra].
  rewrite ln_iribarren in E by lra. rewrite ln_iribarren in E' by lra.
  destruct E as (A & c & C & -> & E), E' as (A' & c' & C' & -> & E'). pose proof (ln_increasing cot cot' ltac:(lra) ltac:(lra)) as L.
  apply ln_lt_iff; [assumption..|]. set (q := ln T - / 2 * (ln (2 * PI / g) + ln H)) in *.
  replace (ln T - ln cot - / 2 * (ln (2 * PI / g) + ln H)) with (q - ln cot) in E by (unfold q; lra).
  replace (ln T - ln cot' - / 2 * (ln (2 * PI / g) + ln H)) with (q - ln cot') in E' by (unfold q; lra). clearbody q.
  set (l := ln cot) in *. set (l' := ln cot') in *. clearbody l l'.
  set (a := ln cp - ln cs + 0.31 * ln P) in *. clearbody a.
  assert (DC : (P + 0.5) * (c - c') = / 2 * (l' - l)) by lra.
  destruct E as [(R1 & E)|(R1 & E)], E' as [(R2 & E')|(R2 & E')]; rewrite E, E'.
  - lra.
  - (* from plunging to surging on a gentler slope: not possible *) exfalso. destruct R1 as [R1|R1]; [|lra]. nra.
  - destruct R2 as [R2|R2]; [|lra]. rewrite C. nra.
  - rewrite C, C'. nra.
Qed.
(** With a permeability above a half a gentler slope asks for larger stones, once the waves surge. *)
Lemma stones_slope_permeable cp cs P cot cot' g De H r d T D D' :
  0 < cp -> 0 < cs -> 1 / 2 < P -> 0 < cot < cot' -> cot' < 4 -> 0 < g -> 0 < T -> 0 < De -> 0 < D -> 0 < D' -> 0 < H -> 0 < r -> 0 < d ->
  xi_critical cp cs P cot <= iribarren g H T (1 / cot) -> xi_critical cp cs P cot' <= iribarren g H T (1 / cot') ->
  vdm cp cs P cot (iribarren g H T (1 / cot)) De D H r d -> vdm cp cs P cot' (iribarren g H T (1 / cot')) De D' H r d ->
  D < D'.
Proof.
  intros Hcp Hcs HP Hc Hs Hg HT HDe HD HD' HH Hr Hd R1 R2 E E'.
  assert (X : forall t, 0 < t -> 0 < iribarren g H T (1 / t)) by (intros; apply iribarren_pos; rpos).
  unfold vdm, plunging in E, E'. destruct E as [([K|K] & E)|(_ & E)]; [lra|lra|]. destruct E' as [([K|K] & E')|(_ & E')]; [lra|lra|].
  pose proof (X cot ltac:(lra)) as X1. pose proof (X cot' ltac:(lra)) as X2.
  unfold vdm_surging in E, E'. rewrite ln_eq_iff in E by rpos. rewrite ln_eq_iff in E' by rpos. revert E E'. ln_push. rewrite !ln_iribarren by lra.
  pose proof (ln_increasing cot cot' ltac:(lra) ltac:(lra)) as L. intros E E'. apply ln_lt_iff; [assumption..|]. nra.
Qed.
