(** Property C51: Gerding (1993). *)
From Coq Require Import Reals Lra List Bool.
From Verif.Lib Require Import Num Monad RTac NTac.
From Verif.Spec Require Import Waves Toe.
From Verif.Model Require Import CoreUtility CorePhysics Gerding1993.
From Verif.Proofs Require Import Core CheckTac.
Open Scope R_scope.

Lemma checks ht h D : value (check_validity ht h D) = Ok tt.
Proof. unfold check_validity. mchecks. reflexivity. Qed.

Lemma solve_Hs De Hs ht Dn50 Nod : 0 < De -> 0 < Dn50 ->
  gerding De Hs ht Dn50 Nod -> Hs = (0.24 * ht + 1.6 * Dn50) * Rpower Nod 0.15 * De.
Proof.
  intros ? ? E. unfold gerding in E.
  transitivity (Hs / (De * Dn50) * (De * Dn50)); [rfld|]. rewrite E. rfld.
Qed.

(** On every point of the published relation, each of the four functions
    returns the corresponding coordinate, whatever the water depth h. *)
Theorem C51_functions_agree_with_relation :
  forall Hs ht Dn50 Nod rs rw (h : num),
    0 < Hs -> 0 <= ht -> 0 < Dn50 -> 0 < Nod -> 0 < rw -> rw < rs ->
    gerding (rs / rw - 1) Hs ht Dn50 Nod ->
    value (calculate_damage_Nod (Fin Hs) (Fin ht) h (Fin Dn50) (Fin rs) (Fin rw)) = Ok (Fin Nod)
    /\ value (calculate_nominal_diameter_Dn50 (Fin Hs) (Fin ht) h (Fin Nod) (Fin rs) (Fin rw)) = Ok (Fin Dn50)
    /\ value (calculate_wave_height_Hs (Fin Dn50) (Fin ht) h (Fin Nod) (Fin rs) (Fin rw)) = Ok (Fin Hs)
    /\ value (calculate_depth_above_toe_ht (Fin Hs) (Fin Dn50) h (Fin Nod) (Fin rs) (Fin rw)) = Ok (Fin ht).
Proof.
  intros * HHs Hht HD HN Hw Hsw E.
  pose proof (buoyant_pos rs rw Hw Hsw) as HDe.
  fold (buoyant rs rw) in E. set (De := buoyant rs rw) in *.
  assert (HP : 0 < Rpower Nod 0.15) by rpos.
  assert (HF : 0 < 1.6 + 0.24 * (ht / Dn50)) by (assert (0 <= ht / Dn50) by rpos; lra).
  assert (HDD : 0 < De * Dn50) by rpos.
  pose proof (solve_Hs De Hs ht Dn50 Nod HDe HD E) as EH. unfold gerding in E.
  unfold calculate_damage_Nod, calculate_nominal_diameter_Dn50, calculate_wave_height_Hs,
    calculate_depth_above_toe_ht.
  rewrite !Delta_fin by lra. fold De.
  repeat split; mval; rewrite checks; nfin; mval; do 2 f_equal.
  - rewrite E.
    replace ((0.24 * (ht / Dn50) + 1.6) * Rpower Nod 0.15 / (1.6 + 0.24 * (ht / Dn50)))
      with (Rpower Nod 0.15) by (field; lra).
    apply Rpower_cancel; [assumption|]. rfld.
  - rewrite EH. rfld.
  - rewrite EH. rfld.
  - rewrite EH. rfld.
Qed.

(** The damage and wave-height functions are defined for all positive inputs
    and their results lie on the published relation. *)
Theorem C51_damage_total :
  forall Hs ht Dn50 rs rw (h : num),
    0 < Hs -> 0 <= ht -> 0 < Dn50 -> 0 < rw -> rw < rs ->
    exists Nod, 0 < Nod
      /\ value (calculate_damage_Nod (Fin Hs) (Fin ht) h (Fin Dn50) (Fin rs) (Fin rw)) = Ok (Fin Nod)
      /\ gerding (rs / rw - 1) Hs ht Dn50 Nod.
Proof.
  intros. pose proof (buoyant_pos rs rw) as HDe.
  assert (0 < buoyant rs rw) by auto.
  assert (HF : 0 < 0.24 * (ht / Dn50) + 1.6) by (assert (0 <= ht / Dn50) by rpos; lra).
  set (N := Rpower ((Hs / (buoyant rs rw * Dn50)) / (0.24 * (ht / Dn50) + 1.6)) (1 / 0.15)).
  assert (G : gerding (rs / rw - 1) Hs ht Dn50 N).
  { unfold gerding. fold (buoyant rs rw). unfold N.
    rewrite Rpower_cancel; [rfld| rpos |rfld]. }
  assert (0 < N) by (unfold N; rpos).
  exists N. repeat split; [assumption| |assumption].
  apply (C51_functions_agree_with_relation Hs ht Dn50 N rs rw h); assumption.
Qed.

Theorem C51_wave_height_total :
  forall Nod ht Dn50 rs rw (h : num),
    0 < Nod -> 0 <= ht -> 0 < Dn50 -> 0 < rw -> rw < rs ->
    exists Hs, 0 < Hs
      /\ value (calculate_wave_height_Hs (Fin Dn50) (Fin ht) h (Fin Nod) (Fin rs) (Fin rw)) = Ok (Fin Hs)
      /\ gerding (rs / rw - 1) Hs ht Dn50 Nod.
Proof.
  intros. pose proof (buoyant_pos rs rw) as HDe.
  assert (0 < buoyant rs rw) by auto.
  set (H' := (0.24 * ht + 1.6 * Dn50) * Rpower Nod 0.15 * buoyant rs rw).
  assert (G : gerding (rs / rw - 1) H' ht Dn50 Nod).
  { unfold gerding. fold (buoyant rs rw). unfold H'. rfld. }
  assert (0 < H'). { unfold H'. assert (0 < 0.24 * ht + 1.6 * Dn50) by lra. rpos. }
  exists H'. repeat split; [assumption| |assumption].
  apply (C51_functions_agree_with_relation H' ht Dn50 Nod rs rw h); assumption.
Qed.

(** More wave height, smaller stones or a higher toe: more damage. *)
Theorem C51_damage_monotone :
  forall Hs1 Hs2 ht1 ht2 D1 D2 rs rw (h : num),
    0 < Hs1 -> Hs1 <= Hs2 -> 0 <= ht2 -> ht2 <= ht1 -> 0 < D2 -> D2 <= D1 ->
    (Hs1 < Hs2 \/ ht2 < ht1 \/ D2 < D1) -> 0 < rw -> rw < rs ->
    exists N1 N2,
      value (calculate_damage_Nod (Fin Hs1) (Fin ht1) h (Fin D1) (Fin rs) (Fin rw)) = Ok (Fin N1)
      /\ value (calculate_damage_Nod (Fin Hs2) (Fin ht2) h (Fin D2) (Fin rs) (Fin rw)) = Ok (Fin N2)
      /\ N1 < N2.
Proof.
  intros. 
  destruct (C51_damage_total Hs1 ht1 D1 rs rw h) as (N1 & P1 & V1 & G1); try lra.
  destruct (C51_damage_total Hs2 ht2 D2 rs rw h) as (N2 & P2 & V2 & G2); try lra.
  exists N1, N2. split; [assumption|]. split; [assumption|].
  pose proof (buoyant_pos rs rw) as HDe. assert (0 < buoyant rs rw) by auto.
  fold (buoyant rs rw) in G1, G2.
  apply solve_Hs in G1; try lra. apply solve_Hs in G2; try lra.
  destruct (Rlt_or_le N1 N2) as [|Hle]; [assumption|exfalso].
  assert (Rpower N2 0.15 <= Rpower N1 0.15) by (apply Rpower_le_base; lra).
  assert (0 < Rpower N2 0.15) by rpos. assert (0 < Rpower N1 0.15) by rpos.
  set (a1 := 0.24 * ht1 + 1.6 * D1) in *. set (a2 := 0.24 * ht2 + 1.6 * D2) in *.
  assert (0 < a2) by (unfold a2; lra). assert (a2 <= a1) by (unfold a1, a2; lra).
  assert (a2 * Rpower N2 0.15 <= a1 * Rpower N1 0.15) by nra.
  destruct H5 as [|[|]].
  - nra.
  - assert (a2 < a1) by (unfold a1, a2; lra).
    assert (a2 * Rpower N2 0.15 < a1 * Rpower N1 0.15) by nra. nra.
  - assert (a2 < a1) by (unfold a1, a2; lra).
    assert (a2 * Rpower N2 0.15 < a1 * Rpower N1 0.15) by nra. nra.
Qed.

(** A concrete toe: Hs=3, ht=4, Dn50=0.8, rs=2650, rw=1025 meets the
    hypotheses of the theorems above. *)
Example C51_example :
  exists N, 0 < N
    /\ value (calculate_damage_Nod #3 #4 #7 #0.8 #2650 #1025)%num = Ok (Fin N)
    /\ value (calculate_wave_height_Hs #0.8 #4 #7 (Fin N) #2650 #1025)%num = Ok (#3)%num.
Proof.
  destruct (C51_damage_total 3 4 0.8 2650 1025 #7%num) as (N & P & V & G); try lra.
  exists N. split; [assumption|]. split; [assumption|].
  apply (C51_functions_agree_with_relation 3 4 0.8 N 2650 1025 #7%num); try lra. assumption.
Qed.
