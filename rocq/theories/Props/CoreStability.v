(** Property C59: relative density, stability number and critical Iribarren
    number. *)
From Coq Require Import Reals Lra Lia List Bool String Psatz.
From Verif.Lib Require Import Num Monad RTac NTac.
From Verif.Spec Require Import Waves Rock.
From Verif.Model Require Import CoreUtility CorePhysics.
From Verif.Proofs Require Import Core CheckTac VdM.
Import ListNotations.
Open Scope R_scope.

(** The relative density is the excess of the rock density over the water
    density, in units of the water density. *)
Theorem C59_relative_density :
  forall rs rw, 0 < rw ->
    exists De, calculate_buoyant_density_Delta (Fin rs) (Fin rw) = Fin De /\ De * rw = rs - rw
      /\ (0 < De <-> rw < rs).
Proof.
  intros rs rw Hw. exists ((rs - rw) / rw). split; [unfold calculate_buoyant_density_Delta; nfin; reflexivity|].
  split; [field; lra|]. split; intros L.
  - assert (0 < (rs - rw) / rw * rw) by (apply Rmult_lt_0_compat; assumption).
    replace ((rs - rw) / rw * rw) with (rs - rw) in H by (field; lra). lra.
  - apply Rdiv_lt_0_compat; lra.
Qed.

Theorem C59_no_water_no_relative_density :
  forall rs, 0 < rs -> calculate_buoyant_density_Delta (Fin rs) (Fin 0) = PInf.
Proof.
  intros rs H. unfold calculate_buoyant_density_Delta. rewrite nsub_fin. replace (rs - 0) with rs by ring.
  apply ndiv_pos_0. assumption.
Qed.

(** The stability number is the one that makes H = Ns * Delta * D, and is what
    the general solver returns when the stability number is missing. *)
Theorem C59_stability_number :
  forall H D rs rw, 0 < D -> 0 < rw -> rw < rs ->
    exists Ns De, calculate_stability_number_Ns (Fin H) (Fin D) (Fin rs) (Fin rw) = Fin Ns
      /\ De * rw = rs - rw /\ Ns * De * D = H
      /\ value (check_usage_stabilitynumber (Some (Fin H)) (Some (Fin D)) (Some (Fin De)) None) = Ok (Fin Ns, "Ns"%string).
Proof.
  intros H D rs rw HD Hw Hs. assert (P : 0 < buoyant rs rw) by (apply buoyant_pos; assumption).
  assert (Q : 0 < buoyant rs rw * D) by rpos.
  exists (H / (buoyant rs rw * D)), (buoyant rs rw). split; [unfold calculate_stability_number_Ns; rewrite Delta_fin by lra; nfin; reflexivity|].
  split; [unfold buoyant; field; lra|]. split; [field; lra|].
  unfold check_usage_stabilitynumber. cbn [is_none b2n Nat.add Nat.ltb Nat.leb Nat.eqb]. mval. nfin. reflexivity.
Qed.

(** At the critical Iribarren number, and at no other, the plunging and surging
    stability formulas agree. *)
Theorem C59_critical_iribarren :
  forall c_pl c_s P cot, 0 < c_pl -> 0 < c_s -> 0 < P -> 0 < cot ->
    exists xc, calculate_critical_Iribarren_number_ksi_mc (Fin c_pl) (Fin c_s) (Fin P) (Fin cot) = Fin xc /\ 0 < xc
      /\ forall xi, 0 < xi ->
         (c_pl * Rpower P 0.18 * Rpower xi (-(0.5)) = c_s * Rpower P (-(0.13)) * sqrt cot * Rpower xi P <-> xi = xc).
Proof.
  intros c_pl c_s P cot Hp Hs HP Hc.
  assert (0 < 1 / cot) by rpos. assert (0 < c_pl / c_s * Rpower P 0.31 * sqrt (1 / cot)) by rpos.
  exists (Rpower (c_pl / c_s * Rpower P 0.31 * sqrt (1 / cot)) (1 / (P + 0.5))).
  split; [unfold calculate_critical_Iribarren_number_ksi_mc; nfin; reflexivity|]. split; [apply Rpower_pos|].
  intros xi Hxi. set (B := c_pl / c_s * Rpower P 0.31 * sqrt (1 / cot)) in *.
  assert (LB : ln B = ln c_pl - ln c_s + 0.31 * ln P - / 2 * ln cot).
  { unfold B. ln_push. rewrite ?ln_1. lra. }
  assert (L1 : ln (c_pl * Rpower P 0.18 * Rpower xi (-(0.5))) = ln c_pl + 0.18 * ln P - 0.5 * ln xi) by (ln_push; lra).
  assert (L2 : ln (c_s * Rpower P (-(0.13)) * sqrt cot * Rpower xi P) = ln c_s - 0.13 * ln P + / 2 * ln cot + P * ln xi) by (ln_push; lra).
  assert (Key : ln xi = 1 / (P + 0.5) * ln B <-> (P + 0.5) * ln xi = ln B).
  { split; intros E.
    - rewrite E. field. lra.
    - rewrite <- E. field. lra. }
  split; intros E.
  - apply (f_equal ln) in E. rewrite L1, L2 in E. apply ln_inv; [assumption|apply Rpower_pos|].
    rewrite ln_Rpower. apply Key. lra.
  - apply ln_inv; [rpos|rpos|]. rewrite L1, L2. apply (f_equal ln) in E. rewrite ln_Rpower in E. apply Key in E. lra.
Qed.

Example C59_example :
  calculate_buoyant_density_Delta (Fin 2050) (Fin 1025) = Fin 1
  /\ calculate_stability_number_Ns (Fin 3) (Fin 1.5) (Fin 2050) (Fin 1025) = Fin 2.
Proof.
  assert (B : buoyant 2050 1025 = 1) by (unfold buoyant; lra).
  split; [rewrite Delta_fin by lra; rewrite B; reflexivity|]. rewrite Ns_fin by lra. rewrite B. f_equal. lra.
Qed.
