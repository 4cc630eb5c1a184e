From Coq Require Import Reals Lra Lia List Bool String.
From Verif.Lib Require Import Num Monad RTac NTac.
From Verif.Spec Require Import Waves.
From Verif.Model Require Import CoreUtility CorePhysics.
Import ListNotations.
Open Scope R_scope.

(** ** core_utility *)
Lemma value_check_values n f l lo hi :
  value (check_values n f l lo hi)
  = Ok (map (fun v => negb (nlt v lo || ngt v hi)) l).
Proof.
  induction l as [|v l IH]; [reflexivity|]. cbn [check_values map filter].
  destruct (nlt v lo || ngt v hi) eqn:E; mval; rewrite IH; reflexivity.
Qed.

Lemma warns_check_values n f l lo hi :
  warns (check_values n f l lo hi)
  = map (fun v => WRange n f v lo hi) (filter (fun v => nlt v lo || ngt v hi) l).
Proof.
  induction l as [|v l IH]; [reflexivity|]. cbn [check_values map filter].
  destruct (nlt v lo || ngt v hi) eqn:E.
  - rewrite warns_bind. simpl. rewrite warns_bind, IH, value_check_values. simpl.
    rewrite app_nil_r. reflexivity.
  - rewrite warns_bind, IH, value_check_values. simpl. rewrite app_nil_r. reflexivity.
Qed.

Lemma value_check n f v lo hi : value (check n f v lo hi) = Ok tt.
Proof. unfold check. rewrite value_bind. cbn [check_variable_validity_range].
  rewrite value_check_values. reflexivity. Qed.

Lemma warns_check n f v lo hi :
  warns (check n f v lo hi)
  = if nlt v lo || ngt v hi then [WRange n f v lo hi] else [].
Proof.
  unfold check. rewrite warns_bind. cbn [check_variable_validity_range].
  rewrite warns_check_values, value_check_values. simpl.
  destruct (nlt v lo || ngt v hi); reflexivity.
Qed.

(** ** core_physics on finite values *)
Lemma steepness_fin H T g : 0 < g -> 0 < T ->
  calculate_wave_steepness_s (Fin H) (Fin T) (Fin g) = Fin (steepness g H T).
Proof.
  intros. unfold calculate_wave_steepness_s. nfin. f_equal. unfold steepness. field. split; rpos.
Qed.

Lemma steepness_pos g H T : 0 < g -> 0 < H -> 0 < T -> 0 < steepness g H T.
Proof. intros. unfold steepness. rpos. Qed.

Lemma g0_pos : 0 < g0. Proof. unfold g0. lra. Qed.
#[global] Hint Resolve g0_pos : core.

Lemma iribarren_fin H T c : 0 < H -> 0 < T -> c <> 0 ->
  calculate_Iribarren_number_ksi (Fin H) (Fin T) (Fin c) = Fin (iribarren g0 H T (1 / c)).
Proof.
  intros. unfold calculate_Iribarren_number_ksi, g_default.
  pose proof (steepness_pos g0 H T g0_pos H0 H1).
  rewrite steepness_fin by (try apply g0_pos; rpos). fold g0.
  unfold iribarren. nfin. reflexivity.
Qed.

Lemma iribarren_pos g H T t : 0 < g -> 0 < H -> 0 < T -> 0 < t -> 0 < iribarren g H T t.
Proof. intros. unfold iribarren. pose proof (steepness_pos g H T). rpos. Qed.

Lemma steepness_froude g H T l : 0 < g -> 0 < T -> 0 < l ->
  steepness g (l * H) (sqrt l * T) = steepness g H T.
Proof.
  intros. unfold steepness. rewrite Rpow_mult_distr. rewrite pow2_sqrt by lra. field.
  repeat split; rpos.
Qed.

Lemma Delta_fin rs rw : rw <> 0 ->
  calculate_buoyant_density_Delta (Fin rs) (Fin rw) = Fin (buoyant rs rw).
Proof.
  intros. unfold calculate_buoyant_density_Delta. nfin. f_equal. unfold buoyant. field. assumption.
Qed.

Lemma M50_fin D rho : calculate_M50_from_Dn50 (Fin D) (Fin rho) = Fin (mass_of rho D).
Proof. unfold calculate_M50_from_Dn50, mass_of. nfin. reflexivity. Qed.

Lemma Dn50_fin m rho : 0 < m -> 0 < rho ->
  calculate_Dn50_from_M50 (Fin m) (Fin rho) = Fin (Rpower (m / rho) (1 / 3)).
Proof. intros. unfold calculate_Dn50_from_M50. assert (0 < m / rho) by rpos. nfin. reflexivity. Qed.

Lemma cube_root_mass D rho : 0 < D -> 0 < rho -> Rpower (mass_of rho D / rho) (1 / 3) = D.
Proof.
  intros. unfold mass_of. replace (rho * D ^ 3 / rho) with (D ^ 3) by (field; lra).
  rewrite <- Rpower_3 by assumption. apply Rpower_cancel; lra.
Qed.
Lemma mass_cube_root m rho : 0 < m -> 0 < rho -> mass_of rho (Rpower (m / rho) (1 / 3)) = m.
Proof.
  intros. unfold mass_of. assert (0 < m / rho) by rpos.
  rewrite <- Rpower_3 by rpos. rewrite (Rpower_cancel (m / rho)) by (assumption || lra).
  field. lra.
Qed.

Lemma buoyant_pos rs rw : 0 < rw -> rw < rs -> 0 < buoyant rs rw.
Proof.
  intros. unfold buoyant. apply Rlt_Rminus. apply (Rmult_lt_reg_r rw); [lra|]. field_simplify; lra.
Qed.

Lemma Ns_fin H D rs rw : 0 < D -> 0 < rw -> rw < rs ->
  calculate_stability_number_Ns (Fin H) (Fin D) (Fin rs) (Fin rw)
  = Fin (H / (buoyant rs rw * D)).
Proof.
  intros. unfold calculate_stability_number_Ns. pose proof (buoyant_pos rs rw).
  rewrite Delta_fin by lra. assert (0 < buoyant rs rw * D) by (apply Rmult_lt_0_compat; auto).
  nfin. reflexivity.
Qed.
