(** Property C58 for the rock, concrete and rear-side armour formulas: the warnings
    are those of the documented ranges, whatever the arguments (missing and
    infinite ones included). *)
From Coq Require Import Reals Lra List Bool String Arith.
From Verif.Lib Require Import Num Monad RTac NTac.
From Verif.Spec Require Import Ranges Reports.
From Verif.Model Require Import CoreUtility CorePhysics.
From Verif.Model Require Cubes HudsonUnits EtemadShahidi2020 Jumelet2024 KramerBurcharth2004 Scaravaglione2025 VanderMeer1988 VanderMeer1988Modified RearVanGent2007 RearVanGentPozueta2004 VanGent2001.
From Verif.Proofs Require Import Core CheckTac Warns Reports.
Import ListNotations.
Open Scope num_scope.

(** Wave steepness, Iribarren number and stability number of any arguments. *)
Definition steepness_of (H T : num) : num := (#2 * npi / #9.81) * H / npow T #2.
Definition iribarren_of (H T cot : num) : num := (#1 / cot) / nsqrt (steepness_of H T).
Definition density_of (rs rw : num) : num := (rs - rw) / rw.
Definition stability_of (H D rs rw : num) : num := H / (density_of rs rw * D).

(** The size of rock, given as a diameter or as a mass and a density. *)
Inductive size_given : num -> num -> num -> num -> Prop :=
| size_diameter D m rho : D <> NaN -> size_given D m rho D
| size_mass m rho : m <> NaN -> rho <> NaN -> size_given NaN m rho (npow (m / rho) (#1 / #3)).

Lemma usage_given D m rho d : size_given D m rho d -> check_usage_Dn50_or_M50 D m rho = ret d.
Proof.
  destruct 1; unfold check_usage_Dn50_or_M50.
  - destruct D; try reflexivity. congruence.
  - destruct m, rho; try reflexivity; congruence.
Qed.

Lemma steepness_is H T : calculate_wave_steepness_s H T g_default = steepness_of H T.
Proof. reflexivity. Qed.
Lemma iribarren_is H T c : calculate_Iribarren_number_ksi H T c = iribarren_of H T c.
Proof. reflexivity. Qed.
Lemma stability_is H D rs rw : calculate_stability_number_Ns H D rs rw = stability_of H D rs rw.
Proof. reflexivity. Qed.

(** Whenever a call yields a result. *)
Definition reports_if (m : M num) (ranges : num -> list xrange) : Prop :=
  forall x, value m = Ok x -> reported (ranges x) (warns m).

Lemma reports_if_checked ranges (c : M unit) x : value c = Ok tt -> reported (ranges x) (warns c) ->
  reports_if (c ;; ret x) ranges.
Proof. intros V R y E. destruct (reports_checked ranges c x V R) as (x' & V' & R'). rewrite E in V'. injection V' as <-. exact R'. Qed.

(** ** Van der Meer (1988) *)

Definition vdm88_ranges (H H2 T N cot P rs : num) : list xrange :=
  let F := "Van der Meer (1988)"%string in
  [ XRange "Notional permeability P" F P #0.1 #0.6;
    XRange "Cotangent of outer structure slope cot_alpha" F cot #1.1 #7;
    XRange "Wave steepness s0p" F (steepness_of H T) #0.005 #0.06;
    XRange "Number of waves N_waves" F N #0 #7500;
    XRange "Ratio H2%/Hs" F (H2 / H) #1.10 #1.40;
    XRange "Density of armour layer rock rho_armour" F rs #2000 #3100 ].

Lemma vdm88_checks H H2 T N cot P rs : reported (vdm88_ranges H H2 T N cot P rs) (warns (VanderMeer1988.check_validity_range H H2 T N cot P rs)).
Proof. apply reported_unit. unfold VanderMeer1988.check_validity_range, vdm88_ranges. cbv zeta. rewrite <- steepness_is. reports. Qed.
Lemma vdm88_value H H2 T N cot P rs : value (VanderMeer1988.check_validity_range H H2 T N cot P rs) = Ok tt.
Proof. unfold VanderMeer1988.check_validity_range. cbv zeta. mchecks. reflexivity. Qed.

(** The steepness is never checked, as the period is not passed on; the ratio of
    wave heights is not checked when the wave height is the result. *)
Theorem C58_vandermeer1988 : forall H H2 r T N cot P rs S D m d cpl cs g rw, size_given D m rs d ->
  reports_of (VanderMeer1988.calculate_damage_number_S H H2 T N cot P rs D m cpl cs rw) (fun _ => vdm88_ranges H H2 NaN N cot P rs)
  /\ reports_of (VanderMeer1988.calculate_nominal_rock_diameter_Dn50 H H2 T N cot P rs S cpl cs rw) (fun _ => vdm88_ranges H H2 NaN N cot P rs)
  /\ reports_of (VanderMeer1988.calculate_significant_wave_height_Hs r T N cot P rs S D m cpl cs g rw) (fun H => vdm88_ranges H NaN NaN N cot P rs).
Proof.
  intros * U. unfold VanderMeer1988.calculate_damage_number_S, VanderMeer1988.calculate_nominal_rock_diameter_Dn50, VanderMeer1988.calculate_significant_wave_height_Hs.
  rewrite !(usage_given _ _ _ _ U), !bind_ret_l. cbv zeta.
  repeat split; apply reports_checked; (apply vdm88_value || apply vdm88_checks).
Qed.

(** ** Modified Van der Meer (2003) and its rewritten form (2021) *)

Definition vdmm_ranges (H H2 T N cot P D rs : num) : list xrange :=
  let F := "Modified Van der Meer (Van Gent et al., 2003)"%string in
  [ XRange "Notional permeability P" F P #0.1 #0.6;
    XRange "Stability number Ns" F (stability_of H D rs #1025) #0.5 #4.5;
    XRange "Iribarren number ksi_m-1,0" F (iribarren_of H T cot) #1.3 #15;
    XRange "Cotangent of outer structure slope cot_alpha" F cot #2 #4;
    XRange "Number of waves N_waves" F N #0 #3000;
    XRange "Ratio H2%/Hs" F (H2 / H) #1.20 #1.40 ].

Lemma stability_nan_H D rs rw : calculate_stability_number_Ns NaN D rs rw = NaN.
Proof. reflexivity. Qed.
Lemma stability_nan_D H rs rw : calculate_stability_number_Ns H NaN rs rw = NaN.
Proof. unfold calculate_stability_number_Ns. cbv zeta. nnan. reflexivity. Qed.
Lemma stability_nan_rs H D rw : calculate_stability_number_Ns H D NaN rw = NaN.
Proof. unfold calculate_stability_number_Ns, calculate_buoyant_density_Delta. cbv zeta. nnan. reflexivity. Qed.
Lemma stability_nan_rw H D rs : calculate_stability_number_Ns H D rs NaN = NaN.
Proof. unfold calculate_stability_number_Ns, calculate_buoyant_density_Delta. cbv zeta. nnan. reflexivity. Qed.
Lemma density_nan rw : calculate_buoyant_density_Delta NaN rw = NaN.
Proof. unfold calculate_buoyant_density_Delta. nnan. reflexivity. Qed.
#[local] Hint Rewrite stability_nan_H stability_nan_D stability_nan_rs stability_nan_rw density_nan : missing.

Lemma vdmm_checks H H2 T N cot P D rs : reported (vdmm_ranges H H2 T N cot P D rs) (warns (VanderMeer1988Modified.check_validity_range H H2 T N cot P D rs #1025)).
Proof. apply reported_unit. unfold VanderMeer1988Modified.check_validity_range, vdmm_ranges. cbv zeta. rewrite <- iribarren_is, <- stability_is. reports. Qed.
Lemma vdmm_value H H2 T N cot P D rs : value (VanderMeer1988Modified.check_validity_range H H2 T N cot P D rs #1025) = Ok tt.
Proof. unfold VanderMeer1988Modified.check_validity_range. cbv zeta. mchecks. reflexivity. Qed.

(** The stability number is always taken for sea water of 1025 kg/m3, whatever the
    density of the water. *)
Theorem C58_modified_vandermeer : forall H H2 r T N cot P rs S D m d cpl cs g rw, size_given D m rs d ->
  reports_of (VanderMeer1988Modified.calculate_damage_number_S H H2 T N cot P rs D m cpl cs rw) (fun _ => vdmm_ranges H H2 T N cot P d rs)
  /\ reports_of (VanderMeer1988Modified.calculate_nominal_rock_diameter_Dn50 H H2 T N cot P rs S cpl cs rw) (fun d => vdmm_ranges H H2 T N cot P d rs)
  /\ reports_of (VanderMeer1988Modified.calculate_significant_wave_height_Hs r T N cot P rs S D m cpl cs g rw) (fun H => vdmm_ranges H NaN T N cot P d rs).
Proof.
  intros * U. unfold VanderMeer1988Modified.calculate_damage_number_S, VanderMeer1988Modified.calculate_nominal_rock_diameter_Dn50, VanderMeer1988Modified.calculate_significant_wave_height_Hs.
  rewrite !(usage_given _ _ _ _ U), !bind_ret_l. cbv zeta.
  repeat split; apply reports_checked; (apply vdmm_value || apply vdmm_checks).
Qed.

Lemma reported_app rs1 rs2 ws1 ws2 : reported rs1 ws1 -> reported rs2 ws2 -> reported (rs1 ++ rs2)%list (ws1 ++ ws2)%list.
Proof. induction 1; intros; cbn; [assumption|apply reported_in; auto|apply reported_out; auto]. Qed.
Lemma reports_then m ranges (c : num -> M unit) more : reports_of m ranges ->
  (forall x, value (c x) = Ok tt) -> (forall x, reported (more x) (warns (c x))) ->
  reports_of (x <- m ;; c x ;; ret x) (fun x => ranges x ++ more x)%list.
Proof.
  intros (x & V & R) V' R'. exists x. split; [rewrite value_bind, V, value_bind, V'; reflexivity|].
  rewrite warns_bind, V, warns_bind, V'. cbn. rewrite app_nil_r. apply reported_app; auto.
Qed.

(** The 2021 form reports the ranges of the modified formula with a ratio of 1
    between the wave heights - which is always outside 1.20 to 1.40 - followed by
    those of the original formula. *)
Theorem C58_vandermeer2021 : forall H T N cot P rs S D m d cpl cs fpl fs g, size_given D m rs d ->
  reports_of (VanderMeer1988Modified.damage_number_S_2021 H T N cot P rs D m cpl cs fpl fs)
    (fun _ => vdmm_ranges H H T N cot P d rs ++ vdm88_ranges H NaN NaN N cot P rs)%list
  /\ reports_of (VanderMeer1988Modified.nominal_rock_diameter_Dn50_2021 H T N cot P rs S cpl cs fpl fs)
    (fun d => vdmm_ranges H H T N cot P d rs ++ vdm88_ranges H NaN NaN N cot P rs)%list
  /\ reports_of (VanderMeer1988Modified.significant_wave_height_Hs_2021 T N cot P rs S D m cpl cs fpl fs g)
    (fun H => vdmm_ranges H NaN T N cot P d rs ++ vdm88_ranges H NaN NaN N cot P rs)%list.
Proof.
  intros * U.
  pose proof (fun H H2 r S cpl cs g rw => C58_modified_vandermeer H H2 r T N cot P rs S D m d cpl cs g rw U) as M.
  split; [|split].
  - refine (reports_then _ _ (fun _ => VanderMeer1988Modified.check_2021 H N cot P rs) _ _ _ _);
      [apply (M H H #1 NaN _ _ NaN #1025)|intros; apply vdm88_value|intros; apply vdm88_checks].
  - refine (reports_then _ _ (fun _ => VanderMeer1988Modified.check_2021 H N cot P rs) _ _ _ _);
      [apply (M H H #1 S _ _ NaN #1025)|intros; apply vdm88_value|intros; apply vdm88_checks].
  - refine (reports_then _ _ (fun H => VanderMeer1988Modified.check_2021 H N cot P rs) (fun H => vdm88_ranges H NaN NaN N cot P rs) _ _ _);
      [apply (M #1 #1 #1 S _ _ g #1025)|intros; apply vdm88_value|intros; apply vdm88_checks].
Qed.

(** ** Etemad-Shahidi et al. (2020) *)

Definition es20_ranges (H T N cot S D Dc rs rw : num) : list xrange :=
  let F := "Etemad-Shahidi et al., 2020"%string in
  [ XRange "Wave steepness sm-1,0" F (steepness_of H T) #0.003 #0.088;
    XRange "Iribarren number ksi_m-1,0" F (iribarren_of H T cot) #0.65 #8.18;
    XRange "Cotangent of outer structure slope cot_alpha" F cot #1.5 #6;
    XRange "Number of waves N_waves" F N #500 #5000;
    XRange "Buoyant density Delta" F (density_of rs rw) #0.92 #2.05;
    XRange "Relative core diameter Dn50_core / Dn50" F (Dc / D) #0 #1;
    XRange "Stability number Ns" F (stability_of H D rs rw) #1 #4.3;
    XRange "Damage number S" F S #2 #12 ].

Lemma es20_checks H T N cot S D Dc rs rw : reported (es20_ranges H T N cot S D Dc rs rw) (warns (EtemadShahidi2020.check_validity_range H T N cot NaN S D Dc rs rw)).
Proof. apply reported_unit. unfold EtemadShahidi2020.check_validity_range, es20_ranges. cbn [provided isnan negb when]. rewrite <- iribarren_is, <- stability_is, <- steepness_is. reports. Qed.
Lemma es20_value H T N cot S D Dc rs rw : value (EtemadShahidi2020.check_validity_range H T N cot NaN S D Dc rs rw) = Ok tt.
Proof. unfold EtemadShahidi2020.check_validity_range. mchecks. reflexivity. Qed.

(** The foreshore slope is needed only for the depth-limited version. *)
Theorem C58_etemad2020 : forall H T N cot rs S D m d Dc mc dc rc rw slope (limited : bool) Cp0 max_iter tol g,
  size_given D m rs d -> size_given Dc mc rc dc -> limited = false \/ slope <> NaN ->
  reports_of (EtemadShahidi2020.calculate_damage_number_S H T N cot rs D m Dc mc rc rw slope limited)
    (fun S => es20_ranges H T N cot S d dc rs rw)
  /\ reports_if (EtemadShahidi2020.calculate_nominal_rock_diameter_Dn50 H T N cot rs S Dc mc rc slope limited Cp0 max_iter tol)
    (fun d => es20_ranges H T N cot S d dc rs #1025)
  /\ reports_of (EtemadShahidi2020.calculate_significant_wave_height_Hs T N cot rs S D m Dc mc rc slope limited g)
    (fun H => es20_ranges H T N cot S d dc rs #1025).
Proof.
  intros * U Uc L.
  assert (I : exists f, EtemadShahidi2020.influence_depth limited slope = ret f).
  { unfold EtemadShahidi2020.influence_depth. destruct limited; [|eexists; reflexivity].
    destruct L as [L|L]; [discriminate|]. destruct slope; try (eexists; reflexivity). congruence. }
  destruct I as [f I].
  unfold EtemadShahidi2020.calculate_damage_number_S, EtemadShahidi2020.calculate_nominal_rock_diameter_Dn50, EtemadShahidi2020.calculate_significant_wave_height_Hs.
  rewrite !I, !bind_ret_l, !(usage_given _ _ _ _ U), !bind_ret_l, !(usage_given _ _ _ _ Uc), !bind_ret_l. cbv zeta.
  split; [|split]; [apply reports_checked; (apply es20_value || apply es20_checks)| |apply reports_checked; (apply es20_value || apply es20_checks)].
  destruct (EtemadShahidi2020.diameter_loop _ _ _ _ _ _ _ _) as [ds|]; [|intros x E; discriminate]. cbn [EtemadShahidi2020.bound]. rewrite bind_ret_l.
  destruct (EtemadShahidi2020.diameter_loop _ _ _ _ _ _ _ _) as [dp|]; [|intros x E; discriminate]. cbn [EtemadShahidi2020.bound]. rewrite bind_ret_l.
  apply reports_if_checked; (apply es20_value || apply es20_checks).
Qed.

(** ** Jumelet et al. (2024) *)

Definition ju24_ranges (H T N cot : num) : list xrange :=
  let F := "Jumelet et al., 2024"%string in
  [ XRange "Wave steepness sm-1,0" F (steepness_of H T) #0.009 #0.057;
    XRange "Iribarren number ksi_m-1,0" F (iribarren_of H T cot) #0.42 #1.66;
    XRange "Cotangent of outer structure slope cot_alpha" F cot #6 #10;
    XRange "Number of waves N_waves" F N #250 #20000 ].

Lemma ju24_checks H T N cot : reported (ju24_ranges H T N cot) (warns (Jumelet2024.check_validity_range H T N cot)).
Proof. apply reported_unit. unfold Jumelet2024.check_validity_range, ju24_ranges. rewrite <- iribarren_is, <- steepness_is. reports. Qed.
Lemma ju24_value H T N cot : value (Jumelet2024.check_validity_range H T N cot) = Ok tt.
Proof. unfold Jumelet2024.check_validity_range. mchecks. reflexivity. Qed.

Theorem C58_jumelet : forall H T N cot rs S D m d c rw g s0 max_iter tol, size_given D m rs d ->
  reports_of (Jumelet2024.calculate_damage_number_S H T N cot rs D m c rw) (fun _ => ju24_ranges H T N cot)
  /\ reports_of (Jumelet2024.calculate_nominal_rock_diameter_Dn50 H T N cot rs S c) (fun _ => ju24_ranges H T N cot)
  /\ reports_if (Jumelet2024.calculate_significant_wave_height_Hs T N cot rs S D m c g s0 max_iter tol) (fun H => ju24_ranges H T N cot).
Proof.
  intros * U. unfold Jumelet2024.calculate_damage_number_S, Jumelet2024.calculate_nominal_rock_diameter_Dn50, Jumelet2024.calculate_significant_wave_height_Hs.
  rewrite !(usage_given _ _ _ _ U), !bind_ret_l. cbv zeta.
  split; [|split]; [apply reports_checked; (apply ju24_value || apply ju24_checks)|apply reports_checked; (apply ju24_value || apply ju24_checks)|].
  destruct (Jumelet2024.wave_height_loop _ _ _ _ _ _ _ _ _) as [x|]; [|intros x E; discriminate]. rewrite bind_ret_l.
  apply reports_if_checked; (apply ju24_value || apply ju24_checks).
Qed.

(** ** Kramer & Burcharth (2004) *)

Definition kb04_ranges (Rc D : num) : list xrange :=
  [ XRange "Relative crest height Rc / Dn50" "Kramer & Burcharth, 2004" (Rc / D) (- #3.1) #1.5 ].

Theorem C58_kramer : forall H Rc rs D m d Ns0 x0 max_iter tol, size_given D m rs d ->
  reports_of (KramerBurcharth2004.calculate_nominal_rock_diameter_Dn50 H Rc rs Ns0 max_iter tol) (fun d => kb04_ranges Rc d)
  /\ reports_of (KramerBurcharth2004.calculate_significant_wave_height_Hs Rc rs D m) (fun _ => kb04_ranges Rc d)
  /\ reports_of (KramerBurcharth2004.calculate_crest_freeboard_Rc H rs D m x0 max_iter tol) (fun Rc => kb04_ranges Rc d).
Proof.
  intros * U. unfold KramerBurcharth2004.calculate_nominal_rock_diameter_Dn50, KramerBurcharth2004.calculate_significant_wave_height_Hs, KramerBurcharth2004.calculate_crest_freeboard_Rc.
  rewrite !(usage_given _ _ _ _ U), !bind_ret_l. cbv zeta.
  assert (R : forall Rc d, reported (kb04_ranges Rc d) (warns (KramerBurcharth2004.check_validity_range Rc d))).
  { intros. apply reported_unit. unfold KramerBurcharth2004.check_validity_range, kb04_ranges. reports. }
  assert (V : forall Rc d, value (KramerBurcharth2004.check_validity_range Rc d) = Ok tt).
  { intros. unfold KramerBurcharth2004.check_validity_range. mchecks. reflexivity. }
  repeat split; apply reports_checked; (apply V || apply R).
Qed.

(** ** Scaravaglione et al. (2025) *)

Definition sc25_ranges (H T N cot D Dc rs : num) : list xrange :=
  let F := "Scaravaglione et al. (2025)"%string in
  [ XRange "Stability number Ns" F (stability_of H D rs #1025) #1.47 #3.44;
    XRange "Wave steepness s_m-1,0" F (steepness_of H T) #0.020 #0.049;
    XRange "Iribarren number ksi_m-1,0" F (iribarren_of H T cot) #1.3 #15;
    XRange "Cotangent of outer structure slope cot_alpha" F cot #2 #2;
    XRange "Number of waves N_waves" F N #652 #4064;
    XRange "Ratio core to armour Dn50_core / Dn50" F (Dc / D) #0.21 #0.71 ].

Lemma sc25_checks H T N cot D Dc rs : reported (sc25_ranges H T N cot D Dc rs) (warns (Scaravaglione2025.check_validity_range H T N cot NaN D Dc rs #1025)).
Proof. apply reported_unit. unfold Scaravaglione2025.check_validity_range, sc25_ranges. cbn [provided isnan negb when]. rewrite <- iribarren_is, <- stability_is, <- steepness_is. reports. Qed.
Lemma sc25_value H T N cot D Dc rs : value (Scaravaglione2025.check_validity_range H T N cot NaN D Dc rs #1025) = Ok tt.
Proof. unfold Scaravaglione2025.check_validity_range. mchecks. reflexivity. Qed.

Theorem C58_scaravaglione : forall H T N cot rs rc S D m d Dc mc dc c g rw,
  size_given D m rs d -> size_given Dc mc rc dc ->
  reports_of (Scaravaglione2025.calculate_damage_number_S H T N cot rs rc D Dc m mc c rw) (fun _ => sc25_ranges H T N cot d dc rs)
  /\ reports_of (Scaravaglione2025.calculate_nominal_rock_diameter_Dn50 H T N cot rs rc S Dc mc c rw) (fun d => sc25_ranges H T N cot d dc rs)
  /\ reports_of (Scaravaglione2025.calculate_significant_wave_height_Hm0 T N cot rs rc S D Dc m mc c g rw) (fun H => sc25_ranges H T N cot d dc rs).
Proof.
  intros * U Uc. unfold Scaravaglione2025.calculate_damage_number_S, Scaravaglione2025.calculate_nominal_rock_diameter_Dn50, Scaravaglione2025.calculate_significant_wave_height_Hm0.
  rewrite !(usage_given _ _ _ _ U), !bind_ret_l, !(usage_given _ _ _ _ Uc), !bind_ret_l. cbv zeta.
  repeat split; apply reports_checked; (apply sc25_value || apply sc25_checks).
Qed.

(** ** Cubes and the Hudson units *)

Definition cubes_ranges (H T rs N cot : num) : list xrange :=
  let F := "Double layer cubes vander Meer 1988"%string in
  [ XRange "Significant wave height Hs" F H #0.01 #20;
    XRange "Number of waves N_waves" F N #0 #7500;
    XRange "Wave period Tm" F T #0.5 #30;
    XRange "Armour density rho_armour" F rs #2000 #3100;
    XRange "Cotangent of outer structure slope cot_alpha" F cot #1.5 #1.5;
    XRange "Wave steepness using Tm and Hs" F (steepness_of H T) #0.005 #0.07 ].
(** The period of a wave of the given steepness. *)
Definition period_of (H s : num) : num := npow ((H / s) / (#9.81 / (#2 * npi))) #0.5.

Theorem C58_cubes : forall H T D s rw rs N cot Nod,
  reports_of (Cubes.calculate_nominal_diameter_Dn_vanDerMeer1988 H T rw rs N cot Nod) (fun _ => cubes_ranges H T rs N cot)
  /\ reports_of (Cubes.calculate_wave_height_Hs_vanDerMeer1988 D s rw rs N cot Nod) (fun H => cubes_ranges H (period_of H s) rs N cot)
  /\ reports_of (Cubes.calculate_damage_Nod_vanDerMeer1988 H D s rw rs N cot) (fun _ => cubes_ranges H (period_of H s) rs N cot).
Proof.
  assert (R : forall H T rs N cot, reported (cubes_ranges H T rs N cot) (warns (Cubes.check_validity_range H T rs N cot))).
  { intros. apply reported_unit. unfold Cubes.check_validity_range, cubes_ranges. cbv zeta. rewrite <- steepness_is. reports. }
  assert (V : forall H T rs N cot, value (Cubes.check_validity_range H T rs N cot) = Ok tt).
  { intros. unfold Cubes.check_validity_range. cbv zeta. mchecks. reflexivity. }
  intros. split; [|split].
  - unfold Cubes.calculate_nominal_diameter_Dn_vanDerMeer1988, check_usage_stabilitynumber. cbn [is_none b2n Nat.add Nat.ltb Nat.leb Nat.eqb].
    cbv zeta. rewrite bind_ret_l. apply reports_checked; (apply V || apply R).
  - unfold Cubes.calculate_wave_height_Hs_vanDerMeer1988, check_usage_stabilitynumber. cbn [is_none b2n Nat.add Nat.ltb Nat.leb Nat.eqb].
    cbv zeta. rewrite bind_ret_l. apply reports_checked; (apply V || apply R).
  - unfold Cubes.calculate_damage_Nod_vanDerMeer1988, check_usage_stabilitynumber. cbn [is_none b2n Nat.add Nat.ltb Nat.leb Nat.eqb].
    cbv zeta. rewrite bind_ret_l. apply reports_checked; (apply V || apply R).
Qed.

Definition hudson_slope (F : string) (cot : num) : xrange := XRange "Cotangent of the front-side slope of the structure" F cot #1.33 #1.5.
Definition hudson_seabed (F : string) (perc : num) : xrange := XRange "Seabed slope in percentage" F perc #0 #10.

(** Core-Loc declares the same range for the slope of the structure as the
    Accropode units but never checks it; the other units have no ranges. *)
Theorem C58_hudson_units : forall H m rw rs KD cot a perc,
  reports_of (HudsonUnits.accropode_unit_mass_M H rw rs KD cot a) (fun _ => [hudson_slope "Accropodes Hudson 1959" cot])
  /\ reports_of (HudsonUnits.accropode_wave_height_Hs m rw rs KD cot a) (fun _ => [hudson_slope "Accropodes Hudson 1959" cot])
  /\ reports_of (HudsonUnits.accropode_KD_breaking perc) (fun _ => [hudson_seabed "Accropode documentation" perc])
  /\ reports_of (HudsonUnits.accropode2_unit_mass_M H rw rs KD cot a) (fun _ => [hudson_slope "Accropode II Hudson 1959" cot])
  /\ reports_of (HudsonUnits.accropode2_wave_height_Hs m rw rs KD cot a) (fun _ => [hudson_slope "Accropode II Hudson 1959" cot])
  /\ reports_of (HudsonUnits.accropode2_KD_breaking perc) (fun _ => [hudson_seabed "Accropode II documentation" perc])
  /\ reports_of (HudsonUnits.core_loc_unit_mass_M H rw rs KD cot a) (fun _ => [])
  /\ reports_of (HudsonUnits.core_loc_wave_height_Hs m rw rs KD cot a) (fun _ => [])
  /\ reports_of (HudsonUnits.core_loc_KD_breaking perc) (fun _ => [hudson_seabed "Core Loc documentation" perc])
  /\ reports_of (HudsonUnits.cubes_unit_mass_M H rw rs KD cot a) (fun _ => [])
  /\ reports_of (HudsonUnits.cubipod_unit_mass_M H rw rs KD cot a) (fun _ => [])
  /\ reports_of (HudsonUnits.tetrapod_unit_mass_M H rw rs KD cot a) (fun _ => [])
  /\ reports_of (HudsonUnits.cubes_wave_height_Hs m rw rs KD cot a) (fun _ => [])
  /\ reports_of (HudsonUnits.cubipod_wave_height_Hs m rw rs KD cot a) (fun _ => [])
  /\ reports_of (HudsonUnits.tetrapod_wave_height_Hs m rw rs KD cot a) (fun _ => []).
Proof.
  intros. assert (N : forall x, reports_of (ret x) (fun _ => [])) by (intros x; exists x; split; [reflexivity|constructor]).
  repeat split; try apply N; apply reports_checked;
    unfold HudsonUnits.accropode_check_validity_range, HudsonUnits.accropode2_check_validity_range, HudsonUnits.core_loc_check_validity_range; cbn [provided isnan negb when];
    first [mchecks; reflexivity|apply reported_unit; rewrite ?bind_assoc, ?bind_ret_l; unfold hudson_slope, hudson_seabed; reports].
Qed.

(** ** Rear side: Van Gent (2007) *)

(** The steepness, the water depth and the widths of crest and element have ranges
    too, but those are never passed on. *)
Definition rear2007_ranges (Rc front rear D H z1 S N : num) : list xrange :=
  let F := "Van Gent (2007)"%string in
  [ XRange "N_waves" F N #1000 #10000;
    XRange "Rc/Hs" F (Rc / H) #0.5 #1.9;
    XRange "Rc/Dn50" F (Rc / D) #7 #22;
    XRange "(z1% - Rc)/Hs" F ((z1 - Rc) / H) #0.2 #1.3;
    XRange "Rc2,front/Hs" F (front / H) #0 #0.5;
    XRange "Stability number Ns" F (stability_of H D #2650 #1025) #4 #12;
    XRange "Rc2,rear/Hs" F (rear / H) #0 #1.3;
    XRange "S" F S #2 #100 ].

Lemma rear2007_checks Rc front rear D H z1 S N :
  reported (rear2007_ranges Rc front rear D H z1 S N) (warns (RearVanGent2007.check_validity_range Rc front rear NaN D NaN NaN H NaN z1 S N)).
Proof.
  apply reported_unit. unfold RearVanGent2007.check_validity_range, rear2007_ranges. cbn [provided isnan negb andb]. rewrite !andb_false_r. cbn [when].
  rewrite <- stability_is. rewrite ?bind_assoc, ?bind_ret_l. reports.
Qed.
Lemma rear2007_value Rc front rear D H z1 S N : value (RearVanGent2007.check_validity_range Rc front rear NaN D NaN NaN H NaN z1 S N) = Ok tt.
Proof. unfold RearVanGent2007.check_validity_range. mchecks. reflexivity. Qed.

(** For a search the message about the number of iterations may come first. *)
Definition reports_search (m : M num) (ranges : num -> list xrange) : Prop :=
  forall x, value m = Ok x ->
    reported (ranges x) (warns m)
    \/ exists ws, reported (ranges x) ws
         /\ warns m = WText "Maximum number of iterations reached, convergence not achieved" :: ws.

Lemma reports_search_checked ranges b (c : M unit) x : value c = Ok tt -> reported (ranges x) (warns c) ->
  reports_search (when b (warn (WText "Maximum number of iterations reached, convergence not achieved")) ;; c ;; ret x) ranges.
Proof.
  intros V R y E. destruct c as [w [[]|e]]; [|discriminate]. cbn in R. destruct b; cbn in E |- *; rewrite ?app_nil_r; injection E as <-.
  - right. exists w. split; [exact R|reflexivity].
  - left. exact R.
Qed.

Theorem C58_rear2007 : forall cot phi gamma S H T Rc front rear N D m rs d tol max_iter, size_given D m rs d ->
  let z1 := VanGent2001.calculate_wave_runup_height_z1p H T gamma cot VanGent2001.z1p_c0 VanGent2001.z1p_c1 in
  reports_of (RearVanGent2007.calculate_damage_number_S cot phi gamma H T Rc front rear N D m rs) (fun S => rear2007_ranges Rc front rear d H z1 S N)
  /\ reports_of (RearVanGent2007.calculate_nominal_rock_diameter_Dn50 cot phi gamma S H T Rc front rear N) (fun d => rear2007_ranges Rc front rear d H z1 S N)
  /\ exists z1, reports_search (RearVanGent2007.calculate_maximum_significant_wave_height_Hs cot phi gamma S T Rc front rear N D m rs tol max_iter)
       (fun H => rear2007_ranges Rc front rear d H z1 S N).
Proof.
  intros * U z1. unfold RearVanGent2007.calculate_damage_number_S, RearVanGent2007.calculate_nominal_rock_diameter_Dn50, RearVanGent2007.calculate_maximum_significant_wave_height_Hs.
  rewrite !(usage_given _ _ _ _ U), !bind_ret_l. cbv zeta.
  split; [|split]; [apply reports_checked; (apply rear2007_value || apply rear2007_checks)|apply reports_checked; (apply rear2007_value || apply rear2007_checks)|].
  destruct (RearVanGent2007.search _ _ _ _ _ _ _) as [[todo h] [z|]].
  - exists z. apply reports_search_checked; (apply rear2007_value || apply rear2007_checks).
  - exists NaN. intros x E. exfalso. destruct (Nat.eqb todo 0); discriminate.
Qed.

(** ** Rear side: Van Gent & Pozueta (2004) *)

Definition rear2004_ranges (Rc rear phi gf D rs rw B H T z1 S N : num) : list xrange :=
  let F := "Van Gent & Pozueta (2004)"%string in
  [ XRange "sm-1,0" F (steepness_of H T) #0.019 #0.036;
    XRange "N_waves" F N #0 #4000;
    XRange "Rc/Hs" F (Rc / H) #0.3 #2;
    XRange "Rc_rear/Hs" F (rear / H) #0.3 #6;
    XRange "B_c/Hs" F (B / H) #1.3 #1.6;
    XRange "(z1% - Rc)/(gamma_f*Hs)" F ((z1 - Rc) / (gf * H)) #0 #1.4;
    XRange "Hs/(Delta*Dn50_rear)" F (stability_of H D rs rw) #5.5 #8.5;
    XRange "cot phi" F phi #2 #4;
    XRange "S" F S #2 #50 ].

Lemma rear2004_checks Rc rear phi gf D rs rw B H T z1 S N :
  reported (rear2004_ranges Rc rear phi gf D rs rw B H T z1 S N) (warns (RearVanGentPozueta2004.check_validity_range Rc rear phi gf D rs rw B H T z1 S N)).
Proof.
  apply reported_unit. unfold RearVanGentPozueta2004.check_validity_range, rear2004_ranges.
  rewrite <- stability_is, <- steepness_is. reports.
Qed.
Lemma rear2004_value Rc rear phi gf D rs rw B H T z1 S N : value (RearVanGentPozueta2004.check_validity_range Rc rear phi gf D rs rw B H T z1 S N) = Ok tt.
Proof. unfold RearVanGentPozueta2004.check_validity_range. mchecks. reflexivity. Qed.

Theorem C58_rear2004 : forall cot phi gf gfc S H T Rc rear B N D m rs d rw cs tol max_iter, size_given D m rs d ->
  let z1 := VanGent2001.calculate_wave_runup_height_z1p H T gf cot VanGent2001.z1p_c0 VanGent2001.z1p_c1 in
  reports_of (RearVanGentPozueta2004.calculate_damage_number_S cot phi gf gfc H T Rc rear B N D m rs rw cs) (fun S => rear2004_ranges Rc rear phi gf d rs rw B H T z1 S N)
  /\ reports_of (RearVanGentPozueta2004.calculate_nominal_rock_diameter_Dn50 cot phi gf gfc S H T Rc rear B rs N rw cs) (fun d => rear2004_ranges Rc rear phi gf d rs rw B H T z1 S N)
  /\ exists z1, reports_search (RearVanGentPozueta2004.calculate_maximum_significant_wave_height_Hs cot phi gf gfc S T Rc rear B N D m rs rw cs tol max_iter)
       (fun H => rear2004_ranges Rc rear phi gf d rs rw B H T z1 S N).
Proof.
  intros * U z1. unfold RearVanGentPozueta2004.calculate_damage_number_S, RearVanGentPozueta2004.calculate_nominal_rock_diameter_Dn50, RearVanGentPozueta2004.calculate_maximum_significant_wave_height_Hs.
  cbv zeta. rewrite !(usage_given _ _ _ _ U), !bind_ret_l.
  split; [|split]; [apply reports_checked; (apply rear2004_value || apply rear2004_checks)|apply reports_checked; (apply rear2004_value || apply rear2004_checks)|].
  destruct (RearVanGent2007.search _ _ _ _ _ _ _) as [[todo h] [z|]].
  - exists z. apply reports_search_checked; (apply rear2004_value || apply rear2004_checks).
  - exists NaN. intros x E. exfalso. destruct (Nat.eqb todo 0); discriminate.
Qed.

Lemma reported_In rs ws n f v lo hi : reported rs ws -> In (XRange n f v lo hi) rs -> out_of_range v lo hi -> In (WRange n f v lo hi) ws.
Proof.
  induction 1 as [|? ? ? ? ? ? ? N _ IH|? ? ? ? ? ? ? N _ IH]; intros I O; [destruct I| |].
  - destruct I as [I|I]; [|auto]. injection I as -> -> -> -> ->. contradiction.
  - destruct I as [I|I]; [|right; auto]. injection I as -> -> -> -> ->. left. reflexivity.
Qed.

(** The damage and the diameter of the 2021 form come with a warning about the
    ratio H2%/Hs for every positive wave height: the form has no such ratio. *)
Theorem C58_vandermeer2021_always : forall (H : R) T N cot P rs S D m d cpl cs fpl fs, (0 < H)%R -> size_given D m rs d ->
  let w := WRange "Ratio H2%/Hs" "Modified Van der Meer (Van Gent et al., 2003)" #1 #1.20 #1.40 in
  In w (warns (VanderMeer1988Modified.damage_number_S_2021 (Fin H) T N cot P rs D m cpl cs fpl fs))
  /\ In w (warns (VanderMeer1988Modified.nominal_rock_diameter_Dn50_2021 (Fin H) T N cot P rs S cpl cs fpl fs)).
Proof.
  intros H T N cot P rs S D m d cpl cs fpl fs HH U w.
  destruct (C58_vandermeer2021 (Fin H) T N cot P rs S D m d cpl cs fpl fs NaN U) as ((x & _ & R1) & (y & _ & R2) & _).
  assert (E : Fin H / Fin H = #1) by (rewrite ndiv_fin by lra; f_equal; field; lra).
  split; [apply (reported_In _ _ _ _ _ _ _ R1)|apply (reported_In _ _ _ _ _ _ _ R2)]; try (left; unfold below; lra);
    unfold vdmm_ranges; rewrite E; cbn; do 5 right; left; reflexivity.
Qed.

(** A single wrong argument gives a single warning: a slope of 1:1.2 for Accropode. *)
Example C58_rock_example :
  warns (HudsonUnits.accropode_unit_mass_M #5 #1025 #2400 #15 #1.2 #1)
  = [ WRange "Cotangent of the front-side slope of the structure" "Accropodes Hudson 1959" #1.2 #1.33 #1.5 ].
Proof.
  destruct (C58_hudson_units #5 #1 #1025 #2400 #15 #1.2 #1 #0) as ((x & _ & R) & _).
  inversion R as [|? ? ? ? ? ? ? N _|? ? ? ? ? ? ? _ R1]; subst.
  - exfalso. apply N. change (out_of_range #1.2 #1.33 #1.5). left. unfold below. lra.
  - inversion R1. reflexivity.
Qed.
