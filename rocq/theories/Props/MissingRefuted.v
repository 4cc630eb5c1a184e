(** Where a missing number does turn into a number. *)
From Coq Require Import Reals Lra List Bool String ZArith.
From Verif.Lib Require Import Num Monad RTac NTac.
From Verif.Spec Require Import Missing.
From Verif.Proofs Require Import Missing Warns CheckTac.
From Verif.Model Require CoreUtility Numpy CorePhysics RunupTAW2002 OvertoppingTAW2002 OvertoppingEurotop2007 RunupEurotop2018 OvertoppingEurotop2018 Goda1967 Xbloc.
From Verif.Model Require VanderMeer1988 VanderMeer1988Modified.
Import ListNotations.
Open Scope R_scope.

(** * C83 *)
(** Van der Meer, with a number for the permeability: the period too, and the wave height. *)
Theorem C83_vandermeer_period : forall p, 0 < p ->
  (forall Hs H2p Tm N_waves cot_alpha rho_armour rho_water Dn50 M50 c_pl c_s, missing [Hs; H2p; Tm; N_waves; cot_alpha; rho_armour; rho_water] ->
     no_number (VanderMeer1988.calculate_damage_number_S Hs H2p Tm N_waves cot_alpha (Fin p) rho_armour Dn50 M50 c_pl c_s rho_water)) /\
  (forall Hs H2p Tm N_waves cot_alpha rho_armour S c_pl c_s rho_water, missing [Hs; H2p; Tm; N_waves; cot_alpha; rho_armour; S; rho_water] ->
     no_number (VanderMeer1988.calculate_nominal_rock_diameter_Dn50 Hs H2p Tm N_waves cot_alpha (Fin p) rho_armour S c_pl c_s rho_water)) /\
  (forall ratio Tm N_waves cot_alpha rho_armour S Dn50 M50 c_pl c_s g rho_water, missing [ratio; Tm; N_waves; cot_alpha; rho_armour; S; g; rho_water] ->
     no_number (VanderMeer1988.calculate_significant_wave_height_Hs ratio Tm N_waves cot_alpha (Fin p) rho_armour S Dn50 M50 c_pl c_s g rho_water)) /\
  (forall Hs H2p Tmm10 N_waves cot_alpha rho_armour rho_water Dn50 M50 c_pl c_s, missing [Hs; H2p; Tmm10; N_waves; cot_alpha; rho_armour; rho_water] ->
     no_number (VanderMeer1988Modified.calculate_damage_number_S Hs H2p Tmm10 N_waves cot_alpha (Fin p) rho_armour Dn50 M50 c_pl c_s rho_water)) /\
  (forall Hs H2p Tmm10 N_waves cot_alpha rho_armour S c_pl c_s rho_water, missing [Hs; H2p; Tmm10; N_waves; cot_alpha; rho_armour; S; rho_water] ->
     no_number (VanderMeer1988Modified.calculate_nominal_rock_diameter_Dn50 Hs H2p Tmm10 N_waves cot_alpha (Fin p) rho_armour S c_pl c_s rho_water)) /\
  (forall ratio Tmm10 N_waves cot_alpha rho_armour S Dn50 M50 c_pl c_s g rho_water, missing [ratio; Tmm10; N_waves; cot_alpha; rho_armour; S; g; rho_water] ->
     no_number (VanderMeer1988Modified.calculate_significant_wave_height_Hs ratio Tmm10 N_waves cot_alpha (Fin p) rho_armour S Dn50 M50 c_pl c_s g rho_water)).
Proof.
  intros p Hp. repeat apply conj; missing; cbv beta delta [VanderMeer1988.calculate_damage_number_S VanderMeer1988.calculate_nominal_rock_diameter_Dn50
    VanderMeer1988.calculate_significant_wave_height_Hs VanderMeer1988Modified.calculate_damage_number_S
    VanderMeer1988Modified.calculate_nominal_rock_diameter_Dn50 VanderMeer1988Modified.calculate_significant_wave_height_Hs VanderMeer1988.calculate_correction_term_gamma_N
    CorePhysics.calculate_wave_steepness_s CorePhysics.calculate_Iribarren_number_ksi CorePhysics.calculate_buoyant_density_Delta CorePhysics.calculate_stability_number_Ns
    CorePhysics.check_usage_Dn50_or_M50 CorePhysics.g_default]; rewrite ?nneg_fin, ?nmul_fin, ?nadd_fin, ?ndiv_fin by rpos; nanrun.
Qed.

(** Run-up of TAW (2002) and EurOtop (2018), however deep the calls are nested. *)
Theorem C83_runup_taw :
  (forall runup Hm0 Tmm10 beta gamma_beta gamma_b gamma_f B_berm db cot_alpha cot_alpha_down cot_alpha_up c1 c2 c3 c4 best, missing [Hm0; Tmm10; gamma_f] ->
     no_number (RunupTAW2002.dimensionless_body runup Hm0 Tmm10 beta gamma_beta gamma_b gamma_f B_berm db cot_alpha cot_alpha_down cot_alpha_up c1 c2 c3 c4 best)) /\
  (forall Hm0 Tmm10 beta gamma_beta gamma_b gamma_f B_berm db cot_alpha cot_alpha_down cot_alpha_up c1 c2 c3 c4 best, missing [Hm0; Tmm10; gamma_f] ->
     no_number (RunupTAW2002.calculate_dimensionless_wave_runup_height_z2p Hm0 Tmm10 beta gamma_beta gamma_b gamma_f B_berm db cot_alpha cot_alpha_down cot_alpha_up
       c1 c2 c3 c4 best)) /\
  (forall Hm0 Tmm10 beta gamma_beta gamma_b gamma_f B_berm db cot_alpha cot_alpha_down cot_alpha_up c1 c2 c3 c4 best, missing [Hm0; Tmm10; gamma_f] ->
     no_number (RunupTAW2002.calculate_wave_runup_height_z2p Hm0 Tmm10 beta gamma_beta gamma_b gamma_f B_berm db cot_alpha cot_alpha_down cot_alpha_up
       c1 c2 c3 c4 best)).
Proof.
  assert (D : forall runup Hm0 Tmm10 beta gamma_beta gamma_b gamma_f B_berm db cot_alpha cot_alpha_down cot_alpha_up c1 c2 c3 c4 best, missing [Hm0; Tmm10; gamma_f] ->
     no_number (RunupTAW2002.dimensionless_body runup Hm0 Tmm10 beta gamma_beta gamma_b gamma_f B_berm db cot_alpha cot_alpha_down cot_alpha_up c1 c2 c3 c4 best)).
  { missing; cbv beta delta [RunupTAW2002.dimensionless_body RunupTAW2002.calculate_adjusted_influence_roughness_gamma_f RunupTAW2002.best_fit_coefficients
      CorePhysics.calculate_wave_steepness_s CorePhysics.calculate_Iribarren_number_ksi CorePhysics.g_default]; nanrun. }
  split; [exact D|]. split; intros; [apply D; assumption|].
  unfold RunupTAW2002.calculate_wave_runup_height_z2p, RunupTAW2002.depth_limit.
  change 300%nat with (S 299). cbn [RunupTAW2002.calculate_wave_runup_height_z2p_upto].
  apply no_number_bind_in; [apply D; assumption|]. intros [z b] E. cbn in E. subst z. apply no_number_ret. apply nmul_nan_l.
Qed.

(** Goda (1967): a missing freeboard or wave height is taken for a high wall. *)
Theorem C83_goda1967_missing : forall Hsi Rc alpha_1 beta_1, missing [Hsi; Rc] ->
  Goda1967.calculate_wave_transmission_Kt Hsi Rc alpha_1 beta_1 = CoreUtility.PyFloat (Fin 0.03).
Proof. missing; unfold Goda1967.calculate_wave_transmission_Kt; cbv zeta; nan; reflexivity. Qed.
Theorem C83_goda1967_refuted : exists Hsi Rc, missing [Hsi; Rc] /\
  Goda1967.calculate_wave_transmission_Kt Hsi Rc Goda1967.alpha_1_default Goda1967.beta_1_default = CoreUtility.PyFloat (Fin 0.03).
Proof. exists (Fin 2), NaN. split; [cbn; tauto|]. apply C83_goda1967_missing. cbn; tauto. Qed.

(** Xbloc and XblocPlus: a missing quantity asks for no correction. *)
Theorem C83_xbloc_factors :
  Xbloc.xbloc_factor_cotalpha_seabed NaN = Fin 1 /\ Xbloc.xbloc_factor_percslope_seabed NaN = Fin 1 /\ Xbloc.xbloc_factor_relative_freeboard NaN = Fin 1 /\
  Xbloc.xbloc_factor_rel_depth NaN = Fin 1 /\ Xbloc.xbloc_factor_structure_slope NaN = Fin 1 /\
  Xbloc.xblocplus_factor_cotalpha_seabed NaN = Fin 1 /\ Xbloc.xblocplus_factor_percslope_seabed NaN = Fin 1 /\ Xbloc.xblocplus_factor_relative_freeboard NaN = Fin 1.
Proof. repeat apply conj; try reflexivity. unfold Xbloc.xbloc_factor_structure_slope. nan. reflexivity. Qed.
(** The size of a unit is a number then, where a larger factor may be due. *)
Theorem C83_xbloc_refuted : exists Hs slope rho_water rho_armour, missing [slope] /\ exists v,
  Xbloc.xbloc_unit_volume_V Hs rho_water rho_armour (Xbloc.xbloc_factor_cotalpha_seabed slope) = Fin v /\
  Xbloc.xbloc_unit_volume_V Hs rho_water rho_armour (Xbloc.xbloc_factor_cotalpha_seabed (Fin 10)) = Fin (2 * v).
Proof.
  exists (Fin 4), NaN, (Fin 1025), (Fin 2400). split; [cbn; tauto|]. exists ((4 / (2.77 * ((2400 - 1025) / 1025))) ^ 3).
  assert (F : Xbloc.xbloc_factor_cotalpha_seabed (Fin 10) = Fin 2).
  { unfold Xbloc.xbloc_factor_cotalpha_seabed. rewrite !nle_fin, !ngt_fin, !Rleb_true, !Rltb_false by lra. reflexivity. }
  rewrite F. replace (Xbloc.xbloc_factor_cotalpha_seabed NaN) with (Fin 1) by reflexivity.
  unfold Xbloc.xbloc_unit_volume_V, CorePhysics.calculate_buoyant_density_Delta. cbv zeta. nfin. split; f_equal; lra.
Qed.

(** EurOtop (2007): without slope (the default) or period the discharge over a
    rubble mound is a number, that of the roughness factor as given. *)
Theorem C83_eurotop2007_missing : forall Hm0 Tmm10 Rc beta gamma_beta gamma_f cot_alpha c2 c3, missing [Tmm10; cot_alpha] ->
  OvertoppingEurotop2007.calculate_dimensionless_overtopping_discharge_q_rubble_mound Hm0 Tmm10 Rc beta gamma_beta gamma_f cot_alpha c2 c3 false
  = bind (RunupTAW2002.check_calculate_gamma_beta beta gamma_beta) (fun b =>
      ret (OvertoppingTAW2002.q_diml_max_equation Hm0 Rc (if b then RunupTAW2002.calculate_influence_oblique_waves_gamma_beta beta RunupTAW2002.c_gamma_beta_default
        RunupTAW2002.max_angle_default else gamma_beta) gamma_f c3 OvertoppingTAW2002.cor3_default c2)).
Proof.
  missing; unfold OvertoppingEurotop2007.calculate_dimensionless_overtopping_discharge_q_rubble_mound, OvertoppingEurotop2007.check_best_fit,
    OvertoppingEurotop2007.influence_factors, RunupTAW2002.calculate_adjusted_influence_roughness_gamma_f, CorePhysics.calculate_Iribarren_number_ksi,
    CorePhysics.calculate_wave_steepness_s; cbv zeta; nan; cbn [andb]; rewrite bind_assoc; reflexivity.
Qed.
Theorem C83_eurotop2007_refuted : exists Hm0 Tmm10 Rc gamma_f slope, missing [slope] /\ exists q,
  value (OvertoppingEurotop2007.calculate_dimensionless_overtopping_discharge_q_rubble_mound Hm0 Tmm10 Rc NaN (Fin 1) gamma_f slope
    OvertoppingEurotop2007.c2_default OvertoppingEurotop2007.c3_default false) = Ok (Fin q).
Proof.
  exists (Fin 2), (Fin 8), (Fin 3), (Fin 0.45), NaN. split; [cbn; tauto|]. exists (0.2 * exp (- (1) * (2.3 + 0) * (3 / 2) * (1 / (0.45 * 1)))).
  rewrite C83_eurotop2007_missing by (cbn; tauto).
  unfold RunupTAW2002.check_calculate_gamma_beta. cbn -[OvertoppingTAW2002.q_diml_max_equation]. 
  unfold OvertoppingTAW2002.q_diml_max_equation, OvertoppingEurotop2007.c2_default, OvertoppingEurotop2007.c3_default, OvertoppingTAW2002.cor3_default. nfin. reflexivity.
Qed.

(** EurOtop (2018): the same without a period. *)
Theorem C83_eurotop2018_refuted : exists Hm0 Tmm10 Rc gamma_f slope, missing [Tmm10] /\ exists q,
  value (OvertoppingEurotop2018.calculate_dimensionless_overtopping_discharge_q_rubble_mound Hm0 Tmm10 Rc NaN (Fin 1) gamma_f (Fin 0) (Fin 0) slope NaN NaN
    OvertoppingEurotop2018.c2_default OvertoppingEurotop2018.c3_default false) = Ok (Fin q).
Proof.
  exists (Fin 2), NaN, (Fin 3), (Fin 0.45), (Fin 2). split; [cbn; tauto|].
  exists (0.1035 * exp (- (1) * Rpower (1.35 * (3 / 2) * (1 / (0.45 * 1 * 1))) 1.3)).
  unfold OvertoppingEurotop2018.calculate_dimensionless_overtopping_discharge_q_rubble_mound, OvertoppingEurotop2018.check_best_fit.
  replace (OvertoppingEurotop2018.factor_beta NaN (Fin 1) (Fin 0.45)) with (ret (Fin 1)) by reflexivity. rewrite bind_ret_l.
  replace (OvertoppingEurotop2018.slope (Fin 2) NaN (Fin 2) NaN NaN (Fin 0) (Fin 0) (Fin 0.45) (Fin 1) false) with (ret (Fin 2)) by reflexivity.
  rewrite bind_ret_l. cbv zeta.
  replace (CorePhysics.calculate_Iribarren_number_ksi (Fin 2) NaN (Fin 2)) with NaN
    by (unfold CorePhysics.calculate_Iribarren_number_ksi, CorePhysics.calculate_wave_steepness_s; nan; reflexivity).
  unfold RunupTAW2002.calculate_adjusted_influence_roughness_gamma_f. nan. cbn [andb].
  unfold OvertoppingEurotop2018.check_validity_range_rubble_mound. mval.
  unfold OvertoppingEurotop2018.q_diml_max_equation, OvertoppingEurotop2018.c2_default, OvertoppingEurotop2018.c3_default, OvertoppingEurotop2018.gamma_star_default.
  nfin. rewrite value_when_check. reflexivity.
Qed.

Example C83_example :
  no_number (CorePhysics.calculate_stability_number_Ns NaN (Fin 1) (Fin 2650) (Fin 1025))
  /\ CorePhysics.calculate_stability_number_Ns (Fin 2) (Fin 1) (Fin 2050) (Fin 1025) = Fin 2.
Proof.
  split; unfold CorePhysics.calculate_stability_number_Ns, CorePhysics.calculate_buoyant_density_Delta.
  - nanrun.
  - nfin. f_equal. lra.
Qed.
