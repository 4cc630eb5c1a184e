(** C76: formulas of stability on another scale *)
From Coq Require Import Reals Lra Lia Bool ZArith String List.
From Verif.Lib Require Import Num Monad RTac NTac.
From Verif.Spec Require Import Similarity.
From Verif.Model Require Import CoreUtility CorePhysics.
From Verif.Model Require Hudson1959 HudsonUnits VanderMeer1988 VanderMeer1988Modified Scaravaglione2025 EtemadShahidi2020 EtemadShahidi2021 KramerBurcharth2004 Cubes Xbloc
  Jumelet2024 Gerding1993 VanderMeer1998 VanGentVanderWerf2014 RearVanGent2007 RearVanGentPozueta2004 VanGent2002Velocity VanGent2001.
From Verif.Proofs Require Import Core Similarity SimilarityLoops.
Open Scope R_scope.

(** The basic quantities *)
Theorem C76_core_physics l d : 0 < l -> 0 < d -> 
  (forall H T g, CorePhysics.calculate_wave_steepness_s (distance l H) (time l T) g = CorePhysics.calculate_wave_steepness_s H T g) /\
  (forall H T cot_alpha, CorePhysics.calculate_Iribarren_number_ksi (distance l H) (time l T) cot_alpha = CorePhysics.calculate_Iribarren_number_ksi H T cot_alpha) /\
  (forall rho_rock rho_water, CorePhysics.calculate_buoyant_density_Delta (density d rho_rock) (density d rho_water) = CorePhysics.calculate_buoyant_density_Delta rho_rock rho_water) /\
  (forall H Dd rho_rock rho_water, CorePhysics.calculate_stability_number_Ns (distance l H) (distance l Dd) (density d rho_rock) (density d rho_water) = CorePhysics.calculate_stability_number_Ns H Dd rho_rock rho_water) /\
  (forall Dn50 rho_rock, CorePhysics.calculate_M50_from_Dn50 (distance l Dn50) (density d rho_rock) = mass l d (CorePhysics.calculate_M50_from_Dn50 Dn50 rho_rock)) /\
  (forall M50 rho_rock, CorePhysics.calculate_Dn50_from_M50 (mass l d M50) (density d rho_rock) = distance l (CorePhysics.calculate_Dn50_from_M50 M50 rho_rock)).
Proof.
  intros L D.
  split; [intros; start l d; pure|].
  split; [intros; start l d; pure|].
  split; [intros; start l d; pure|].
  split; [intros; start l d; pure|].
  split; [intros; start l d; pure|].
  intros; start l d; pure.
Qed.

(** Rock armour *)
Theorem C76_hudson1959 l d : 0 < l -> 0 < d -> 
  (forall Hs rho_water rho_armour KD cot_alpha alpha_Hs, Hudson1959.calculate_median_rock_mass_M50_no_damage (distance l Hs) (density d rho_water) (density d rho_armour) KD cot_alpha alpha_Hs = mass l d (Hudson1959.calculate_median_rock_mass_M50_no_damage Hs rho_water rho_armour KD cot_alpha alpha_Hs)) /\
  (forall M50 rho_water rho_armour KD cot_alpha alpha_Hs, Hudson1959.calculate_significant_wave_height_Hs_no_damage (mass l d M50) (density d rho_water) (density d rho_armour) KD cot_alpha alpha_Hs = distance l (Hudson1959.calculate_significant_wave_height_Hs_no_damage M50 rho_water rho_armour KD cot_alpha alpha_Hs)) /\
  (forall Hs rho_water rho_armour KD cot_alpha damage_percentage (rock_type : string) alpha_Hs, similar (mass l d)
     (Hudson1959.calculate_median_rock_mass_M50 (distance l Hs) (density d rho_water) (density d rho_armour) KD cot_alpha damage_percentage rock_type alpha_Hs)
     (Hudson1959.calculate_median_rock_mass_M50 Hs rho_water rho_armour KD cot_alpha damage_percentage rock_type alpha_Hs)) /\
  (forall M50 rho_water rho_armour KD cot_alpha damage_percentage (rock_type : string) alpha_Hs, similar (distance l)
     (Hudson1959.calculate_significant_wave_height_Hs (mass l d M50) (density d rho_water) (density d rho_armour) KD cot_alpha damage_percentage rock_type alpha_Hs)
     (Hudson1959.calculate_significant_wave_height_Hs M50 rho_water rho_armour KD cot_alpha damage_percentage rock_type alpha_Hs)).
Proof.
  intros L D.
  split; [intros; start l d; pure|].
  split; [intros; start l d; pure|].
  split; [intros; apply sim_similar; start l d; sims|].
  intros; apply sim_similar; start l d; sims.
Qed.

Theorem C76_vandermeer1988 l d : 0 < l -> 0 < d -> 
  (forall Hs H2p Tm N_waves cot_alpha P rho_armour Dn50 M50 c_pl c_s rho_water, d = 1 \/ isnan rho_armour = false -> similar_upto_density d same
     (VanderMeer1988.calculate_damage_number_S (distance l Hs) (distance l H2p) (time l Tm) N_waves cot_alpha P (density d rho_armour) (distance l Dn50) (mass l d M50) c_pl c_s (density d rho_water))
     (VanderMeer1988.calculate_damage_number_S Hs H2p Tm N_waves cot_alpha P rho_armour Dn50 M50 c_pl c_s rho_water)) /\
  (forall Hs H2p Tm N_waves cot_alpha P rho_armour S c_pl c_s rho_water, similar_upto_density d (distance l)
     (VanderMeer1988.calculate_nominal_rock_diameter_Dn50 (distance l Hs) (distance l H2p) (time l Tm) N_waves cot_alpha P (density d rho_armour) S c_pl c_s (density d rho_water))
     (VanderMeer1988.calculate_nominal_rock_diameter_Dn50 Hs H2p Tm N_waves cot_alpha P rho_armour S c_pl c_s rho_water)) /\
  (forall ratio_H2p_Hs Tm N_waves cot_alpha (P : R) rho_armour S Dn50 M50 c_pl c_s g rho_water, P <> -2 -> d = 1 \/ isnan rho_armour = false -> similar_upto_density d (distance l)
     (VanderMeer1988.calculate_significant_wave_height_Hs ratio_H2p_Hs (time l Tm) N_waves cot_alpha (Fin P) (density d rho_armour) S (distance l Dn50) (mass l d M50) c_pl c_s g (density d rho_water))
     (VanderMeer1988.calculate_significant_wave_height_Hs ratio_H2p_Hs Tm N_waves cot_alpha (Fin P) rho_armour S Dn50 M50 c_pl c_s g rho_water)).
Proof.
  intros L D.
  split; [intros; apply sim_upto_density; intros; start l d; sims|].
  split; [intros; apply sim_upto_density; intros; start l d; sims|].
  intros; apply sim_upto_density; intros; start l d; sims.
Qed.

Theorem C76_vandermeer1988_modified l d : 0 < l -> 0 < d -> 
  (forall Hs H2p Tmm10 N_waves cot_alpha P rho_armour Dn50 M50 c_pl c_s rho_water, d = 1 \/ isnan rho_armour = false -> similar_upto_density d same
     (VanderMeer1988Modified.calculate_damage_number_S (distance l Hs) (distance l H2p) (time l Tmm10) N_waves cot_alpha P (density d rho_armour) (distance l Dn50) (mass l d M50) c_pl c_s (density d rho_water))
     (VanderMeer1988Modified.calculate_damage_number_S Hs H2p Tmm10 N_waves cot_alpha P rho_armour Dn50 M50 c_pl c_s rho_water)) /\
  (forall Hs H2p Tmm10 N_waves cot_alpha P rho_armour S c_pl c_s rho_water, similar_upto_density d (distance l)
     (VanderMeer1988Modified.calculate_nominal_rock_diameter_Dn50 (distance l Hs) (distance l H2p) (time l Tmm10) N_waves cot_alpha P (density d rho_armour) S c_pl c_s (density d rho_water))
     (VanderMeer1988Modified.calculate_nominal_rock_diameter_Dn50 Hs H2p Tmm10 N_waves cot_alpha P rho_armour S c_pl c_s rho_water)) /\
  (forall ratio_H2p_Hs Tmm10 N_waves cot_alpha (P : R) rho_armour S Dn50 M50 c_pl c_s g rho_water, P <> -2 -> d = 1 \/ isnan rho_armour = false -> similar_upto_density d (distance l)
     (VanderMeer1988Modified.calculate_significant_wave_height_Hs ratio_H2p_Hs (time l Tmm10) N_waves cot_alpha (Fin P) (density d rho_armour) S (distance l Dn50) (mass l d M50) c_pl c_s g (density d rho_water))
     (VanderMeer1988Modified.calculate_significant_wave_height_Hs ratio_H2p_Hs Tmm10 N_waves cot_alpha (Fin P) rho_armour S Dn50 M50 c_pl c_s g rho_water)).
Proof.
  intros L D.
  split; [intros; apply sim_upto_density; intros; start l d; sims|].
  split; [intros; apply sim_upto_density; intros; start l d; sims|].
  intros; apply sim_upto_density; intros; start l d; sims.
Qed.

Theorem C76_vandermeer2021 l : 0 < l -> 
  (forall Hs Tmm10 N_waves cot_alpha P rho_armour Dn50 M50 c_pl c_s c_pl_mult c_s_mult, similar same
     (VanderMeer1988Modified.damage_number_S_2021 (distance l Hs) (time l Tmm10) N_waves cot_alpha P rho_armour (distance l Dn50) (mass l 1 M50) c_pl c_s c_pl_mult c_s_mult)
     (VanderMeer1988Modified.damage_number_S_2021 Hs Tmm10 N_waves cot_alpha P rho_armour Dn50 M50 c_pl c_s c_pl_mult c_s_mult)) /\
  (forall Hs Tmm10 N_waves cot_alpha P rho_armour S c_pl c_s c_pl_mult c_s_mult, similar (distance l)
     (VanderMeer1988Modified.nominal_rock_diameter_Dn50_2021 (distance l Hs) (time l Tmm10) N_waves cot_alpha P rho_armour S c_pl c_s c_pl_mult c_s_mult)
     (VanderMeer1988Modified.nominal_rock_diameter_Dn50_2021 Hs Tmm10 N_waves cot_alpha P rho_armour S c_pl c_s c_pl_mult c_s_mult)) /\
  (forall Tmm10 N_waves cot_alpha (P : R) rho_armour S Dn50 M50 c_pl c_s c_pl_mult c_s_mult g, P <> -2 -> similar (distance l)
     (VanderMeer1988Modified.significant_wave_height_Hs_2021 (time l Tmm10) N_waves cot_alpha (Fin P) rho_armour S (distance l Dn50) (mass l 1 M50) c_pl c_s c_pl_mult c_s_mult g)
     (VanderMeer1988Modified.significant_wave_height_Hs_2021 Tmm10 N_waves cot_alpha (Fin P) rho_armour S Dn50 M50 c_pl c_s c_pl_mult c_s_mult g)).
Proof.
  intros L.
  split; [intros; pose proof Rlt_0_1; apply sim_similar; start l 1; sims|].
  split; [intros; pose proof Rlt_0_1; apply sim_similar; start l 1; sims|].
  intros; pose proof Rlt_0_1; apply sim_similar; start l 1; sims.
Qed.

Theorem C76_scaravaglione2025 l d : 0 < l -> 0 < d -> 
  (forall Hm0 Tmm10 N_waves cot_alpha rho_armour rho_core Dn50 Dn50_core M50 M50_core c_VGnew rho_water, d = 1 \/ isnan rho_armour = false -> d = 1 \/ isnan rho_core = false -> similar_upto_density d same
     (Scaravaglione2025.calculate_damage_number_S (distance l Hm0) (time l Tmm10) N_waves cot_alpha (density d rho_armour) (density d rho_core) (distance l Dn50) (distance l Dn50_core) (mass l d M50) (mass l d M50_core) c_VGnew (density d rho_water))
     (Scaravaglione2025.calculate_damage_number_S Hm0 Tmm10 N_waves cot_alpha rho_armour rho_core Dn50 Dn50_core M50 M50_core c_VGnew rho_water)) /\
  (forall Hm0 Tmm10 N_waves cot_alpha rho_armour rho_core S Dn50_core M50_core c_VGnew rho_water, d = 1 \/ isnan rho_core = false -> similar_upto_density d (distance l)
     (Scaravaglione2025.calculate_nominal_rock_diameter_Dn50 (distance l Hm0) (time l Tmm10) N_waves cot_alpha (density d rho_armour) (density d rho_core) S (distance l Dn50_core) (mass l d M50_core) c_VGnew (density d rho_water))
     (Scaravaglione2025.calculate_nominal_rock_diameter_Dn50 Hm0 Tmm10 N_waves cot_alpha rho_armour rho_core S Dn50_core M50_core c_VGnew rho_water)) /\
  (forall Tmm10 N_waves cot_alpha rho_armour rho_core S Dn50 Dn50_core M50 M50_core c_VGnew g rho_water, d = 1 \/ isnan rho_armour = false -> d = 1 \/ isnan rho_core = false -> similar_upto_density d (distance l)
     (Scaravaglione2025.calculate_significant_wave_height_Hm0 (time l Tmm10) N_waves cot_alpha (density d rho_armour) (density d rho_core) S (distance l Dn50) (distance l Dn50_core) (mass l d M50) (mass l d M50_core) c_VGnew g (density d rho_water))
     (Scaravaglione2025.calculate_significant_wave_height_Hm0 Tmm10 N_waves cot_alpha rho_armour rho_core S Dn50 Dn50_core M50 M50_core c_VGnew g rho_water)).
Proof.
  intros L D.
  split; [intros; apply sim_upto_density; intros; start l d; sims|].
  split; [intros; apply sim_upto_density; intros; start l d; sims|].
  intros; apply sim_upto_density; intros; start l d; sims.
Qed.

Theorem C76_etemadshahidi2020_damage l d : 0 < l -> 0 < d -> 
  (forall Hs Tmm10 N_waves cot_alpha rho_armour Dn50 M50 Dn50_core M50_core rho_core rho_water m (use_depth_limited_version : bool), d = 1 \/ isnan rho_armour = false -> d = 1 \/ isnan rho_core = false -> similar_upto_density d same
     (EtemadShahidi2020.calculate_damage_number_S (distance l Hs) (time l Tmm10) N_waves cot_alpha (density d rho_armour) (distance l Dn50) (mass l d M50) (distance l Dn50_core) (mass l d M50_core) (density d rho_core) (density d rho_water) m use_depth_limited_version)
     (EtemadShahidi2020.calculate_damage_number_S Hs Tmm10 N_waves cot_alpha rho_armour Dn50 M50 Dn50_core M50_core rho_core rho_water m use_depth_limited_version)).
Proof.
  intros L D.
  intros; apply sim_upto_density; intros; start l d; sims.
Qed.

Theorem C76_etemadshahidi2020 l : 0 < l -> 
  (forall Hs Tmm10 N_waves cot_alpha rho_armour S Dn50_core M50_core rho_core m (use_depth_limited_version : bool) Cp_init (max_iter : nat) tolerance, similar (distance l)
     (EtemadShahidi2020.calculate_nominal_rock_diameter_Dn50 (distance l Hs) (time l Tmm10) N_waves cot_alpha rho_armour S (distance l Dn50_core) (mass l 1 M50_core) rho_core m use_depth_limited_version Cp_init max_iter (distance l tolerance))
     (EtemadShahidi2020.calculate_nominal_rock_diameter_Dn50 Hs Tmm10 N_waves cot_alpha rho_armour S Dn50_core M50_core rho_core m use_depth_limited_version Cp_init max_iter tolerance)) /\
  (forall Tmm10 N_waves cot_alpha rho_armour S Dn50 M50 Dn50_core M50_core rho_core m (use_depth_limited_version : bool) g, similar (distance l)
     (EtemadShahidi2020.calculate_significant_wave_height_Hs (time l Tmm10) N_waves cot_alpha rho_armour S (distance l Dn50) (mass l 1 M50) (distance l Dn50_core) (mass l 1 M50_core) rho_core m use_depth_limited_version g)
     (EtemadShahidi2020.calculate_significant_wave_height_Hs Tmm10 N_waves cot_alpha rho_armour S Dn50 M50 Dn50_core M50_core rho_core m use_depth_limited_version g)).
Proof.
  intros L.
  split; [intros; pose proof Rlt_0_1; apply sim_similar; start l 1; sims|].
  intros; pose proof Rlt_0_1; apply sim_similar; start l 1; sims.
Qed.

Theorem C76_jumelet2024_damage l d : 0 < l -> 0 < d -> 
  (forall Hs Tmm10 N_waves cot_alpha rho_armour Dn50 M50 c_pl rho_water, d = 1 \/ isnan rho_armour = false -> similar_upto_density d same
     (Jumelet2024.calculate_damage_number_S (distance l Hs) (time l Tmm10) N_waves cot_alpha (density d rho_armour) (distance l Dn50) (mass l d M50) c_pl (density d rho_water))
     (Jumelet2024.calculate_damage_number_S Hs Tmm10 N_waves cot_alpha rho_armour Dn50 M50 c_pl rho_water)).
Proof.
  intros L D.
  intros; apply sim_upto_density; intros; start l d; sims.
Qed.

Theorem C76_jumelet2024 l : 0 < l -> 
  (forall Hs Tmm10 N_waves cot_alpha rho_armour S c_pl, similar (distance l)
     (Jumelet2024.calculate_nominal_rock_diameter_Dn50 (distance l Hs) (time l Tmm10) N_waves cot_alpha rho_armour S c_pl)
     (Jumelet2024.calculate_nominal_rock_diameter_Dn50 Hs Tmm10 N_waves cot_alpha rho_armour S c_pl)) /\
  (forall Tmm10 N_waves cot_alpha rho_armour S Dn50 M50 c_pl g smm10_init (max_iter : nat) tolerance, similar (distance l)
     (Jumelet2024.calculate_significant_wave_height_Hs (time l Tmm10) N_waves cot_alpha rho_armour S (distance l Dn50) (mass l 1 M50) c_pl g smm10_init max_iter (distance l tolerance))
     (Jumelet2024.calculate_significant_wave_height_Hs Tmm10 N_waves cot_alpha rho_armour S Dn50 M50 c_pl g smm10_init max_iter tolerance)).
Proof.
  intros L.
  split; [intros; pose proof Rlt_0_1; apply sim_similar; start l 1; sims|].
  intros; pose proof Rlt_0_1; apply sim_similar; start l 1; sims.
Qed.

Theorem C76_kramer2004 l : 0 < l -> 
  (forall Hs Rc rho_armour Ns_init (max_iter : nat) tolerance, similar (distance l)
     (KramerBurcharth2004.calculate_nominal_rock_diameter_Dn50 (distance l Hs) (distance l Rc) rho_armour Ns_init max_iter (distance l tolerance))
     (KramerBurcharth2004.calculate_nominal_rock_diameter_Dn50 Hs Rc rho_armour Ns_init max_iter tolerance)) /\
  (forall Rc rho_armour Dn50 M50, similar (distance l)
     (KramerBurcharth2004.calculate_significant_wave_height_Hs (distance l Rc) rho_armour (distance l Dn50) (mass l 1 M50))
     (KramerBurcharth2004.calculate_significant_wave_height_Hs Rc rho_armour Dn50 M50)) /\
  (forall Hs rho_armour Dn50 M50 Rc_Dn50_init (max_iter : nat) tolerance, similar (distance l)
     (KramerBurcharth2004.calculate_crest_freeboard_Rc (distance l Hs) rho_armour (distance l Dn50) (mass l 1 M50) Rc_Dn50_init max_iter (distance l tolerance))
     (KramerBurcharth2004.calculate_crest_freeboard_Rc Hs rho_armour Dn50 M50 Rc_Dn50_init max_iter tolerance)).
Proof.
  intros L.
  split; [intros; pose proof Rlt_0_1; apply sim_similar; start l 1; sims|].
  split; [intros; pose proof Rlt_0_1; apply sim_similar; start l 1; sims|].
  intros; pose proof Rlt_0_1; apply sim_similar; start l 1; sims.
Qed.

(** Concrete units *)
Theorem C76_units_hudson l d : 0 < l -> 0 < d -> 
  (forall Hs rho_water rho_armour KD cot_alpha alpha_Hs, similar (mass l d)
     (HudsonUnits.accropode2_unit_mass_M (distance l Hs) (density d rho_water) (density d rho_armour) KD cot_alpha alpha_Hs)
     (HudsonUnits.accropode2_unit_mass_M Hs rho_water rho_armour KD cot_alpha alpha_Hs)) /\
  (forall Hs rho_water rho_armour KD cot_alpha alpha_Hs, similar (mass l d)
     (HudsonUnits.accropode_unit_mass_M (distance l Hs) (density d rho_water) (density d rho_armour) KD cot_alpha alpha_Hs)
     (HudsonUnits.accropode_unit_mass_M Hs rho_water rho_armour KD cot_alpha alpha_Hs)) /\
  (forall Hs rho_water rho_armour KD cot_alpha alpha_Hs, similar (mass l d)
     (HudsonUnits.core_loc_unit_mass_M (distance l Hs) (density d rho_water) (density d rho_armour) KD cot_alpha alpha_Hs)
     (HudsonUnits.core_loc_unit_mass_M Hs rho_water rho_armour KD cot_alpha alpha_Hs)) /\
  (forall Hs rho_water rho_armour KD cot_alpha alpha_Hs, similar (mass l d)
     (HudsonUnits.cubes_unit_mass_M (distance l Hs) (density d rho_water) (density d rho_armour) KD cot_alpha alpha_Hs)
     (HudsonUnits.cubes_unit_mass_M Hs rho_water rho_armour KD cot_alpha alpha_Hs)) /\
  (forall Hs rho_water rho_armour KD cot_alpha alpha_Hs, similar (mass l d)
     (HudsonUnits.cubipod_unit_mass_M (distance l Hs) (density d rho_water) (density d rho_armour) KD cot_alpha alpha_Hs)
     (HudsonUnits.cubipod_unit_mass_M Hs rho_water rho_armour KD cot_alpha alpha_Hs)) /\
  (forall Hs rho_water rho_armour KD cot_alpha alpha_Hs, similar (mass l d)
     (HudsonUnits.tetrapod_unit_mass_M (distance l Hs) (density d rho_water) (density d rho_armour) KD cot_alpha alpha_Hs)
     (HudsonUnits.tetrapod_unit_mass_M Hs rho_water rho_armour KD cot_alpha alpha_Hs)) /\
  (forall m rho_water rho_armour KD cot_alpha alpha_Hs, similar (distance l)
     (HudsonUnits.accropode2_wave_height_Hs (mass l d m) (density d rho_water) (density d rho_armour) KD cot_alpha alpha_Hs)
     (HudsonUnits.accropode2_wave_height_Hs m rho_water rho_armour KD cot_alpha alpha_Hs)) /\
  (forall m rho_water rho_armour KD cot_alpha alpha_Hs, similar (distance l)
     (HudsonUnits.accropode_wave_height_Hs (mass l d m) (density d rho_water) (density d rho_armour) KD cot_alpha alpha_Hs)
     (HudsonUnits.accropode_wave_height_Hs m rho_water rho_armour KD cot_alpha alpha_Hs)) /\
  (forall m rho_water rho_armour KD cot_alpha alpha_Hs, similar (distance l)
     (HudsonUnits.core_loc_wave_height_Hs (mass l d m) (density d rho_water) (density d rho_armour) KD cot_alpha alpha_Hs)
     (HudsonUnits.core_loc_wave_height_Hs m rho_water rho_armour KD cot_alpha alpha_Hs)) /\
  (forall m rho_water rho_armour KD cot_alpha alpha_Hs, similar (distance l)
     (HudsonUnits.cubes_wave_height_Hs (mass l d m) (density d rho_water) (density d rho_armour) KD cot_alpha alpha_Hs)
     (HudsonUnits.cubes_wave_height_Hs m rho_water rho_armour KD cot_alpha alpha_Hs)) /\
  (forall m rho_water rho_armour KD cot_alpha alpha_Hs, similar (distance l)
     (HudsonUnits.cubipod_wave_height_Hs (mass l d m) (density d rho_water) (density d rho_armour) KD cot_alpha alpha_Hs)
     (HudsonUnits.cubipod_wave_height_Hs m rho_water rho_armour KD cot_alpha alpha_Hs)) /\
  (forall m rho_water rho_armour KD cot_alpha alpha_Hs, similar (distance l)
     (HudsonUnits.tetrapod_wave_height_Hs (mass l d m) (density d rho_water) (density d rho_armour) KD cot_alpha alpha_Hs)
     (HudsonUnits.tetrapod_wave_height_Hs m rho_water rho_armour KD cot_alpha alpha_Hs)).
Proof.
  intros L D.
  split; [intros; apply sim_similar; start l d; sims|].
  split; [intros; apply sim_similar; start l d; sims|].
  split; [intros; apply sim_similar; start l d; sims|].
  split; [intros; apply sim_similar; start l d; sims|].
  split; [intros; apply sim_similar; start l d; sims|].
  split; [intros; apply sim_similar; start l d; sims|].
  split; [intros; apply sim_similar; start l d; sims|].
  split; [intros; apply sim_similar; start l d; sims|].
  split; [intros; apply sim_similar; start l d; sims|].
  split; [intros; apply sim_similar; start l d; sims|].
  split; [intros; apply sim_similar; start l d; sims|].
  intros; apply sim_similar; start l d; sims.
Qed.

Theorem C76_cubes_masses l d : 0 < l -> 0 < d -> 
  (forall Hs rho_water rho_armour Ns, similar (mass l d)
     (Cubes.calculate_unit_mass_M_start_of_damage (distance l Hs) (density d rho_water) (density d rho_armour) Ns)
     (Cubes.calculate_unit_mass_M_start_of_damage Hs rho_water rho_armour Ns)) /\
  (forall Hs rho_water rho_armour Ns, similar (mass l d)
     (Cubes.calculate_unit_mass_M_failure (distance l Hs) (density d rho_water) (density d rho_armour) Ns)
     (Cubes.calculate_unit_mass_M_failure Hs rho_water rho_armour Ns)) /\
  (forall m rho_water rho_armour Ns, similar (distance l)
     (Cubes.calculate_significant_wave_height_Hs_start_of_damage (mass l d m) (density d rho_water) (density d rho_armour) Ns)
     (Cubes.calculate_significant_wave_height_Hs_start_of_damage m rho_water rho_armour Ns)) /\
  (forall m rho_water rho_armour Ns, similar (distance l)
     (Cubes.calculate_significant_wave_height_Hs_failure (mass l d m) (density d rho_water) (density d rho_armour) Ns)
     (Cubes.calculate_significant_wave_height_Hs_failure m rho_water rho_armour Ns)).
Proof.
  intros L D.
  split; [intros; apply sim_similar; start l d; sims|].
  split; [intros; apply sim_similar; start l d; sims|].
  split; [intros; apply sim_similar; start l d; sims|].
  intros; apply sim_similar; start l d; sims.
Qed.

(** These warn about wave heights and periods themselves. *)
Theorem C76_cubes l d : 0 < l -> 0 < d -> 
  (forall Hs Tm rho_water rho_armour N_waves cot_alpha Nod, similar_value (distance l)
     (Cubes.calculate_nominal_diameter_Dn_vanDerMeer1988 (distance l Hs) (time l Tm) (density d rho_water) (density d rho_armour) N_waves cot_alpha Nod)
     (Cubes.calculate_nominal_diameter_Dn_vanDerMeer1988 Hs Tm rho_water rho_armour N_waves cot_alpha Nod)) /\
  (forall Dn s0m rho_water rho_armour N_waves cot_alpha Nod, similar_value (distance l)
     (Cubes.calculate_wave_height_Hs_vanDerMeer1988 (distance l Dn) s0m (density d rho_water) (density d rho_armour) N_waves cot_alpha Nod)
     (Cubes.calculate_wave_height_Hs_vanDerMeer1988 Dn s0m rho_water rho_armour N_waves cot_alpha Nod)) /\
  (forall Hs Dn s0m rho_water rho_armour N_waves cot_alpha, similar_value same
     (Cubes.calculate_damage_Nod_vanDerMeer1988 (distance l Hs) (distance l Dn) s0m (density d rho_water) (density d rho_armour) N_waves cot_alpha)
     (Cubes.calculate_damage_Nod_vanDerMeer1988 Hs Dn s0m rho_water rho_armour N_waves cot_alpha)).
Proof.
  intros L D.
  split; [intros; apply sim_value; start l d; sims|].
  split; [intros; apply sim_value; start l d; sims|].
  intros; apply sim_value; start l d; sims.
Qed.

Theorem C76_xbloc l d : 0 < l -> 0 < d -> 
  (forall V rho_water rho_armour total_correction_factor, Xbloc.xbloc_wave_height_Hs_from_V (volume l V) (density d rho_water) (density d rho_armour) total_correction_factor = distance l (Xbloc.xbloc_wave_height_Hs_from_V V rho_water rho_armour total_correction_factor)) /\
  (forall m rho_water rho_armour total_correction_factor, Xbloc.xbloc_wave_height_Hs_from_M (mass l d m) (density d rho_water) (density d rho_armour) total_correction_factor = distance l (Xbloc.xbloc_wave_height_Hs_from_M m rho_water rho_armour total_correction_factor)) /\
  (forall Hs rho_water rho_armour total_correction_factor, Xbloc.xbloc_unit_volume_V (distance l Hs) (density d rho_water) (density d rho_armour) total_correction_factor = volume l (Xbloc.xbloc_unit_volume_V Hs rho_water rho_armour total_correction_factor)) /\
  (forall Hs rho_water rho_armour total_correction_factor, Xbloc.xbloc_unit_mass_M (distance l Hs) (density d rho_water) (density d rho_armour) total_correction_factor = mass l d (Xbloc.xbloc_unit_mass_M Hs rho_water rho_armour total_correction_factor)) /\
  (forall V rho_water rho_armour total_correction_factor, Xbloc.xblocplus_wave_height_Hs_from_V (volume l V) (density d rho_water) (density d rho_armour) total_correction_factor = distance l (Xbloc.xblocplus_wave_height_Hs_from_V V rho_water rho_armour total_correction_factor)) /\
  (forall m rho_water rho_armour total_correction_factor, Xbloc.xblocplus_wave_height_Hs_from_M (mass l d m) (density d rho_water) (density d rho_armour) total_correction_factor = distance l (Xbloc.xblocplus_wave_height_Hs_from_M m rho_water rho_armour total_correction_factor)) /\
  (forall Hs rho_water rho_armour total_correction_factor, Xbloc.xblocplus_unit_volume_V (distance l Hs) (density d rho_water) (density d rho_armour) total_correction_factor = volume l (Xbloc.xblocplus_unit_volume_V Hs rho_water rho_armour total_correction_factor)) /\
  (forall Hs rho_water rho_armour total_correction_factor, Xbloc.xblocplus_unit_mass_M (distance l Hs) (density d rho_water) (density d rho_armour) total_correction_factor = mass l d (Xbloc.xblocplus_unit_mass_M Hs rho_water rho_armour total_correction_factor)).
Proof.
  intros L D.
  split; [intros; start l d; pure|].
  split; [intros; start l d; pure|].
  split; [intros; start l d; pure|].
  split; [intros; start l d; pure|].
  split; [intros; start l d; pure|].
  split; [intros; start l d; pure|].
  split; [intros; start l d; pure|].
  intros; start l d; pure.
Qed.

(** Toes *)
Theorem C76_gerding1993 l d : 0 < l -> 0 < d -> 
  (forall Hs ht h Dn50 rho_rock rho_water, similar same
     (Gerding1993.calculate_damage_Nod (distance l Hs) (distance l ht) (distance l h) (distance l Dn50) (density d rho_rock) (density d rho_water))
     (Gerding1993.calculate_damage_Nod Hs ht h Dn50 rho_rock rho_water)) /\
  (forall Hs ht h Nod rho_rock rho_water, similar (distance l)
     (Gerding1993.calculate_nominal_diameter_Dn50 (distance l Hs) (distance l ht) (distance l h) Nod (density d rho_rock) (density d rho_water))
     (Gerding1993.calculate_nominal_diameter_Dn50 Hs ht h Nod rho_rock rho_water)) /\
  (forall Dn50 ht h Nod rho_rock rho_water, similar (distance l)
     (Gerding1993.calculate_wave_height_Hs (distance l Dn50) (distance l ht) (distance l h) Nod (density d rho_rock) (density d rho_water))
     (Gerding1993.calculate_wave_height_Hs Dn50 ht h Nod rho_rock rho_water)) /\
  (forall Hs Dn50 h Nod rho_rock rho_water, similar (distance l)
     (Gerding1993.calculate_depth_above_toe_ht (distance l Hs) (distance l Dn50) (distance l h) Nod (density d rho_rock) (density d rho_water))
     (Gerding1993.calculate_depth_above_toe_ht Hs Dn50 h Nod rho_rock rho_water)).
Proof.
  intros L D.
  split; [intros; apply sim_similar; start l d; sims|].
  split; [intros; apply sim_similar; start l d; sims|].
  split; [intros; apply sim_similar; start l d; sims|].
  intros; apply sim_similar; start l d; sims.
Qed.

(** These warn about the wave height itself. *)
Theorem C76_vandermeer1998 l d : 0 < l -> 0 < d -> 
  (forall Hs ht h Dn50 rho_rock rho_water, similar_value same
     (VanderMeer1998.calculate_damage_Nod (distance l Hs) (distance l ht) (distance l h) (distance l Dn50) (density d rho_rock) (density d rho_water))
     (VanderMeer1998.calculate_damage_Nod Hs ht h Dn50 rho_rock rho_water)) /\
  (forall Hs ht h Nod rho_rock rho_water, similar_value (distance l)
     (VanderMeer1998.calculate_nominal_diameter_Dn50 (distance l Hs) (distance l ht) (distance l h) Nod (density d rho_rock) (density d rho_water))
     (VanderMeer1998.calculate_nominal_diameter_Dn50 Hs ht h Nod rho_rock rho_water)) /\
  (forall Dn50 ht h Nod rho_rock rho_water, similar_value (distance l)
     (VanderMeer1998.calculate_wave_height_Hs (distance l Dn50) (distance l ht) (distance l h) Nod (density d rho_rock) (density d rho_water))
     (VanderMeer1998.calculate_wave_height_Hs Dn50 ht h Nod rho_rock rho_water)) /\
  (forall Hs Dn50 h Nod rho_rock rho_water, similar_value (distance l)
     (VanderMeer1998.calculate_depth_above_toe_ht (distance l Hs) (distance l Dn50) (distance l h) Nod (density d rho_rock) (density d rho_water))
     (VanderMeer1998.calculate_depth_above_toe_ht Hs Dn50 h Nod rho_rock rho_water)).
Proof.
  intros L D.
  split; [intros; apply sim_value; start l d; sims|].
  split; [intros; apply sim_value; start l d; sims|].
  split; [intros; apply sim_value; start l d; sims|].
  intros; apply sim_value; start l d; sims.
Qed.

Theorem C76_vangent_vanderwerf2014 l d : 0 < l -> 0 < d -> 
  (forall Hs Tmm10 ht g, VanGentVanderWerf2014.calculate_velocity_u_delta (distance l Hs) (time l Tmm10) (distance l ht) g = velocity l (VanGentVanderWerf2014.calculate_velocity_u_delta Hs Tmm10 ht g)) /\
  (forall Hm0 Tmm10 ht Bt tt Dn50 rho_rock rho_water cot_alpha_armour_slope g c1 c2 c3 c4 c5, similar same
     (VanGentVanderWerf2014.calculate_damage_Nod (distance l Hm0) (time l Tmm10) (distance l ht) (distance l Bt) (distance l tt) (distance l Dn50) (density d rho_rock) (density d rho_water) cot_alpha_armour_slope g c1 c2 c3 c4 c5)
     (VanGentVanderWerf2014.calculate_damage_Nod Hm0 Tmm10 ht Bt tt Dn50 rho_rock rho_water cot_alpha_armour_slope g c1 c2 c3 c4 c5)) /\
  (forall Hm0 Tmm10 ht Bt tt Nod rho_rock rho_water cot_alpha_armour_slope g, similar (distance l)
     (VanGentVanderWerf2014.calculate_nominal_diameter_Dn50 (distance l Hm0) (time l Tmm10) (distance l ht) (distance l Bt) (distance l tt) Nod (density d rho_rock) (density d rho_water) cot_alpha_armour_slope g)
     (VanGentVanderWerf2014.calculate_nominal_diameter_Dn50 Hm0 Tmm10 ht Bt tt Nod rho_rock rho_water cot_alpha_armour_slope g)).
Proof.
  intros L D.
  split; [intros; start l d; pure|].
  split; [intros; apply sim_similar; start l d; sims|].
  intros; apply sim_similar; start l d; sims.
Qed.

Theorem C76_etemadshahidi2021 l d : 0 < l -> 0 < d -> 
  (forall Hs Tmm10 h ht Bt m Dn50 rho_rock rho_water g c1 c2 c3 c4 c5 c6 c7, similar_upto_density d same
     (EtemadShahidi2021.calculate_damage_Nod (distance l Hs) (time l Tmm10) (distance l h) (distance l ht) (distance l Bt) m (distance l Dn50) (density d rho_rock) (density d rho_water) g c1 c2 c3 c4 c5 c6 c7)
     (EtemadShahidi2021.calculate_damage_Nod Hs Tmm10 h ht Bt m Dn50 rho_rock rho_water g c1 c2 c3 c4 c5 c6 c7)) /\
  (forall Hs Tmm10 h ht Bt Nod m rho_rock rho_water g c1 c2 c3 c4 c5 c6 c7, similar_upto_density d (distance l)
     (EtemadShahidi2021.calculate_nominal_diameter_Dn50 (distance l Hs) (time l Tmm10) (distance l h) (distance l ht) (distance l Bt) Nod m (density d rho_rock) (density d rho_water) g c1 c2 c3 c4 c5 c6 c7)
     (EtemadShahidi2021.calculate_nominal_diameter_Dn50 Hs Tmm10 h ht Bt Nod m rho_rock rho_water g c1 c2 c3 c4 c5 c6 c7)).
Proof.
  intros L D.
  split; [intros; apply sim_upto_density; intros; start l d; sims|].
  intros; apply sim_upto_density; intros; start l d; sims.
Qed.

(** Rear slopes *)
Theorem C76_vangent2002_velocity l d : 0 < l -> 0 < d -> 
  (forall Hs zXp Rc Bc gamma_f gamma_f_Crest cu1 cu2 g, VanGent2002Velocity.calculate_maximum_wave_overtopping_velocity_uXp (distance l Hs) (distance l zXp) (distance l Rc) (distance l Bc) gamma_f gamma_f_Crest cu1 cu2 g = velocity l (VanGent2002Velocity.calculate_maximum_wave_overtopping_velocity_uXp Hs zXp Rc Bc gamma_f gamma_f_Crest cu1 cu2 g)) /\
  (forall Hs uXp Rc Bc gamma_f gamma_f_Crest cu1 cu2 g, VanGent2002Velocity.invert_for_zXp (distance l Hs) (velocity l uXp) (distance l Rc) (distance l Bc) gamma_f gamma_f_Crest cu1 cu2 g = distance l (VanGent2002Velocity.invert_for_zXp Hs uXp Rc Bc gamma_f gamma_f_Crest cu1 cu2 g)).
Proof.
  intros L D.
  split; [intros; start l d; pure|].
  intros; start l d; pure.
Qed.

Theorem C76_rear_vangent2007 l : 0 < l -> 
  (forall cot_alpha cot_phi gamma Hs Tmm10 Rc Rc2_front Rc2_rear N_waves Dn50 M50 rho_rock, similar same
     (RearVanGent2007.calculate_damage_number_S cot_alpha cot_phi gamma (distance l Hs) (time l Tmm10) (distance l Rc) (distance l Rc2_front) (distance l Rc2_rear) N_waves (distance l Dn50) (mass l 1 M50) rho_rock)
     (RearVanGent2007.calculate_damage_number_S cot_alpha cot_phi gamma Hs Tmm10 Rc Rc2_front Rc2_rear N_waves Dn50 M50 rho_rock)) /\
  (forall cot_alpha cot_phi gamma S Hs Tmm10 Rc Rc2_front Rc2_rear N_waves, similar (distance l)
     (RearVanGent2007.calculate_nominal_rock_diameter_Dn50 cot_alpha cot_phi gamma S (distance l Hs) (time l Tmm10) (distance l Rc) (distance l Rc2_front) (distance l Rc2_rear) N_waves)
     (RearVanGent2007.calculate_nominal_rock_diameter_Dn50 cot_alpha cot_phi gamma S Hs Tmm10 Rc Rc2_front Rc2_rear N_waves)) /\
  (forall cot_phi S Dn50 Hs Rc Rc2_front Rc2_rear N_waves, RearVanGent2007.invert_for_z1p cot_phi S (distance l Dn50) (distance l Hs) (distance l Rc) (distance l Rc2_front) (distance l Rc2_rear) N_waves = distance l (RearVanGent2007.invert_for_z1p cot_phi S Dn50 Hs Rc Rc2_front Rc2_rear N_waves)) /\
  (forall cot_alpha cot_phi gamma S Tmm10 Rc Rc2_front Rc2_rear N_waves Dn50 M50 rho_rock tolerance (max_iterations : nat), similar (distance l)
     (RearVanGent2007.calculate_maximum_significant_wave_height_Hs cot_alpha cot_phi gamma S (time l Tmm10) (distance l Rc) (distance l Rc2_front) (distance l Rc2_rear) N_waves (distance l Dn50) (mass l 1 M50) rho_rock (distance l tolerance) max_iterations)
     (RearVanGent2007.calculate_maximum_significant_wave_height_Hs cot_alpha cot_phi gamma S Tmm10 Rc Rc2_front Rc2_rear N_waves Dn50 M50 rho_rock tolerance max_iterations)).
Proof.
  intros L.
  split; [intros; pose proof Rlt_0_1; apply sim_similar; start l 1; sims|].
  split; [intros; pose proof Rlt_0_1; apply sim_similar; start l 1; sims|].
  split; [intros; pose proof Rlt_0_1; start l 1; pure|].
  intros; pose proof Rlt_0_1; apply sim_similar; start l 1; unfold RearVanGent2007.calculate_maximum_significant_wave_height_Hs; rear l 1.
Qed.

Theorem C76_rear_vangent_pozueta2004 l d : 0 < l -> 0 < d -> 
  (forall cot_alpha cot_phi gamma_f gamma_f_Crest Hs Tmm10 Rc Rc_rear Bc N_waves Dn50 M50 rho_rock rho_water cs, d = 1 \/ isnan rho_rock = false -> similar_upto_density d same
     (RearVanGentPozueta2004.calculate_damage_number_S cot_alpha cot_phi gamma_f gamma_f_Crest (distance l Hs) (time l Tmm10) (distance l Rc) (distance l Rc_rear) (distance l Bc) N_waves (distance l Dn50) (mass l d M50) (density d rho_rock) (density d rho_water) cs)
     (RearVanGentPozueta2004.calculate_damage_number_S cot_alpha cot_phi gamma_f gamma_f_Crest Hs Tmm10 Rc Rc_rear Bc N_waves Dn50 M50 rho_rock rho_water cs)) /\
  (forall cot_alpha cot_phi gamma_f gamma_f_Crest S Hs Tmm10 Rc Rc_rear Bc rho_rock N_waves rho_water cs, similar_upto_density d (distance l)
     (RearVanGentPozueta2004.calculate_nominal_rock_diameter_Dn50 cot_alpha cot_phi gamma_f gamma_f_Crest S (distance l Hs) (time l Tmm10) (distance l Rc) (distance l Rc_rear) (distance l Bc) (density d rho_rock) N_waves (density d rho_water) cs)
     (RearVanGentPozueta2004.calculate_nominal_rock_diameter_Dn50 cot_alpha cot_phi gamma_f gamma_f_Crest S Hs Tmm10 Rc Rc_rear Bc rho_rock N_waves rho_water cs)) /\
  (forall cot_phi S Hs Tmm10 Rc_rear N_waves Dn50 Delta cs, RearVanGentPozueta2004.invert_for_u1p cot_phi S (distance l Hs) (time l Tmm10) (distance l Rc_rear) N_waves (distance l Dn50) Delta cs = velocity l (RearVanGentPozueta2004.invert_for_u1p cot_phi S Hs Tmm10 Rc_rear N_waves Dn50 Delta cs)).
Proof.
  intros L D.
  split; [intros; apply sim_upto_density; intros; start l d; sims|].
  split; [intros; apply sim_upto_density; intros; start l d; sims|].
  intros; start l d; pure.
Qed.

(** The wave height for a crest at the water level, and the same on a scale of 1 to 50 *)
Example C76_kramer2004_example :
  value (KramerBurcharth2004.calculate_significant_wave_height_Hs #0 #2050 #1 NaN) = Ok #1.36 /\
  value (KramerBurcharth2004.calculate_significant_wave_height_Hs #0 #2050 #0.02 NaN) = Ok #0.0272.
Proof.
  assert (A : value (KramerBurcharth2004.calculate_significant_wave_height_Hs #0 #2050 #1 NaN) = Ok #1.36).
  { unfold KramerBurcharth2004.calculate_significant_wave_height_Hs, check_usage_Dn50_or_M50. cbn [isnan negb andb]. rewrite bind_ret_l. cbv zeta.
    rewrite (value_bind_ok _ _ tt) by apply value_when, value_check. unfold calculate_buoyant_density_Delta. cbn [value ret snd]. nfin; try lra.
    f_equal. f_equal. dec. field. }
  split; [exact A|]. pose proof (proj1 (proj2 (C76_kramer2004 0.02 ltac:(lra))) #0 #2050 #1 NaN) as S. unfold similar in S. cbn [distance mass scaled] in S.
  replace (Fin (0.02 * 0)) with #0 in S by (f_equal; lra). replace (Fin (0.02 * 1)) with #0.02 in S by (f_equal; lra).
  rewrite S, value_bind, A. cbn. do 2 f_equal. lra.
Qed.
