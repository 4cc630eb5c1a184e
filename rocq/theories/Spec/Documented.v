(** The defaults as the documentation of the functions states them ("by
    default ..."): the file, the function, and the parameters with the value named
    there.  Taken from the docstrings, not from the signatures. *)
From Coq Require Import String List QArith.
From Verif.Model Require Import Calling.
Import ListNotations.
Open Scope string_scope.

(** core_physics.py *)
Definition doc_core_physics : list (string * list (string * literal)) := [
  ("calculate_wave_steepness_s",
    [("g", Number (981 # 100))]);
  ("calculate_M50_from_Dn50",
    [("rho_rock", Number (2650 # 1))]);
  ("calculate_Dn50_from_M50",
    [("rho_rock", Number (2650 # 1))]);
  ("check_usage_stabilitynumber",
    [("Hs", Nothing); ("Dn", Nothing); ("Delta", Nothing); ("Ns", Nothing)]);
  ("calculate_local_wavelength",
    [("g", Number (981 # 100))])].

(** hydraulic/wave_overtopping/denbieman2021.py *)
Definition doc_wave_overtopping_denbieman2021 : list (string * list (string * literal)) := [
  ("write_input_file_XGB_Overtopping",
    [("file_name", Text "input_XGB_Overtopping")])].

(** hydraulic/wave_overtopping/deridder2024.py *)
Definition doc_wave_overtopping_deridder2024 : list (string * list (string * literal)) := [
  ("check_validity_range",
    [("h", Missing); ("Hm0", Missing); ("Hm0_HF", Missing); ("Hm0_LF", Missing); ("Tmm10", Missing); ("Tmm10_HF", Missing); ("Rc", Missing);
     ("cot_alpha", Missing); ("m_foreshore_slope", Missing); ("Dn50", Missing)]);
  ("calculate_crest_freeboard_discharge_q_eq24",
    [("g", Number (981 # 100))]);
  ("calculate_crest_freeboard_discharge_q_eq26",
    [("g", Number (981 # 100))]);
  ("calculate_dimensionless_crest_freeboard_discharge_q_eq24",
    [("g", Number (981 # 100))]);
  ("calculate_overtopping_discharge_q_eq24",
    [("g", Number (981 # 100))]);
  ("calculate_overtopping_discharge_q_eq26",
    [("g", Number (981 # 100))])].

(** hydraulic/wave_overtopping/deridder2026.py *)
Definition doc_wave_overtopping_deridder2026 : list (string * list (string * literal)) := [
  ("check_validity_range",
    [("h", Missing); ("Hm0", Missing); ("Hm0_HF", Missing); ("Hm0_LF", Missing); ("Tmm10", Missing); ("Tmm10_HF", Missing); ("Rc", Missing);
     ("Dn50", Missing); ("theta", Missing)]);
  ("calculate_crest_freeboard_discharge_q_eq28",
    [("g", Number (981 # 100)); ("theta", Number (0 # 1))]);
  ("calculate_crest_freeboard_discharge_q_eq32",
    [("g", Number (981 # 100)); ("theta", Number (0 # 1))]);
  ("calculate_dimensionless_crest_freeboard_discharge_q_eq28",
    [("g", Number (981 # 100)); ("gamma_beta", Number (1 # 1))]);
  ("calculate_overtopping_discharge_q_eq28",
    [("g", Number (981 # 100)); ("theta", Number (0 # 1))]);
  ("calculate_overtopping_discharge_q_eq32",
    [("g", Number (981 # 100)); ("theta", Number (0 # 1))]);
  ("calculate_dimensionless_overtopping_discharge_eq28",
    [("theta", Number (0 # 1))]);
  ("calculate_dimensionless_overtopping_discharge_eq32",
    [("theta", Number (0 # 1))])].

(** hydraulic/wave_overtopping/eurotop2007.py *)
Definition doc_wave_overtopping_eurotop2007 : list (string * list (string * literal)) := [
  ("calculate_overtopping_discharge_q_rubble_mound",
    [("beta", Missing); ("gamma_beta", Missing); ("gamma_f", Number (1 # 1)); ("cot_alpha", Missing); ("c2", Number (1 # 5)); ("c3", Number (23 # 10));
     ("use_best_fit", Flag false); ("g", Number (981 # 100))]);
  ("calculate_dimensionless_overtopping_discharge_q_rubble_mound",
    [("beta", Missing); ("gamma_beta", Missing); ("gamma_f", Number (1 # 1)); ("cot_alpha", Missing); ("c2", Number (1 # 5)); ("c3", Number (23 # 10));
     ("use_best_fit", Flag false)]);
  ("calculate_crest_freeboard_Rc_rubble_mound",
    [("beta", Missing); ("gamma_beta", Missing); ("gamma_f", Number (1 # 1)); ("cot_alpha", Missing); ("c2", Number (1 # 5)); ("c3", Number (23 # 10));
     ("use_best_fit", Flag false)]);
  ("calculate_dimensionless_crest_freeboard_rubble_mound",
    [("beta", Missing); ("gamma_beta", Missing); ("gamma_f", Number (1 # 1)); ("cot_alpha", Missing); ("c2", Number (1 # 5)); ("c3", Number (23 # 10));
     ("use_best_fit", Flag false)])].

(** hydraulic/wave_overtopping/eurotop2018.py *)
Definition doc_wave_overtopping_eurotop2018 : list (string * list (string * literal)) := [
  ("check_validity_range_rubble_mound",
    [("cot_alpha", Missing)]);
  ("calculate_overtopping_discharge_q",
    [("beta", Missing); ("gamma_beta", Missing); ("gamma_b", Missing); ("gamma_f", Number (1 # 1)); ("gamma_v", Number (1 # 1));
     ("gamma_star", Number (1 # 1)); ("B_berm", Number (0 # 1)); ("db", Number (0 # 1)); ("cot_alpha", Missing); ("cot_alpha_down", Missing);
     ("cot_alpha_up", Missing); ("c1", Number (5 # 2)); ("c2", Number (207 # 2000)); ("c3", Number (27 # 20)); ("c4", Number (13 # 500));
     ("use_best_fit", Flag false); ("g", Number (981 # 100))]);
  ("calculate_dimensionless_overtopping_discharge_q",
    [("beta", Missing); ("gamma_beta", Missing); ("gamma_b", Missing); ("gamma_f", Number (1 # 1)); ("gamma_v", Number (1 # 1));
     ("gamma_star", Number (1 # 1)); ("B_berm", Number (0 # 1)); ("db", Number (0 # 1)); ("cot_alpha", Missing); ("cot_alpha_down", Missing);
     ("cot_alpha_up", Missing); ("c1", Number (5 # 2)); ("c2", Number (207 # 2000)); ("c3", Number (27 # 20)); ("c4", Number (13 # 500));
     ("use_best_fit", Flag false)]);
  ("q_diml_max_equation",
    [("gamma_beta", Missing); ("gamma_f", Number (1 # 1)); ("gamma_star", Number (1 # 1)); ("c2", Number (207 # 2000)); ("c3", Number (27 # 20))]);
  ("calculate_influence_oblique_waves_gamma_beta",
    [("gamma_f_crit", Number (3 # 5)); ("c_gamma_beta_smooth", Number (11 # 5000)); ("c_gamma_beta_rough", Number (63 # 10000));
     ("max_angle", Number (80 # 1))]);
  ("calculate_crest_freeboard_Rc",
    [("beta", Missing); ("gamma_beta", Missing); ("gamma_b", Missing); ("gamma_f", Number (1 # 1)); ("gamma_v", Number (1 # 1));
     ("gamma_star", Number (1 # 1)); ("B_berm", Number (0 # 1)); ("db", Number (0 # 1)); ("cot_alpha", Missing); ("cot_alpha_down", Missing);
     ("cot_alpha_up", Missing); ("c1", Number (5 # 2)); ("c2", Number (207 # 2000)); ("c3", Number (27 # 20)); ("c4", Number (13 # 500));
     ("use_best_fit", Flag false); ("g", Number (981 # 100))]);
  ("calculate_dimensionless_crest_freeboard",
    [("beta", Missing); ("gamma_beta", Missing); ("gamma_b", Missing); ("gamma_f", Number (1 # 1)); ("gamma_v", Number (1 # 1));
     ("gamma_star", Number (1 # 1)); ("B_berm", Number (0 # 1)); ("db", Number (0 # 1)); ("cot_alpha", Missing); ("cot_alpha_down", Missing);
     ("cot_alpha_up", Missing); ("c1", Number (5 # 2)); ("c2", Number (207 # 2000)); ("c3", Number (27 # 20)); ("c4", Number (13 # 500));
     ("use_best_fit", Flag false); ("g", Number (981 # 100))]);
  ("Rc_diml_max_equation",
    [("gamma_beta", Missing); ("gamma_f", Number (1 # 1)); ("gamma_star", Number (1 # 1)); ("c2", Number (207 # 2000)); ("c3", Number (27 # 20));
     ("g", Number (981 # 100))]);
  ("calculate_overtopping_discharge_q_rubble_mound",
    [("beta", Missing); ("gamma_beta", Missing); ("gamma_f", Number (1 # 1)); ("B_berm", Number (0 # 1)); ("db", Number (0 # 1)); ("cot_alpha", Missing);
     ("cot_alpha_down", Missing); ("cot_alpha_up", Missing); ("c2", Number (207 # 2000)); ("c3", Number (27 # 20)); ("use_best_fit", Flag false);
     ("g", Number (981 # 100))]);
  ("calculate_dimensionless_overtopping_discharge_q_rubble_mound",
    [("beta", Missing); ("gamma_beta", Missing); ("gamma_f", Number (1 # 1)); ("B_berm", Number (0 # 1)); ("db", Number (0 # 1)); ("cot_alpha", Missing);
     ("cot_alpha_down", Missing); ("cot_alpha_up", Missing); ("c2", Number (207 # 2000)); ("c3", Number (27 # 20)); ("use_best_fit", Flag false)]);
  ("calculate_crest_freeboard_Rc_rubble_mound",
    [("beta", Missing); ("gamma_beta", Missing); ("gamma_f", Number (1 # 1)); ("B_berm", Number (0 # 1)); ("db", Number (0 # 1)); ("cot_alpha", Missing);
     ("cot_alpha_down", Missing); ("cot_alpha_up", Missing); ("c2", Number (207 # 2000)); ("c3", Number (27 # 20)); ("use_best_fit", Flag false);
     ("g", Number (981 # 100))]);
  ("calculate_dimensionless_crest_freeboard_rubble_mound",
    [("beta", Missing); ("gamma_beta", Missing); ("gamma_f", Number (1 # 1)); ("B_berm", Number (0 # 1)); ("db", Number (0 # 1)); ("cot_alpha", Missing);
     ("cot_alpha_down", Missing); ("cot_alpha_up", Missing); ("c2", Number (207 # 2000)); ("c3", Number (27 # 20)); ("use_best_fit", Flag false);
     ("g", Number (981 # 100))])].

(** hydraulic/wave_overtopping/taw2002.py *)
Definition doc_wave_overtopping_taw2002 : list (string * list (string * literal)) := [
  ("check_validity_range",
    [("Hm0", Missing); ("Tmm10", Missing); ("beta", Missing); ("cot_alpha", Missing); ("cot_alpha_down", Missing); ("cot_alpha_up", Missing);
     ("gamma_f", Missing); ("gamma_b", Missing); ("gamma_beta", Missing); ("gamma_v", Missing)]);
  ("calculate_overtopping_discharge_q",
    [("cot_alpha", Missing); ("cot_alpha_down", Missing); ("cot_alpha_up", Missing); ("beta", Missing); ("B_berm", Number (0 # 1)); ("db", Number (0 # 1));
     ("gamma_beta", Missing); ("gamma_b", Missing); ("gamma_f", Number (1 # 1)); ("gamma_v", Number (1 # 1)); ("sigma", Number (0 # 1));
     ("g", Number (981 # 100)); ("use_best_fit", Flag false)]);
  ("calculate_dimensionless_overtopping_discharge_q",
    [("cot_alpha", Missing); ("cot_alpha_down", Missing); ("cot_alpha_up", Missing); ("beta", Missing); ("B_berm", Number (0 # 1)); ("db", Number (0 # 1));
     ("gamma_beta", Missing); ("gamma_b", Missing); ("gamma_f", Number (1 # 1)); ("gamma_v", Number (1 # 1)); ("sigma", Number (0 # 1));
     ("use_best_fit", Flag false)]);
  ("q_diml_max_equation",
    [("cor3", Number (0 # 1)); ("c2", Number (1 # 5))]);
  ("calculate_influence_oblique_waves_gamma_beta",
    [("c_gamma_beta", Number (33 # 10000)); ("max_angle", Number (80 # 1))]);
  ("calculate_crest_freeboard_Rc",
    [("cot_alpha", Missing); ("cot_alpha_down", Missing); ("cot_alpha_up", Missing); ("beta", Missing); ("B_berm", Number (0 # 1)); ("db", Number (0 # 1));
     ("gamma_beta", Missing); ("gamma_b", Missing); ("gamma_f", Number (1 # 1)); ("gamma_v", Number (1 # 1)); ("sigma", Number (0 # 1));
     ("g", Number (981 # 100)); ("use_best_fit", Flag false)]);
  ("calculate_dimensionless_crest_freeboard",
    [("cot_alpha", Missing); ("cot_alpha_down", Missing); ("cot_alpha_up", Missing); ("beta", Missing); ("B_berm", Number (0 # 1)); ("db", Number (0 # 1));
     ("gamma_beta", Missing); ("gamma_b", Missing); ("gamma_f", Number (1 # 1)); ("gamma_v", Number (1 # 1)); ("sigma", Number (0 # 1));
     ("g", Number (981 # 100)); ("use_best_fit", Flag false)]);
  ("Rc_diml_max_equation",
    [("cor3", Number (0 # 1)); ("c2", Number (1 # 5)); ("g", Number (981 # 100))])].

(** hydraulic/wave_overtopping/vangent2002_velocity.py *)
Definition doc_wave_overtopping_vangent2002_velocity : list (string * list (string * literal)) := [
  ("calculate_maximum_wave_overtopping_velocity_uXp",
    [("cu1", Number (17 # 10)); ("cu2", Number (1 # 10)); ("g", Number (981 # 100))])].

(** hydraulic/wave_overtopping/vangent2007.py *)
Definition doc_wave_overtopping_vangent2007 : list (string * list (string * literal)) := [
  ("write_input_file_NN_Overtopping",
    [("file_name", Text "input_NN_Overtopping")])].

(** hydraulic/wave_overtopping/vangent2021_caisson.py *)
Definition doc_wave_overtopping_vangent2021_caisson : list (string * list (string * literal)) := [
  ("check_validity_range",
    [("Hm0", Missing); ("Tmm10", Missing); ("beta", Missing); ("Rc", Missing); ("q_diml", Missing)]);
  ("calculate_overtopping_discharge_q",
    [("beta", Missing); ("gamma_beta", Missing); ("Hm0_swell", Missing); ("c", Number (1 # 1)); ("c_swell", Number (2 # 5));
     ("short_crested_waves", Flag true); ("crossing_seas", Flag false); ("parapet", Flag false); ("g", Number (981 # 100))]);
  ("calculate_dimensionless_overtopping_discharge_q",
    [("beta", Missing); ("gamma_beta", Missing); ("Hm0_swell", Missing); ("c", Number (1 # 1)); ("c_swell", Number (2 # 5));
     ("short_crested_waves", Flag true); ("crossing_seas", Flag false); ("parapet", Flag false)]);
  ("calculate_crest_freeboard_Rc",
    [("beta", Missing); ("gamma_beta", Missing); ("Hm0_swell", Missing); ("c", Number (1 # 1)); ("c_swell", Number (2 # 5));
     ("short_crested_waves", Flag true); ("crossing_seas", Flag false); ("parapet", Flag false); ("g", Number (981 # 100))]);
  ("calculate_dimensionless_crest_freeboard",
    [("beta", Missing); ("gamma_beta", Missing); ("Hm0_swell", Missing); ("c", Number (1 # 1)); ("c_swell", Number (2 # 5));
     ("short_crested_waves", Flag true); ("crossing_seas", Flag false); ("parapet", Flag false); ("g", Number (981 # 100))])].

(** hydraulic/wave_overtopping/vangent2025.py *)
Definition doc_wave_overtopping_vangent2025 : list (string * list (string * literal)) := [
  ("check_validity_range",
    [("Hm0", Missing); ("Hm0_deep", Missing); ("Tmm10", Missing); ("beta", Missing); ("h", Missing); ("cot_alpha", Missing); ("Dn50", Missing);
     ("Rc", Missing); ("Ac", Missing); ("Gc", Missing); ("B_berm", Missing); ("db", Missing)]);
  ("calculate_overtopping_discharge_q",
    [("cot_alpha", Missing); ("beta", Missing); ("B_berm", Number (0 # 1)); ("db", Number (0 # 1)); ("Dn50", Missing); ("gamma_f", Missing);
     ("gamma_b", Missing); ("gamma_v", Missing); ("gamma_beta", Missing); ("g", Number (981 # 100)); ("design_calculation", Flag true);
     ("include_influence_wind", Flag false)]);
  ("calculate_dimensionless_overtopping_discharge_q",
    [("cot_alpha", Missing); ("beta", Missing); ("B_berm", Number (0 # 1)); ("db", Number (0 # 1)); ("Dn50", Missing); ("gamma_f", Missing);
     ("gamma_b", Missing); ("gamma_v", Missing); ("gamma_beta", Missing); ("design_calculation", Flag true); ("include_influence_wind", Flag false)]);
  ("q_diml_max_equation",
    [("c2", Number (4 # 5)); ("c3", Number ((-5) # 2))]);
  ("calculate_influence_friction_gamma_f",
    [("c_f1", Number (7 # 10)); ("c_f2", Number (1 # 20)); ("smm10_lim", Number (3 # 250))]);
  ("calculate_influence_berm_gamma_b",
    [("c_b1", Number (18 # 1)); ("c_b2", Number (13 # 10)); ("c_b3", Number (17 # 50)); ("c_b4", Number (1 # 5))]);
  ("calculate_influence_oblique_waves_gamma_beta",
    [("c_beta", Number (7 # 20))]);
  ("calculate_influence_crest_wall_gamma_v",
    [("c_v", Number (9 # 20))]);
  ("calculate_crest_freeboard_Rc",
    [("cot_alpha", Missing); ("beta", Missing); ("B_berm", Number (0 # 1)); ("db", Number (0 # 1)); ("Dn50", Missing); ("gamma_f", Missing);
     ("gamma_b", Missing); ("gamma_v", Missing); ("gamma_beta", Missing); ("design_calculation", Flag true); ("include_influence_wind", Flag false)]);
  ("calculate_dimensionless_crest_freeboard",
    [("cot_alpha", Missing); ("beta", Missing); ("B_berm", Number (0 # 1)); ("db", Number (0 # 1)); ("Dn50", Missing); ("gamma_f", Missing);
     ("gamma_b", Missing); ("gamma_v", Missing); ("gamma_beta", Missing); ("g", Number (981 # 100)); ("design_calculation", Flag true);
     ("include_influence_wind", Flag false); ("max_iter", Number (1000 # 1)); ("tolerance", Number (1 # 100000))]);
  ("Rc_diml_max_equation",
    [("c2", Number (4 # 5)); ("c3", Number ((-5) # 2)); ("g", Number (981 # 100))])].

(** hydraulic/wave_runup/eurotop2018.py *)
Definition doc_wave_runup_eurotop2018 : list (string * list (string * literal)) := [
  ("calculate_wave_runup_height_z2p",
    [("beta", Missing); ("gamma_beta", Missing); ("gamma_b", Missing); ("gamma_f", Number (1 # 1)); ("B_berm", Number (0 # 1)); ("db", Number (0 # 1));
     ("cot_alpha", Missing); ("cot_alpha_down", Missing); ("cot_alpha_up", Missing); ("c1", Number (7 # 4)); ("c2", Number (43 # 10));
     ("c3", Number (3 # 2)); ("c4", Number (107 # 100)); ("use_best_fit", Flag false)]);
  ("calculate_dimensionless_wave_runup_height_z2p",
    [("beta", Missing); ("gamma_beta", Missing); ("gamma_b", Missing); ("gamma_f", Number (1 # 1)); ("B_berm", Number (0 # 1)); ("db", Number (0 # 1));
     ("cot_alpha", Missing); ("cot_alpha_down", Missing); ("cot_alpha_up", Missing); ("c1", Number (7 # 4)); ("c2", Number (43 # 10));
     ("c3", Number (3 # 2)); ("c4", Number (107 # 100)); ("use_best_fit", Flag false)]);
  ("calculate_influence_oblique_waves_gamma_beta",
    [("gamma_f_crit", Number (3 # 5)); ("c_gamma_beta_smooth", Number (11 # 5000)); ("c_gamma_beta_rough", Number (63 # 10000));
     ("max_angle", Number (80 # 1))]);
  ("iteration_procedure_z2p",
    [("c1", Number (7 # 4)); ("c2", Number (43 # 10)); ("c3", Number (3 # 2)); ("c4", Number (107 # 100)); ("use_best_fit", Flag false);
     ("tolerance", Number (1 # 10000)); ("max_iter", Number (1000 # 1))]);
  ("iteration_procedure_gamma_b",
    [("c1", Number (7 # 4)); ("c2", Number (43 # 10)); ("c3", Number (3 # 2)); ("c4", Number (107 # 100)); ("use_best_fit", Flag false);
     ("gamma_f", Number (1 # 1))])].

(** hydraulic/wave_runup/taw2002.py *)
Definition doc_wave_runup_taw2002 : list (string * list (string * literal)) := [
  ("check_validity_range",
    [("Hm0", Missing); ("Tmm10", Missing); ("gamma_f", Missing); ("gamma_b", Missing); ("gamma_beta", Missing); ("cot_alpha", Missing)]);
  ("calculate_wave_runup_height_z2p",
    [("beta", Missing); ("gamma_beta", Missing); ("gamma_b", Missing); ("gamma_f", Number (1 # 1)); ("B_berm", Number (0 # 1)); ("db", Number (0 # 1));
     ("cot_alpha", Missing); ("cot_alpha_down", Missing); ("cot_alpha_up", Missing); ("c1", Number (7 # 4)); ("c2", Number (43 # 10));
     ("c3", Number (8 # 5)); ("c4", Number (1 # 1)); ("use_best_fit", Flag false)]);
  ("calculate_dimensionless_wave_runup_height_z2p",
    [("beta", Missing); ("gamma_beta", Missing); ("gamma_b", Missing); ("gamma_f", Number (1 # 1)); ("B_berm", Number (0 # 1)); ("db", Number (0 # 1));
     ("cot_alpha", Missing); ("cot_alpha_down", Missing); ("cot_alpha_up", Missing); ("c1", Number (7 # 4)); ("c2", Number (43 # 10));
     ("c3", Number (8 # 5)); ("c4", Number (1 # 1)); ("use_best_fit", Flag false)]);
  ("iteration_procedure_z2p",
    [("c1", Number (7 # 4)); ("c2", Number (43 # 10)); ("c3", Number (8 # 5)); ("c4", Number (1 # 1)); ("use_best_fit", Flag false);
     ("tolerance", Number (1 # 10000)); ("max_iter", Number (1000 # 1))]);
  ("calculate_berm_length",
    [("cot_alpha", Missing); ("cot_alpha_down", Missing); ("cot_alpha_up", Missing)]);
  ("check_composite_slope",
    [("cot_alpha", Missing); ("cot_alpha_down", Missing); ("cot_alpha_up", Missing)]);
  ("iteration_procedure_gamma_b",
    [("c1", Number (7 # 4)); ("c2", Number (43 # 10)); ("c3", Number (8 # 5)); ("c4", Number (1 # 1)); ("use_best_fit", Flag false);
     ("gamma_f", Number (1 # 1))]);
  ("calculate_influence_oblique_waves_gamma_beta",
    [("c_gamma_beta", Number (11 # 5000)); ("max_angle", Number (80 # 1))])].

(** hydraulic/wave_runup/vangent2001.py *)
Definition doc_wave_runup_vangent2001 : list (string * list (string * literal)) := [
  ("calculate_wave_runup_height_z1p",
    [("c0", Number (29 # 20)); ("c1", Number (51 # 10))]);
  ("calculate_wave_runup_height_z2p",
    [("Hm0", Missing); ("Hs", Missing); ("c0", Number (27 # 20)); ("c1", Number (47 # 10))]);
  ("calculate_wave_runup_height_z10p",
    [("c0", Number (11 # 10)); ("c1", Number (4 # 1))])].

(** hydraulic/wave_transmission/briganti2003.py *)
Definition doc_wave_transmission_briganti2003 : list (string * list (string * literal)) := [
  ("check_validity",
    [("s0p", Missing); ("ksi_0p", Missing)])].

(** hydraulic/wave_transmission/dangremond1996.py *)
Definition doc_wave_transmission_dangremond1996 : list (string * list (string * literal)) := [
  ("check_validity",
    [("Kt", Missing); ("s0p", Missing); ("Hsi_over_h", Missing); ("Rc_over_Hsi", Missing)]);
  ("calculate_wave_transmission_Kt_permeable",
    [("C1", Number (16 # 25))]);
  ("calculate_wave_transmission_Kt_impermeable",
    [("C1", Number (4 # 5))])].

(** hydraulic/wave_transmission/goda1967_caisson.py *)
Definition doc_wave_transmission_goda1967_caisson : list (string * list (string * literal)) := [
  ("calculate_wave_transmission_Kt",
    [("alpha_1", Number (11 # 5)); ("beta_1", Number (2 # 5))])].

(** hydraulic/wave_transmission/vangent2023.py *)
Definition doc_wave_transmission_vangent2023 : list (string * list (string * literal)) := [
  ("check_validity_range",
    [("Hm0", Missing); ("Tmm10", Missing); ("Rc", Missing); ("B", Missing); ("structure_type", Missing)]);
  ("calculate_wave_transmission_Kt",
    [("structure_type", Text "permeable")])].

(** hydraulic/wave_transmission/vangent2024_setup.py *)
Definition doc_wave_transmission_vangent2024_setup : list (string * list (string * literal)) := [
  ("check_validity_range",
    [("Hm0", Missing); ("Tmm10", Missing); ("Rc", Missing); ("B", Missing); ("hc", Missing); ("Dn50", Missing); ("structure_type", Text "impermeable")])].

(** structural/forces_caisson/goda1985.py *)
Definition doc_forces_caisson_goda1985 : list (string * list (string * literal)) := [
  ("check_validity_range",
    [("beta", Missing); ("cota_seabed", Missing); ("Tmax", Missing); ("tup", Missing); ("Bup", Missing); ("h_s", Missing); ("B1", Missing)]);
  ("check_impulsive_breaking",
    [("beta", Missing); ("B1", Missing); ("L", Missing); ("cota_seabed", Missing); ("offshore_wave_steepness", Missing); ("Rc", Missing); ("Hsi", Missing);
     ("d", Missing); ("h_s", Missing)]);
  ("calculate_forces_and_reactions",
    [("g", Number (981 # 100))]);
  ("calculate_pressures_and_forces",
    [("g", Number (981 # 100))]);
  ("calculate_Wup",
    [("g", Number (981 # 100))])].

(** structural/forces_crestwall/vangentvanderwerf2019.py *)
Definition doc_forces_crestwall_vangentvanderwerf2019 : list (string * list (string * literal)) := [
  ("check_validity",
    [("Rc", Missing); ("Ac", Missing); ("Hm0", Missing); ("Fb", Missing); ("beta", Missing)]);
  ("calculate_influence_oblique_waves_horizontal_force_gamma_FH_beta",
    [("gamma_A", Number (1 # 1))]);
  ("calculate_influence_oblique_waves_vertical_force_gamma_FV_beta",
    [("gamma_A", Number (3 # 4))]);
  ("calculate_influence_oblique_waves_gamma_beta",
    [("c_beta", Number (1 # 2))]);
  ("calculate_FH2p_perpendicular",
    [("gamma_beta", Number (1 # 1)); ("gamma_f", Number (9 # 20)); ("c0", Number (29 # 20)); ("c1", Number (5 # 1)); ("rho_water", Number (1025 # 1));
     ("g", Number (981 # 100)); ("cFH", Number (1 # 1))]);
  ("calculate_FH2p_perpendicular_from_z2p",
    [("rho_water", Number (1025 # 1)); ("g", Number (981 # 100)); ("cFH", Number (1 # 1))]);
  ("calculate_FH2p_oblique",
    [("gamma_beta", Number (1 # 1)); ("gamma_f", Number (9 # 20)); ("c0", Number (29 # 20)); ("c1", Number (5 # 1)); ("cFH", Number (1 # 1));
     ("rho_water", Number (1025 # 1)); ("g", Number (981 # 100))]);
  ("calculate_FV2p_perpendicular",
    [("gamma_beta", Number (1 # 1)); ("gamma_f", Number (9 # 20)); ("c0", Number (29 # 20)); ("c1", Number (5 # 1)); ("cFV", Number (2 # 5));
     ("cFb", Number (1 # 2)); ("rho_water", Number (1025 # 1)); ("g", Number (981 # 100))]);
  ("calculate_FV2p_perpendicular_from_z2p",
    [("cFV", Number (2 # 5)); ("cFb", Number (1 # 2)); ("rho_water", Number (1025 # 1)); ("g", Number (981 # 100))]);
  ("calculate_FV2p_oblique",
    [("gamma_beta", Number (1 # 1)); ("gamma_f", Number (9 # 20)); ("c0", Number (29 # 20)); ("c1", Number (5 # 1)); ("cFV", Number (2 # 5));
     ("cFb", Number (1 # 2)); ("rho_water", Number (1025 # 1)); ("g", Number (981 # 100))])].

(** structural/stability_concrete_armour/accropode2_hudson1959.py *)
Definition doc_stability_concrete_armour_accropode2_hudson1959 : list (string * list (string * literal)) := [
  ("check_validity_range",
    [("cot_alpha", Missing); ("seabed_slope_perc", Missing)]);
  ("calculate_unit_mass_M",
    [("alpha_Hs", Number (1 # 1))]);
  ("calculate_significant_wave_height_Hs",
    [("alpha_Hs", Number (1 # 1))])].

(** structural/stability_concrete_armour/accropode_hudson1959.py *)
Definition doc_stability_concrete_armour_accropode_hudson1959 : list (string * list (string * literal)) := [
  ("check_validity_range",
    [("cot_alpha", Missing); ("seabed_slope_perc", Missing)]);
  ("calculate_unit_mass_M",
    [("alpha_Hs", Number (1 # 1))]);
  ("calculate_significant_wave_height_Hs",
    [("alpha_Hs", Number (1 # 1))])].

(** structural/stability_concrete_armour/core_loc_hudson1959.py *)
Definition doc_stability_concrete_armour_core_loc_hudson1959 : list (string * list (string * literal)) := [
  ("check_validity_range",
    [("cot_alpha", Missing); ("seabed_slope_perc", Missing)]);
  ("calculate_unit_mass_M",
    [("alpha_Hs", Number (1 # 1))]);
  ("calculate_significant_wave_height_Hs",
    [("alpha_Hs", Number (1 # 1))])].

(** structural/stability_concrete_armour/cubes_double_layer_hudson1959.py *)
Definition doc_stability_concrete_armour_cubes_double_layer_hudson1959 : list (string * list (string * literal)) := [
  ("calculate_unit_mass_M",
    [("alpha_Hs", Number (1 # 1))]);
  ("calculate_significant_wave_height_Hs",
    [("alpha_Hs", Number (1 # 1))])].

(** structural/stability_concrete_armour/cubes_double_layer_vandermeer1988.py *)
Definition doc_stability_concrete_armour_cubes_double_layer_vandermeer1988 : list (string * list (string * literal)) := [
  ("check_validity_range",
    [("Hs", Missing); ("Tm", Missing); ("rho_armour", Missing); ("N_waves", Missing); ("cot_alpha", Missing)])].

(** structural/stability_concrete_armour/cubes_single_layer_vangent2002.py *)
Definition doc_stability_concrete_armour_cubes_single_layer_vangent2002 : list (string * list (string * literal)) := [
  ("calculate_unit_mass_M_start_of_damage",
    [("Ns", Number (29 # 10))]);
  ("calculate_unit_mass_M_failure",
    [("Ns", Number (7 # 2))]);
  ("calculate_significant_wave_height_Hs_start_of_damage",
    [("Ns", Number (29 # 10))]);
  ("calculate_significant_wave_height_Hs_failure",
    [("Ns", Number (7 # 2))])].

(** structural/stability_concrete_armour/cubipod_hudson1959.py *)
Definition doc_stability_concrete_armour_cubipod_hudson1959 : list (string * list (string * literal)) := [
  ("calculate_unit_mass_M",
    [("alpha_Hs", Number (1 # 1))]);
  ("calculate_significant_wave_height_Hs",
    [("alpha_Hs", Number (1 # 1))])].

(** structural/stability_concrete_armour/tetrapod_hudson1959.py *)
Definition doc_stability_concrete_armour_tetrapod_hudson1959 : list (string * list (string * literal)) := [
  ("calculate_unit_mass_M",
    [("alpha_Hs", Number (1 # 1))]);
  ("calculate_significant_wave_height_Hs",
    [("alpha_Hs", Number (1 # 1))])].

(** structural/stability_concrete_armour/xbloc.py *)
Definition doc_stability_concrete_armour_xbloc : list (string * list (string * literal)) := [
  ("calculate_wave_height_Hs_from_V",
    [("total_correction_factor", Number (1 # 1))]);
  ("calculate_wave_height_Hs_from_M",
    [("total_correction_factor", Number (1 # 1))]);
  ("calculate_unit_volume_V",
    [("total_correction_factor", Number (1 # 1))]);
  ("calculate_unit_mass_M",
    [("total_correction_factor", Number (1 # 1))]);
  ("switch_correction_factor_unit_mass_M_near_design_event_frequency",
    [("design_event_occurs_frequently", Flag false)]);
  ("switch_correctionfactor_unit_mass_M_by_core_permeability",
    [("low_core_permeability", Flag false); ("core_impermeable", Flag false)])].

(** structural/stability_concrete_armour/xblocplus.py *)
Definition doc_stability_concrete_armour_xblocplus : list (string * list (string * literal)) := [
  ("calculate_wave_height_Hs_from_V",
    [("total_correction_factor", Number (1 # 1))]);
  ("calculate_wave_height_Hs_from_M",
    [("total_correction_factor", Number (1 # 1))]);
  ("calculate_unit_volume_V",
    [("total_correction_factor", Number (1 # 1))]);
  ("calculate_unit_mass_M",
    [("total_correction_factor", Number (1 # 1))]);
  ("switch_correctionfactor_unit_mass_M_by_core_permeability",
    [("low_core_permeability", Flag false); ("core_impermeable", Flag false)])].

(** structural/stability_rock_armour/etemadshahidi2020.py *)
Definition doc_stability_rock_armour_etemadshahidi2020 : list (string * list (string * literal)) := [
  ("check_validity_range",
    [("Hs", Missing); ("Tmm10", Missing); ("N_waves", Missing); ("cot_alpha", Missing); ("P", Missing); ("S", Missing); ("Dn50", Missing);
     ("Dn50_core", Missing); ("rho_armour", Missing); ("rho_water", Number (1025 # 1))]);
  ("calculate_damage_number_S",
    [("Dn50", Missing); ("M50", Missing); ("Dn50_core", Missing); ("M50_core", Missing); ("rho_core", Missing); ("rho_water", Number (1025 # 1));
     ("m", Missing); ("use_depth_limited_version", Flag false)]);
  ("calculate_nominal_rock_diameter_Dn50",
    [("Dn50_core", Missing); ("M50_core", Missing); ("rho_core", Missing); ("m", Missing); ("use_depth_limited_version", Flag false);
     ("Cp_init", Number (1 # 2)); ("max_iter", Number (1000 # 1)); ("tolerance", Number (1 # 100000))]);
  ("calculate_significant_wave_height_Hs",
    [("Dn50", Missing); ("M50", Missing); ("Dn50_core", Missing); ("M50_core", Missing); ("rho_core", Missing); ("m", Missing);
     ("use_depth_limited_version", Flag false); ("g", Number (981 # 100))])].

(** structural/stability_rock_armour/hudson1959.py *)
Definition doc_stability_rock_armour_hudson1959 : list (string * list (string * literal)) := [
  ("calculate_median_rock_mass_M50_no_damage",
    [("alpha_Hs", Number (127 # 100))]);
  ("calculate_significant_wave_height_Hs_no_damage",
    [("alpha_Hs", Number (127 # 100))]);
  ("lookup_table_damage_factors",
    [("rock_type", Text "rough")]);
  ("calculate_median_rock_mass_M50",
    [("alpha_Hs", Number (127 # 100))]);
  ("calculate_significant_wave_height_Hs",
    [("alpha_Hs", Number (127 # 100))])].

(** structural/stability_rock_armour/jumelet2024.py *)
Definition doc_stability_rock_armour_jumelet2024 : list (string * list (string * literal)) := [
  ("check_validity_range",
    [("Hs", Missing); ("Tmm10", Missing); ("N_waves", Missing); ("cot_alpha", Missing)]);
  ("calculate_damage_number_S",
    [("Dn50", Missing); ("M50", Missing); ("c_pl", Number (43 # 10)); ("rho_water", Number (1025 # 1))]);
  ("calculate_nominal_rock_diameter_Dn50",
    [("c_pl", Number (43 # 10))]);
  ("calculate_significant_wave_height_Hs",
    [("Dn50", Missing); ("M50", Missing); ("c_pl", Number (43 # 10)); ("g", Number (981 # 100)); ("smm10_init", Number (3 # 100));
     ("max_iter", Number (1000 # 1)); ("tolerance", Number (1 # 1000))])].

(** structural/stability_rock_armour/kramerburcharth2004_lowcrested.py *)
Definition doc_stability_rock_armour_kramerburcharth2004_lowcrested : list (string * list (string * literal)) := [
  ("check_validity_range",
    [("Rc", Missing); ("Dn50", Missing)]);
  ("calculate_nominal_rock_diameter_Dn50",
    [("Ns_init", Number (2 # 1)); ("max_iter", Number (1000 # 1)); ("tolerance", Number (1 # 100000))]);
  ("calculate_significant_wave_height_Hs",
    [("Dn50", Missing); ("M50", Missing)]);
  ("calculate_crest_freeboard_Rc",
    [("Dn50", Missing); ("M50", Missing); ("Rc_Dn50_init", Number ((-1) # 1)); ("max_iter", Number (1000 # 1)); ("tolerance", Number (1 # 100000))])].

(** structural/stability_rock_armour/scaravaglione2025.py *)
Definition doc_stability_rock_armour_scaravaglione2025 : list (string * list (string * literal)) := [
  ("check_validity_range",
    [("Hm0", Missing); ("Tmm10", Missing); ("N_waves", Missing); ("cot_alpha", Missing); ("P", Missing); ("Dn50", Missing); ("Dn50_core", Missing);
     ("rho_armour", Missing); ("rho_water", Number (1025 # 1))]);
  ("calculate_damage_number_S",
    [("Dn50", Missing); ("Dn50_core", Missing); ("M50", Missing); ("M50_core", Missing); ("c_VGnew", Number (33 # 10)); ("rho_water", Number (1025 # 1))]);
  ("calculate_nominal_rock_diameter_Dn50",
    [("Dn50_core", Missing); ("M50_core", Missing); ("c_VGnew", Number (33 # 10)); ("rho_water", Number (1025 # 1))]);
  ("calculate_significant_wave_height_Hm0",
    [("Dn50", Missing); ("Dn50_core", Missing); ("M50", Missing); ("M50_core", Missing); ("c_VGnew", Number (33 # 10)); ("g", Number (981 # 100));
     ("rho_water", Number (1025 # 1))])].

(** structural/stability_rock_armour/vandermeer1988.py *)
Definition doc_stability_rock_armour_vandermeer1988 : list (string * list (string * literal)) := [
  ("check_validity_range",
    [("Hs", Missing); ("H2p", Missing); ("Tp", Missing); ("N_waves", Missing); ("cot_alpha", Missing); ("P", Missing); ("rho_armour", Missing)]);
  ("calculate_damage_number_S",
    [("Dn50", Missing); ("M50", Missing); ("c_pl", Number (87 # 10)); ("c_s", Number (7 # 5)); ("rho_water", Number (1025 # 1))]);
  ("calculate_nominal_rock_diameter_Dn50",
    [("c_pl", Number (87 # 10)); ("c_s", Number (7 # 5)); ("rho_water", Number (1025 # 1))]);
  ("calculate_significant_wave_height_Hs",
    [("Dn50", Missing); ("M50", Missing); ("c_pl", Number (87 # 10)); ("c_s", Number (7 # 5)); ("g", Number (981 # 100)); ("rho_water", Number (1025 # 1))])].

(** structural/stability_rock_armour/vandermeer1988_modified.py *)
Definition doc_stability_rock_armour_vandermeer1988_modified : list (string * list (string * literal)) := [
  ("check_validity_range",
    [("Hs", Missing); ("H2p", Missing); ("Tmm10", Missing); ("N_waves", Missing); ("cot_alpha", Missing); ("P", Missing); ("Dn50", Missing);
     ("rho_armour", Missing); ("rho_water", Number (1025 # 1))]);
  ("calculate_damage_number_S",
    [("Dn50", Missing); ("M50", Missing); ("c_pl", Number (42 # 5)); ("c_s", Number (13 # 10)); ("rho_water", Number (1025 # 1))]);
  ("calculate_nominal_rock_diameter_Dn50",
    [("c_pl", Number (42 # 5)); ("c_s", Number (13 # 10)); ("rho_water", Number (1025 # 1))]);
  ("calculate_significant_wave_height_Hs",
    [("Dn50", Missing); ("M50", Missing); ("c_pl", Number (42 # 5)); ("c_s", Number (13 # 10)); ("g", Number (981 # 100)); ("rho_water", Number (1025 # 1))])].

(** structural/stability_rock_armour/vandermeer2021.py *)
Definition doc_stability_rock_armour_vandermeer2021 : list (string * list (string * literal)) := [
  ("calculate_damage_number_S",
    [("Dn50", Missing); ("M50", Missing); ("c_pl", Number (649 # 100)); ("c_s", Number (97 # 100)); ("c_pl_mult", Number (1 # 1));
     ("c_s_mult", Number (1 # 1))]);
  ("calculate_nominal_rock_diameter_Dn50",
    [("c_pl", Number (649 # 100)); ("c_s", Number (97 # 100)); ("c_pl_mult", Number (1 # 1)); ("c_s_mult", Number (1 # 1))]);
  ("calculate_significant_wave_height_Hs",
    [("Dn50", Missing); ("M50", Missing); ("c_pl", Number (649 # 100)); ("c_s", Number (97 # 100)); ("c_pl_mult", Number (1 # 1));
     ("c_s_mult", Number (1 # 1)); ("g", Number (981 # 100))])].

(** structural/stability_rock_rear/vangent2007.py *)
Definition doc_stability_rock_rear_vangent2007 : list (string * list (string * literal)) := [
  ("check_validity_range",
    [("Rc", Missing); ("Rc2_front", Missing); ("Rc2_rear", Missing); ("Gc", Missing); ("Dn50", Missing); ("B_element", Missing); ("h", Missing);
     ("Hs", Missing); ("Tmm10", Missing); ("z1p", Missing); ("S", Missing); ("N_waves", Missing)]);
  ("calculate_damage_number_S",
    [("Dn50", Missing); ("M50", Missing); ("rho_rock", Missing)]);
  ("calculate_maximum_significant_wave_height_Hs",
    [("Dn50", Missing); ("M50", Missing); ("rho_rock", Missing); ("tolerance", Number (1 # 10000)); ("max_iterations", Number (10000 # 1))])].

(** structural/stability_rock_rear/vangentpozueta2004.py *)
Definition doc_stability_rock_rear_vangentpozueta2004 : list (string * list (string * literal)) := [
  ("check_validity_range",
    [("Rc", Missing); ("Rc_rear", Missing); ("cot_phi", Missing); ("gamma_f", Missing); ("Dn50", Missing); ("rho_rock", Missing); ("rho_water", Missing);
     ("Bc", Missing); ("Hs", Missing); ("Tmm10", Missing); ("z1p", Missing); ("S", Missing); ("N_waves", Missing)]);
  ("calculate_damage_number_S",
    [("Dn50", Missing); ("M50", Missing); ("rho_rock", Missing); ("rho_water", Number (1025 # 1)); ("cs", Power (1 # 125) (6 # 1))]);
  ("calculate_nominal_rock_diameter_Dn50",
    [("rho_water", Number (1025 # 1)); ("cs", Power (1 # 125) (6 # 1))]);
  ("calculate_maximum_significant_wave_height_Hs",
    [("Dn50", Missing); ("M50", Missing); ("rho_rock", Missing); ("rho_water", Number (1025 # 1)); ("cs", Power (1 # 125) (6 # 1));
     ("tolerance", Number (1 # 10000)); ("max_iterations", Number (10000 # 1))])].

(** structural/stability_toe_berm/etemadshahidi2021.py *)
Definition doc_stability_toe_berm_etemadshahidi2021 : list (string * list (string * literal)) := [
  ("check_validity",
    [("Hs", Missing); ("Tmm10", Missing); ("h", Missing); ("ht", Missing); ("Bt", Missing); ("Dn50", Missing); ("m", Missing); ("Nod", Missing);
     ("cot_alpha_armour_slope", Missing); ("rho_armour", Missing); ("rho_water", Number (1025 # 1))]);
  ("calculate_damage_Nod",
    [("rho_water", Number (1025 # 1)); ("g", Number (981 # 100)); ("c1", Number (6 # 5)); ("c2", Number (56 # 5)); ("c3", Number (7 # 4));
     ("c4", Number (1 # 6)); ("c5", Number (2 # 5)); ("c6", Number ((-1) # 10)); ("c7", Number (37 # 10))]);
  ("calculate_nominal_diameter_Dn50",
    [("rho_water", Number (1025 # 1)); ("g", Number (981 # 100)); ("c1", Number (6 # 5)); ("c2", Number (56 # 5)); ("c3", Number (7 # 4));
     ("c4", Number (1 # 6)); ("c5", Number (2 # 5)); ("c6", Number ((-1) # 10)); ("c7", Number (37 # 10))]);
  ("calculate_significant_wave_height_Hs",
    [("rho_water", Number (1025 # 1)); ("g", Number (981 # 100)); ("c1", Number (6 # 5)); ("c2", Number (56 # 5)); ("c3", Number (7 # 4));
     ("c4", Number (1 # 6)); ("c5", Number (2 # 5)); ("c6", Number ((-1) # 10)); ("c7", Number (37 # 10)); ("smm10_init", Number (3 # 100));
     ("max_iter", Number (1000 # 1))])].

(** structural/stability_toe_berm/gerding1993.py *)
Definition doc_stability_toe_berm_gerding1993 : list (string * list (string * literal)) := [
  ("check_validity",
    [("ht", Missing); ("h", Missing); ("Dn50", Missing)])].

(** structural/stability_toe_berm/takahashi1990_caisson.py *)
Definition doc_stability_toe_berm_takahashi1990_caisson : list (string * list (string * literal)) := [
  ("check_validity",
    [("Ns", Missing); ("Bt", Missing)]);
  ("calculate_stability_number_Ns",
    [("g", Number (981 # 100))])].

(** structural/stability_toe_berm/vandermeer1998.py *)
Definition doc_stability_toe_berm_vandermeer1998 : list (string * list (string * literal)) := [
  ("check_validity",
    [("Hs", Missing); ("ht", Missing); ("h", Missing); ("Dn50", Missing); ("Nod", Missing); ("Delta", Missing)])].

(** structural/stability_toe_berm/vangentvanderwerf2014.py *)
Definition doc_stability_toe_berm_vangentvanderwerf2014 : list (string * list (string * literal)) := [
  ("check_validity",
    [("Hs", Missing); ("tt", Missing); ("ht", Missing); ("cot_alpha_armour_slope", Missing)]);
  ("calculate_damage_Nod",
    [("g", Number (981 # 100)); ("c1", Number (4 # 125)); ("c2", Number (3 # 10)); ("c3", Number (1 # 1)); ("c4", Number (3 # 1)); ("c5", Number (1 # 1))]);
  ("calculate_nominal_diameter_Dn50",
    [("g", Number (981 # 100))]);
  ("calculate_velocity_u_delta",
    [("g", Number (981 # 100))])].

Definition documented : list (string * list (string * list (string * literal))) := [
  ("core_physics.py", doc_core_physics);
  ("hydraulic/wave_overtopping/denbieman2021.py", doc_wave_overtopping_denbieman2021);
  ("hydraulic/wave_overtopping/deridder2024.py", doc_wave_overtopping_deridder2024);
  ("hydraulic/wave_overtopping/deridder2026.py", doc_wave_overtopping_deridder2026);
  ("hydraulic/wave_overtopping/eurotop2007.py", doc_wave_overtopping_eurotop2007);
  ("hydraulic/wave_overtopping/eurotop2018.py", doc_wave_overtopping_eurotop2018);
  ("hydraulic/wave_overtopping/taw2002.py", doc_wave_overtopping_taw2002);
  ("hydraulic/wave_overtopping/vangent2002_velocity.py", doc_wave_overtopping_vangent2002_velocity);
  ("hydraulic/wave_overtopping/vangent2007.py", doc_wave_overtopping_vangent2007);
  ("hydraulic/wave_overtopping/vangent2021_caisson.py", doc_wave_overtopping_vangent2021_caisson);
  ("hydraulic/wave_overtopping/vangent2025.py", doc_wave_overtopping_vangent2025);
  ("hydraulic/wave_runup/eurotop2018.py", doc_wave_runup_eurotop2018);
  ("hydraulic/wave_runup/taw2002.py", doc_wave_runup_taw2002);
  ("hydraulic/wave_runup/vangent2001.py", doc_wave_runup_vangent2001);
  ("hydraulic/wave_transmission/briganti2003.py", doc_wave_transmission_briganti2003);
  ("hydraulic/wave_transmission/dangremond1996.py", doc_wave_transmission_dangremond1996);
  ("hydraulic/wave_transmission/goda1967_caisson.py", doc_wave_transmission_goda1967_caisson);
  ("hydraulic/wave_transmission/vangent2023.py", doc_wave_transmission_vangent2023);
  ("hydraulic/wave_transmission/vangent2024_setup.py", doc_wave_transmission_vangent2024_setup);
  ("structural/forces_caisson/goda1985.py", doc_forces_caisson_goda1985);
  ("structural/forces_crestwall/vangentvanderwerf2019.py", doc_forces_crestwall_vangentvanderwerf2019);
  ("structural/stability_concrete_armour/accropode2_hudson1959.py", doc_stability_concrete_armour_accropode2_hudson1959);
  ("structural/stability_concrete_armour/accropode_hudson1959.py", doc_stability_concrete_armour_accropode_hudson1959);
  ("structural/stability_concrete_armour/core_loc_hudson1959.py", doc_stability_concrete_armour_core_loc_hudson1959);
  ("structural/stability_concrete_armour/cubes_double_layer_hudson1959.py", doc_stability_concrete_armour_cubes_double_layer_hudson1959);
  ("structural/stability_concrete_armour/cubes_double_layer_vandermeer1988.py", doc_stability_concrete_armour_cubes_double_layer_vandermeer1988);
  ("structural/stability_concrete_armour/cubes_single_layer_vangent2002.py", doc_stability_concrete_armour_cubes_single_layer_vangent2002);
  ("structural/stability_concrete_armour/cubipod_hudson1959.py", doc_stability_concrete_armour_cubipod_hudson1959);
  ("structural/stability_concrete_armour/tetrapod_hudson1959.py", doc_stability_concrete_armour_tetrapod_hudson1959);
  ("structural/stability_concrete_armour/xbloc.py", doc_stability_concrete_armour_xbloc);
  ("structural/stability_concrete_armour/xblocplus.py", doc_stability_concrete_armour_xblocplus);
  ("structural/stability_rock_armour/etemadshahidi2020.py", doc_stability_rock_armour_etemadshahidi2020);
  ("structural/stability_rock_armour/hudson1959.py", doc_stability_rock_armour_hudson1959);
  ("structural/stability_rock_armour/jumelet2024.py", doc_stability_rock_armour_jumelet2024);
  ("structural/stability_rock_armour/kramerburcharth2004_lowcrested.py", doc_stability_rock_armour_kramerburcharth2004_lowcrested);
  ("structural/stability_rock_armour/scaravaglione2025.py", doc_stability_rock_armour_scaravaglione2025);
  ("structural/stability_rock_armour/vandermeer1988.py", doc_stability_rock_armour_vandermeer1988);
  ("structural/stability_rock_armour/vandermeer1988_modified.py", doc_stability_rock_armour_vandermeer1988_modified);
  ("structural/stability_rock_armour/vandermeer2021.py", doc_stability_rock_armour_vandermeer2021);
  ("structural/stability_rock_rear/vangent2007.py", doc_stability_rock_rear_vangent2007);
  ("structural/stability_rock_rear/vangentpozueta2004.py", doc_stability_rock_rear_vangentpozueta2004);
  ("structural/stability_toe_berm/etemadshahidi2021.py", doc_stability_toe_berm_etemadshahidi2021);
  ("structural/stability_toe_berm/gerding1993.py", doc_stability_toe_berm_gerding1993);
  ("structural/stability_toe_berm/takahashi1990_caisson.py", doc_stability_toe_berm_takahashi1990_caisson);
  ("structural/stability_toe_berm/vandermeer1998.py", doc_stability_toe_berm_vandermeer1998);
  ("structural/stability_toe_berm/vangentvanderwerf2014.py", doc_stability_toe_berm_vangentvanderwerf2014)].
