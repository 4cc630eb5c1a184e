(** The signatures of the functions of the toolbox: parameters in order, with
    the value behind the = if there is one.  Private helpers are included.
    Cited per module and function; files are relative to
    /repo/deltares_coastal_structures_toolbox/functions. *)
From Coq Require Import String List QArith.
From Verif.Model Require Import Calling.
Import ListNotations.
Open Scope string_scope.

Definition signature : Type := string * list parameter.

(** core_physics.py *)
Definition core_physics : list signature := [
  (* lines 10-14 *)
  ("calculate_wave_steepness_s",
    [("H", None); ("T", None); ("g", Some (Number (981 # 100)))]);
  (* lines 38-42 *)
  ("calculate_Iribarren_number_ksi",
    [("H", None); ("T", None); ("cot_alpha", None)]);
  (* lines 68-73 *)
  ("calculate_critical_Iribarren_number_ksi_mc",
    [("c_pl", None); ("c_s", None); ("P", None); ("cot_alpha", None)]);
  (* lines 102-107 *)
  ("calculate_stability_number_Ns",
    [("H", None); ("D", None); ("rho_rock", None); ("rho_water", None)]);
  (* lines 134-137 *)
  ("calculate_buoyant_density_Delta",
    [("rho_rock", None); ("rho_water", None)]);
  (* lines 159-161 *)
  ("calculate_M50_from_Dn50",
    [("Dn50", None); ("rho_rock", Some (Number (2650 # 1)))]);
  (* lines 183-185 *)
  ("calculate_Dn50_from_M50",
    [("M50", None); ("rho_rock", Some (Number (2650 # 1)))]);
  (* lines 205-209 *)
  ("check_usage_Dn50_or_M50",
    [("Dn50", None); ("M50", None); ("rho_rock", None)]);
  (* lines 248-252 *)
  ("calculate_S_from_Nod",
    [("Nod", None); ("G", None); ("nv", None)]);
  (* lines 282-286 *)
  ("calculate_Nod_from_S",
    [("S", None); ("G", None); ("nv", None)]);
  (* lines 315-320 *)
  ("check_usage_stabilitynumber",
    [("Hs", Some Nothing); ("Dn", Some Nothing); ("Delta", Some Nothing); ("Ns", Some Nothing)]);
  (* lines 374-378 *)
  ("calculate_local_wavelength",
    [("T", None); ("h", None); ("g", Some (Number (981 # 100)))])].

(** core_utility.py *)
Definition core_utility : list signature := [
  (* lines 7-13 *)
  ("check_variable_validity_range",
    [("variable_name", None); ("formula_name", None); ("values", None); ("min_value", None); ("max_value", None)])].

(** hydraulic/wave_overtopping/denbieman2021.py *)
Definition wave_overtopping_denbieman2021 : list signature := [
  (* lines 9-28 *)
  ("write_input_file_XGB_Overtopping",
    [("beta", None); ("h", None); ("Hm0", None); ("Tmm10", None); ("Bt", None); ("ht", None); ("B_berm", None); ("db", None); ("Rc", None); ("Ac", None);
     ("Gc", None); ("cot_alpha_down", None); ("cot_alpha_up", None); ("gamma_f_down", None); ("gamma_f_up", None); ("tan_alpha_f", None);
     ("output_dir", None); ("file_name", Some (Text "input_XGB_Overtopping"))])].

(** hydraulic/wave_overtopping/deridder2024.py *)
Definition wave_overtopping_deridder2024 : list signature := [
  (* lines 9-20 *)
  ("check_validity_range",
    [("h", Some Missing); ("Hm0", Some Missing); ("Hm0_HF", Some Missing); ("Hm0_LF", Some Missing); ("Tmm10", Some Missing); ("Tmm10_HF", Some Missing);
     ("Rc", Some Missing); ("cot_alpha", Some Missing); ("m_foreshore_slope", Some Missing); ("Dn50", Some Missing)]);
  (* lines 114-120 *)
  ("calculate_crest_freeboard_discharge_q_eq24",
    [("Hm0", None); ("smm10_HF", None); ("gamma_f", None); ("q", None); ("g", Some (Number (981 # 100)))]);
  (* lines 157-164 *)
  ("calculate_crest_freeboard_discharge_q_eq26",
    [("Hm0", None); ("smm10_HF", None); ("Hm0_LF", None); ("gamma_f", None); ("q", None); ("g", Some (Number (981 # 100)))]);
  (* lines 208-214 *)
  ("calculate_dimensionless_crest_freeboard_discharge_q_eq24",
    [("Hm0", None); ("smm10_HF", None); ("gamma_f", None); ("q", None); ("g", Some (Number (981 # 100)))]);
  (* lines 255-261 *)
  ("calculate_overtopping_discharge_q_eq24",
    [("Hm0", None); ("smm10_HF", None); ("gamma_f", None); ("Rc", None); ("g", Some (Number (981 # 100)))]);
  (* lines 294-301 *)
  ("calculate_overtopping_discharge_q_eq26",
    [("Hm0", None); ("smm10_HF", None); ("Hm0_LF", None); ("gamma_f", None); ("Rc", None); ("g", Some (Number (981 # 100)))]);
  (* lines 336-341 *)
  ("calculate_dimensionless_overtopping_discharge_eq24",
    [("Hm0", None); ("smm10_HF", None); ("gamma_f", None); ("Rc", None)]);
  (* lines 378-384 *)
  ("calculate_dimensionless_overtopping_discharge_eq26",
    [("Hm0", None); ("smm10_HF", None); ("Hm0_LF", None); ("gamma_f", None); ("Rc", None)])].

(** hydraulic/wave_overtopping/deridder2026.py *)
Definition wave_overtopping_deridder2026 : list signature := [
  (* lines 9-19 *)
  ("check_validity_range",
    [("h", Some Missing); ("Hm0", Some Missing); ("Hm0_HF", Some Missing); ("Hm0_LF", Some Missing); ("Tmm10", Some Missing); ("Tmm10_HF", Some Missing);
     ("Rc", Some Missing); ("Dn50", Some Missing); ("theta", Some Missing)]);
  (* lines 93-100 *)
  ("calculate_crest_freeboard_discharge_q_eq28",
    [("Hm0", None); ("smm10_HF", None); ("gamma_f", None); ("q", None); ("g", Some (Number (981 # 100))); ("theta", Some (Number (0 # 1)))]);
  (* lines 142-150 *)
  ("calculate_crest_freeboard_discharge_q_eq32",
    [("Hm0_HF", None); ("smm10_HF", None); ("Hm0_LF", None); ("gamma_f", None); ("q", None); ("g", Some (Number (981 # 100)));
     ("theta", Some (Number (0 # 1)))]);
  (* lines 189-196 *)
  ("calculate_dimensionless_crest_freeboard_discharge_q_eq28",
    [("Hm0", None); ("smm10_HF", None); ("gamma_f", None); ("q", None); ("g", Some (Number (981 # 100))); ("gamma_beta", Some (Number (1 # 1)))]);
  (* lines 232-239 *)
  ("calculate_overtopping_discharge_q_eq28",
    [("Hm0", None); ("smm10_HF", None); ("gamma_f", None); ("Rc", None); ("g", Some (Number (981 # 100))); ("theta", Some (Number (0 # 1)))]);
  (* lines 273-281 *)
  ("calculate_overtopping_discharge_q_eq32",
    [("Hm0_HF", None); ("smm10_HF", None); ("Hm0_LF", None); ("gamma_f", None); ("Rc", None); ("g", Some (Number (981 # 100)));
     ("theta", Some (Number (0 # 1)))]);
  (* lines 317-323 *)
  ("calculate_dimensionless_overtopping_discharge_eq28",
    [("Hm0", None); ("smm10_HF", None); ("gamma_f", None); ("Rc", None); ("theta", Some (Number (0 # 1)))]);
  (* lines 361-363 *)
  ("calculate_gamma_beta",
    [("theta", None)]);
  (* lines 377-384 *)
  ("calculate_dimensionless_overtopping_discharge_eq32",
    [("Hm0_HF", None); ("smm10_HF", None); ("Hm0_LF", None); ("gamma_f", None); ("Rc", None); ("theta", Some (Number (0 # 1)))])].

(** hydraulic/wave_overtopping/eurotop2007.py *)
Definition wave_overtopping_eurotop2007 : list signature := [
  (* lines 10-22 *)
  ("calculate_overtopping_discharge_q_rubble_mound",
    [("Hm0", None); ("Tmm10", None); ("Rc", None); ("beta", Some Missing); ("gamma_beta", Some Missing); ("gamma_f", Some (Number (1 # 1)));
     ("cot_alpha", Some Missing); ("c2", Some (Number (1 # 5))); ("c3", Some (Number (23 # 10))); ("use_best_fit", Some (Flag false));
     ("g", Some (Number (981 # 100)))]);
  (* lines 80-91 *)
  ("calculate_dimensionless_overtopping_discharge_q_rubble_mound",
    [("Hm0", None); ("Tmm10", None); ("Rc", None); ("beta", Some Missing); ("gamma_beta", Some Missing); ("gamma_f", Some (Number (1 # 1)));
     ("cot_alpha", Some Missing); ("c2", Some (Number (1 # 5))); ("c3", Some (Number (23 # 10))); ("use_best_fit", Some (Flag false))]);
  (* lines 157-157 *)
  ("check_best_fit",
    [("c2", None); ("c3", None); ("use_best_fit", None)]);
  (* lines 183-194 *)
  ("calculate_crest_freeboard_Rc_rubble_mound",
    [("Hm0", None); ("Tmm10", None); ("q", None); ("beta", Some Missing); ("gamma_beta", Some Missing); ("gamma_f", Some (Number (1 # 1)));
     ("cot_alpha", Some Missing); ("c2", Some (Number (1 # 5))); ("c3", Some (Number (23 # 10))); ("use_best_fit", Some (Flag false))]);
  (* lines 251-262 *)
  ("calculate_dimensionless_crest_freeboard_rubble_mound",
    [("Hm0", None); ("Tmm10", None); ("q", None); ("beta", Some Missing); ("gamma_beta", Some Missing); ("gamma_f", Some (Number (1 # 1)));
     ("cot_alpha", Some Missing); ("c2", Some (Number (1 # 5))); ("c3", Some (Number (23 # 10))); ("use_best_fit", Some (Flag false))])].

(** hydraulic/wave_overtopping/eurotop2018.py *)
Definition wave_overtopping_eurotop2018 : list signature := [
  (* lines 11-13 *)
  ("check_validity_range_rubble_mound",
    [("cot_alpha", Some Missing)]);
  (* lines 42-63 *)
  ("calculate_overtopping_discharge_q",
    [("Hm0", None); ("Tmm10", None); ("Rc", None); ("beta", Some Missing); ("gamma_beta", Some Missing); ("gamma_b", Some Missing);
     ("gamma_f", Some (Number (1 # 1))); ("gamma_v", Some (Number (1 # 1))); ("gamma_star", Some (Number (1 # 1))); ("B_berm", Some (Number (0 # 1)));
     ("db", Some (Number (0 # 1))); ("cot_alpha", Some Missing); ("cot_alpha_down", Some Missing); ("cot_alpha_up", Some Missing);
     ("c1", Some (Number (5 # 2))); ("c2", Some (Number (207 # 2000))); ("c3", Some (Number (27 # 20))); ("c4", Some (Number (13 # 500)));
     ("use_best_fit", Some (Flag false)); ("g", Some (Number (981 # 100)))]);
  (* lines 151-171 *)
  ("calculate_dimensionless_overtopping_discharge_q",
    [("Hm0", None); ("Tmm10", None); ("Rc", None); ("beta", Some Missing); ("gamma_beta", Some Missing); ("gamma_b", Some Missing);
     ("gamma_f", Some (Number (1 # 1))); ("gamma_v", Some (Number (1 # 1))); ("gamma_star", Some (Number (1 # 1))); ("B_berm", Some (Number (0 # 1)));
     ("db", Some (Number (0 # 1))); ("cot_alpha", Some Missing); ("cot_alpha_down", Some Missing); ("cot_alpha_up", Some Missing);
     ("c1", Some (Number (5 # 2))); ("c2", Some (Number (207 # 2000))); ("c3", Some (Number (27 # 20))); ("c4", Some (Number (13 # 500)));
     ("use_best_fit", Some (Flag false))]);
  (* lines 321-329 *)
  ("q_diml_max_equation",
    [("Hm0", None); ("Rc", None); ("gamma_beta", Some Missing); ("gamma_f", Some (Number (1 # 1))); ("gamma_star", Some (Number (1 # 1)));
     ("c2", Some (Number (207 # 2000))); ("c3", Some (Number (27 # 20)))]);
  (* lines 371-373 *)
  ("check_best_fit",
    [("c1", None); ("c2", None); ("c3", None); ("c4", None); ("use_best_fit", None)]);
  (* lines 405-412 *)
  ("calculate_influence_oblique_waves_gamma_beta",
    [("beta", None); ("gamma_f", None); ("gamma_f_crit", Some (Number (3 # 5))); ("c_gamma_beta_smooth", Some (Number (33 # 10000)));
     ("c_gamma_beta_rough", Some (Number (63 # 10000))); ("max_angle", Some (Number (80 # 1)))]);
  (* lines 451-472 *)
  ("calculate_crest_freeboard_Rc",
    [("Hm0", None); ("Tmm10", None); ("q", None); ("beta", Some Missing); ("gamma_beta", Some Missing); ("gamma_b", Some Missing);
     ("gamma_f", Some (Number (1 # 1))); ("gamma_v", Some (Number (1 # 1))); ("gamma_star", Some (Number (1 # 1))); ("B_berm", Some (Number (0 # 1)));
     ("db", Some (Number (0 # 1))); ("cot_alpha", Some Missing); ("cot_alpha_down", Some Missing); ("cot_alpha_up", Some Missing);
     ("c1", Some (Number (5 # 2))); ("c2", Some (Number (207 # 2000))); ("c3", Some (Number (27 # 20))); ("c4", Some (Number (13 # 500)));
     ("use_best_fit", Some (Flag false)); ("g", Some (Number (981 # 100)))]);
  (* lines 562-583 *)
  ("calculate_dimensionless_crest_freeboard",
    [("Hm0", None); ("Tmm10", None); ("q", None); ("beta", Some Missing); ("gamma_beta", Some Missing); ("gamma_b", Some Missing);
     ("gamma_f", Some (Number (1 # 1))); ("gamma_v", Some (Number (1 # 1))); ("gamma_star", Some (Number (1 # 1))); ("B_berm", Some (Number (0 # 1)));
     ("db", Some (Number (0 # 1))); ("cot_alpha", Some Missing); ("cot_alpha_down", Some Missing); ("cot_alpha_up", Some Missing);
     ("c1", Some (Number (5 # 2))); ("c2", Some (Number (207 # 2000))); ("c3", Some (Number (27 # 20))); ("c4", Some (Number (13 # 500)));
     ("use_best_fit", Some (Flag false)); ("g", Some (Number (981 # 100)))]);
  (* lines 739-748 *)
  ("Rc_diml_max_equation",
    [("Hm0", None); ("q", None); ("gamma_beta", Some Missing); ("gamma_f", Some (Number (1 # 1))); ("gamma_star", Some (Number (1 # 1)));
     ("c2", Some (Number (207 # 2000))); ("c3", Some (Number (27 # 20))); ("g", Some (Number (981 # 100)))]);
  (* lines 795-811 *)
  ("calculate_overtopping_discharge_q_rubble_mound",
    [("Hm0", None); ("Tmm10", None); ("Rc", None); ("beta", Some Missing); ("gamma_beta", Some Missing); ("gamma_f", Some (Number (1 # 1)));
     ("B_berm", Some (Number (0 # 1))); ("db", Some (Number (0 # 1))); ("cot_alpha", Some Missing); ("cot_alpha_down", Some Missing);
     ("cot_alpha_up", Some Missing); ("c2", Some (Number (207 # 2000))); ("c3", Some (Number (27 # 20))); ("use_best_fit", Some (Flag false));
     ("g", Some (Number (981 # 100)))]);
  (* lines 883-898 *)
  ("calculate_dimensionless_overtopping_discharge_q_rubble_mound",
    [("Hm0", None); ("Tmm10", None); ("Rc", None); ("beta", Some Missing); ("gamma_beta", Some Missing); ("gamma_f", Some (Number (1 # 1)));
     ("B_berm", Some (Number (0 # 1))); ("db", Some (Number (0 # 1))); ("cot_alpha", Some Missing); ("cot_alpha_down", Some Missing);
     ("cot_alpha_up", Some Missing); ("c2", Some (Number (207 # 2000))); ("c3", Some (Number (27 # 20))); ("use_best_fit", Some (Flag false))]);
  (* lines 1004-1020 *)
  ("calculate_crest_freeboard_Rc_rubble_mound",
    [("Hm0", None); ("Tmm10", None); ("q", None); ("beta", Some Missing); ("gamma_beta", Some Missing); ("gamma_f", Some (Number (1 # 1)));
     ("B_berm", Some (Number (0 # 1))); ("db", Some (Number (0 # 1))); ("cot_alpha", Some Missing); ("cot_alpha_down", Some Missing);
     ("cot_alpha_up", Some Missing); ("c2", Some (Number (207 # 2000))); ("c3", Some (Number (27 # 20))); ("use_best_fit", Some (Flag false));
     ("g", Some (Number (981 # 100)))]);
  (* lines 1094-1110 *)
  ("calculate_dimensionless_crest_freeboard_rubble_mound",
    [("Hm0", None); ("Tmm10", None); ("q", None); ("beta", Some Missing); ("gamma_beta", Some Missing); ("gamma_f", Some (Number (1 # 1)));
     ("B_berm", Some (Number (0 # 1))); ("db", Some (Number (0 # 1))); ("cot_alpha", Some Missing); ("cot_alpha_down", Some Missing);
     ("cot_alpha_up", Some Missing); ("c2", Some (Number (207 # 2000))); ("c3", Some (Number (27 # 20))); ("use_best_fit", Some (Flag false));
     ("g", Some (Number (981 # 100)))])].

(** hydraulic/wave_overtopping/taw2002.py *)
Definition wave_overtopping_taw2002 : list signature := [
  (* lines 12-23 *)
  ("check_validity_range",
    [("Hm0", Some Missing); ("Tmm10", Some Missing); ("beta", Some Missing); ("cot_alpha", Some Missing); ("cot_alpha_down", Some Missing);
     ("cot_alpha_up", Some Missing); ("gamma_f", Some Missing); ("gamma_b", Some Missing); ("gamma_beta", Some Missing); ("gamma_v", Some Missing)]);
  (* lines 133-150 *)
  ("calculate_overtopping_discharge_q",
    [("Hm0", None); ("Tmm10", None); ("Rc", None); ("cot_alpha", Some Missing); ("cot_alpha_down", Some Missing); ("cot_alpha_up", Some Missing);
     ("beta", Some Missing); ("B_berm", Some (Number (0 # 1))); ("db", Some (Number (0 # 1))); ("gamma_beta", Some Missing); ("gamma_b", Some Missing);
     ("gamma_f", Some (Number (1 # 1))); ("gamma_v", Some (Number (1 # 1))); ("sigma", Some (Number (0 # 1))); ("g", Some (Number (981 # 100)));
     ("use_best_fit", Some (Flag false))]);
  (* lines 224-240 *)
  ("calculate_dimensionless_overtopping_discharge_q",
    [("Hm0", None); ("Tmm10", None); ("Rc", None); ("cot_alpha", Some Missing); ("cot_alpha_down", Some Missing); ("cot_alpha_up", Some Missing);
     ("beta", Some Missing); ("B_berm", Some (Number (0 # 1))); ("db", Some (Number (0 # 1))); ("gamma_beta", Some Missing); ("gamma_b", Some Missing);
     ("gamma_f", Some (Number (1 # 1))); ("gamma_v", Some (Number (1 # 1))); ("sigma", Some (Number (0 # 1))); ("use_best_fit", Some (Flag false))]);
  (* lines 400-408 *)
  ("q_diml_max_equation",
    [("Hm0", None); ("Rc", None); ("gamma_beta", None); ("gamma_f", None); ("c3", None); ("cor3", Some (Number (0 # 1))); ("c2", Some (Number (1 # 5)))]);
  (* lines 447-451 *)
  ("calculate_influence_oblique_waves_gamma_beta",
    [("beta", None); ("c_gamma_beta", Some (Number (33 # 10000))); ("max_angle", Some (Number (80 # 1)))]);
  (* lines 479-481 *)
  ("calculate_influence_crest_wall_gamma_v",
    [("alpha_wall_deg", None)]);
  (* lines 502-519 *)
  ("calculate_crest_freeboard_Rc",
    [("Hm0", None); ("Tmm10", None); ("q", None); ("cot_alpha", Some Missing); ("cot_alpha_down", Some Missing); ("cot_alpha_up", Some Missing);
     ("beta", Some Missing); ("B_berm", Some (Number (0 # 1))); ("db", Some (Number (0 # 1))); ("gamma_beta", Some Missing); ("gamma_b", Some Missing);
     ("gamma_f", Some (Number (1 # 1))); ("gamma_v", Some (Number (1 # 1))); ("sigma", Some (Number (0 # 1))); ("g", Some (Number (981 # 100)));
     ("use_best_fit", Some (Flag false))]);
  (* lines 594-611 *)
  ("calculate_dimensionless_crest_freeboard",
    [("Hm0", None); ("Tmm10", None); ("q", None); ("cot_alpha", Some Missing); ("cot_alpha_down", Some Missing); ("cot_alpha_up", Some Missing);
     ("beta", Some Missing); ("B_berm", Some (Number (0 # 1))); ("db", Some (Number (0 # 1))); ("gamma_beta", Some Missing); ("gamma_b", Some Missing);
     ("gamma_f", Some (Number (1 # 1))); ("gamma_v", Some (Number (1 # 1))); ("sigma", Some (Number (0 # 1))); ("g", Some (Number (981 # 100)));
     ("use_best_fit", Some (Flag false))]);
  (* lines 778-787 *)
  ("Rc_diml_max_equation",
    [("Hm0", None); ("q", None); ("gamma_beta", None); ("gamma_f", None); ("c3", None); ("cor3", Some (Number (0 # 1))); ("c2", Some (Number (1 # 5)));
     ("g", Some (Number (981 # 100)))])].

(** hydraulic/wave_overtopping/vangent2002_velocity.py *)
Definition wave_overtopping_vangent2002_velocity : list signature := [
  (* lines 6-16 *)
  ("calculate_maximum_wave_overtopping_velocity_uXp",
    [("Hs", None); ("zXp", None); ("Rc", None); ("Bc", None); ("gamma_f", None); ("gamma_f_Crest", None); ("cu1", Some (Number (17 # 10)));
     ("cu2", Some (Number (1 # 10))); ("g", Some (Number (981 # 100)))]);
  (* lines 63-74 *)
  ("_invert_for_zXp",
    [("Hs", None); ("uXp", None); ("Rc", None); ("Bc", None); ("gamma_f", None); ("gamma_f_Crest", None); ("cu1", Some (Number (17 # 10)));
     ("cu2", Some (Number (1 # 10))); ("g", Some (Number (981 # 100)))])].

(** hydraulic/wave_overtopping/vangent2007.py *)
Definition wave_overtopping_vangent2007 : list signature := [
  (* lines 9-27 *)
  ("write_input_file_NN_Overtopping",
    [("beta", None); ("h", None); ("Hm0", None); ("Tmm10", None); ("Bt", None); ("ht", None); ("B_berm", None); ("db", None); ("Rc", None); ("Ac", None);
     ("Gc", None); ("cot_alpha_down", None); ("cot_alpha_up", None); ("gamma_f", None); ("tan_alpha_B", None); ("output_dir", None);
     ("file_name", Some (Text "input_NN_Overtopping"))])].

(** hydraulic/wave_overtopping/vangent2021_caisson.py *)
Definition wave_overtopping_vangent2021_caisson : list signature := [
  (* lines 9-15 *)
  ("check_validity_range",
    [("Hm0", Some Missing); ("Tmm10", Some Missing); ("beta", Some Missing); ("Rc", Some Missing); ("q_diml", Some Missing)]);
  (* lines 69-81 *)
  ("calculate_overtopping_discharge_q",
    [("Hm0", None); ("Rc", None); ("beta", Some Missing); ("gamma_beta", Some Missing); ("Hm0_swell", Some Missing); ("c", Some (Number (1 # 1)));
     ("c_swell", Some (Number (2 # 5))); ("short_crested_waves", Some (Flag true)); ("crossing_seas", Some (Flag false)); ("parapet", Some (Flag false));
     ("g", Some (Number (981 # 100)))]);
  (* lines 139-150 *)
  ("calculate_dimensionless_overtopping_discharge_q",
    [("Hm0", None); ("Rc", None); ("beta", Some Missing); ("gamma_beta", Some Missing); ("Hm0_swell", Some Missing); ("c", Some (Number (1 # 1)));
     ("c_swell", Some (Number (2 # 5))); ("short_crested_waves", Some (Flag true)); ("crossing_seas", Some (Flag false)); ("parapet", Some (Flag false))]);
  (* lines 231-235 *)
  ("calculate_influence_oblique_waves_gamma_beta",
    [("beta", None); ("gamma_p", None); ("c_beta", None)]);
  (* lines 264-276 *)
  ("calculate_crest_freeboard_Rc",
    [("Hm0", None); ("q", None); ("beta", Some Missing); ("gamma_beta", Some Missing); ("Hm0_swell", Some Missing); ("c", Some (Number (1 # 1)));
     ("c_swell", Some (Number (2 # 5))); ("short_crested_waves", Some (Flag true)); ("crossing_seas", Some (Flag false)); ("parapet", Some (Flag false));
     ("g", Some (Number (981 # 100)))]);
  (* lines 336-348 *)
  ("calculate_dimensionless_crest_freeboard",
    [("Hm0", None); ("q", None); ("beta", Some Missing); ("gamma_beta", Some Missing); ("Hm0_swell", Some Missing); ("c", Some (Number (1 # 1)));
     ("c_swell", Some (Number (2 # 5))); ("short_crested_waves", Some (Flag true)); ("crossing_seas", Some (Flag false)); ("parapet", Some (Flag false));
     ("g", Some (Number (981 # 100)))]);
  (* lines 434-440 *)
  ("_determine_coefficients",
    [("c", None); ("short_crested_waves", None); ("crossing_seas", None); ("parapet", None)])].

(** hydraulic/wave_overtopping/vangent2025.py *)
Definition wave_overtopping_vangent2025 : list signature := [
  (* lines 9-22 *)
  ("check_validity_range",
    [("Hm0", Some Missing); ("Hm0_deep", Some Missing); ("Tmm10", Some Missing); ("beta", Some Missing); ("h", Some Missing); ("cot_alpha", Some Missing);
     ("Dn50", Some Missing); ("Rc", Some Missing); ("Ac", Some Missing); ("Gc", Some Missing); ("B_berm", Some Missing); ("db", Some Missing)]);
  (* lines 169-187 *)
  ("calculate_overtopping_discharge_q",
    [("Hm0", None); ("Hm0_swell", None); ("Tmm10", None); ("Rc", None); ("Ac", None); ("cot_alpha", Some Missing); ("beta", Some Missing);
     ("B_berm", Some (Number (0 # 1))); ("db", Some (Number (0 # 1))); ("Dn50", Some Missing); ("gamma_f", Some Missing); ("gamma_b", Some Missing);
     ("gamma_v", Some Missing); ("gamma_beta", Some Missing); ("g", Some (Number (981 # 100))); ("design_calculation", Some (Flag true));
     ("include_influence_wind", Some (Flag false))]);
  (* lines 262-279 *)
  ("calculate_dimensionless_overtopping_discharge_q",
    [("Hm0", None); ("Hm0_swell", None); ("Tmm10", None); ("Rc", None); ("Ac", None); ("cot_alpha", Some Missing); ("beta", Some Missing);
     ("B_berm", Some (Number (0 # 1))); ("db", Some (Number (0 # 1))); ("Dn50", Some Missing); ("gamma_f", Some Missing); ("gamma_b", Some Missing);
     ("gamma_v", Some Missing); ("gamma_beta", Some Missing); ("design_calculation", Some (Flag true)); ("include_influence_wind", Some (Flag false))]);
  (* lines 409-421 *)
  ("q_diml_max_equation",
    [("Hm0", None); ("Hm0_swell", None); ("ksi_mm10", None); ("cot_alpha", None); ("Rc", None); ("gamma_f", None); ("gamma_b", None); ("gamma_v", None);
     ("gamma_beta", None); ("c2", Some (Number (4 # 5))); ("c3", Some (Number ((-5) # 2)))]);
  (* lines 480-487 *)
  ("calculate_influence_friction_gamma_f",
    [("Dn50", None); ("Hm0", None); ("smm10", None); ("c_f1", Some (Number (7 # 10))); ("c_f2", Some (Number (1 # 20)));
     ("smm10_lim", Some (Number (3 # 250)))]);
  (* lines 526-536 *)
  ("calculate_influence_berm_gamma_b",
    [("Hm0", None); ("smm10", None); ("Ac", None); ("B_berm", None); ("BL", None); ("c_b1", Some (Number (18 # 1))); ("c_b2", Some (Number (13 # 10)));
     ("c_b3", Some (Number (17 # 50))); ("c_b4", Some (Number (1 # 5)))]);
  (* lines 577-580 *)
  ("calculate_influence_oblique_waves_gamma_beta",
    [("beta", None); ("c_beta", Some (Number (7 # 20)))]);
  (* lines 605-610 *)
  ("calculate_influence_crest_wall_gamma_v",
    [("cot_alpha", None); ("Rc", None); ("Ac", None); ("c_v", Some (Number (9 # 20)))]);
  (* lines 644-651 *)
  ("calculate_influence_wind_gamma_w",
    [("Rc", None); ("Ac", None); ("Hm0", None); ("q_diml", None); ("c_w1", Some (Number (3 # 40))); ("c_w2", Some (Number ((-3) # 10)))]);
  (* lines 679-696 *)
  ("calculate_crest_freeboard_Rc",
    [("Hm0", None); ("Hm0_swell", None); ("Tmm10", None); ("q", None); ("Ac", None); ("cot_alpha", Some Missing); ("beta", Some Missing);
     ("B_berm", Some (Number (0 # 1))); ("db", Some (Number (0 # 1))); ("Dn50", Some Missing); ("gamma_f", Some Missing); ("gamma_b", Some Missing);
     ("gamma_v", Some Missing); ("gamma_beta", Some Missing); ("design_calculation", Some (Flag true)); ("include_influence_wind", Some (Flag false))]);
  (* lines 770-790 *)
  ("calculate_dimensionless_crest_freeboard",
    [("Hm0", None); ("Hm0_swell", None); ("Tmm10", None); ("q", None); ("Ac", None); ("cot_alpha", Some Missing); ("beta", Some Missing);
     ("B_berm", Some (Number (0 # 1))); ("db", Some (Number (0 # 1))); ("Dn50", Some Missing); ("gamma_f", Some Missing); ("gamma_b", Some Missing);
     ("gamma_v", Some Missing); ("gamma_beta", Some Missing); ("g", Some (Number (981 # 100))); ("design_calculation", Some (Flag true));
     ("include_influence_wind", Some (Flag false)); ("max_iter", Some (Number (1000 # 1))); ("tolerance", Some (Number (1 # 100000)))]);
  (* lines 949-962 *)
  ("Rc_diml_max_equation",
    [("Hm0", None); ("Hm0_swell", None); ("q", None); ("cot_alpha", None); ("ksi_mm10", None); ("gamma_f", None); ("gamma_b", None); ("gamma_v", None);
     ("gamma_beta", None); ("c2", Some (Number (4 # 5))); ("c3", Some (Number ((-5) # 2))); ("g", Some (Number (981 # 100)))])].

(** hydraulic/wave_runup/eurotop2018.py *)
Definition wave_runup_eurotop2018 : list signature := [
  (* lines 8-25 *)
  ("calculate_wave_runup_height_z2p",
    [("Hm0", None); ("Tmm10", None); ("beta", Some Missing); ("gamma_beta", Some Missing); ("gamma_b", Some Missing); ("gamma_f", Some (Number (1 # 1)));
     ("B_berm", Some (Number (0 # 1))); ("db", Some (Number (0 # 1))); ("cot_alpha", Some Missing); ("cot_alpha_down", Some Missing);
     ("cot_alpha_up", Some Missing); ("c1", Some (Number (7 # 4))); ("c2", Some (Number (43 # 10))); ("c3", Some (Number (3 # 2)));
     ("c4", Some (Number (107 # 100))); ("use_best_fit", Some (Flag false))]);
  (* lines 104-121 *)
  ("calculate_dimensionless_wave_runup_height_z2p",
    [("Hm0", None); ("Tmm10", None); ("beta", Some Missing); ("gamma_beta", Some Missing); ("gamma_b", Some Missing); ("gamma_f", Some (Number (1 # 1)));
     ("B_berm", Some (Number (0 # 1))); ("db", Some (Number (0 # 1))); ("cot_alpha", Some Missing); ("cot_alpha_down", Some Missing);
     ("cot_alpha_up", Some Missing); ("c1", Some (Number (7 # 4))); ("c2", Some (Number (43 # 10))); ("c3", Some (Number (3 # 2)));
     ("c4", Some (Number (107 # 100))); ("use_best_fit", Some (Flag false))]);
  (* lines 209-211 *)
  ("check_best_fit",
    [("c1", None); ("c2", None); ("c3", None); ("c4", None); ("use_best_fit", None)]);
  (* lines 243-250 *)
  ("calculate_influence_oblique_waves_gamma_beta",
    [("beta", None); ("gamma_f", None); ("gamma_f_crit", Some (Number (3 # 5))); ("c_gamma_beta_smooth", Some (Number (11 # 5000)));
     ("c_gamma_beta_rough", Some (Number (63 # 10000))); ("max_angle", Some (Number (80 # 1)))]);
  (* lines 293-309 *)
  ("iteration_procedure_z2p",
    [("Hm0", None); ("Tmm10", None); ("cot_alpha_down", None); ("cot_alpha_up", None); ("B_berm", None); ("db", None); ("gamma_f", None);
     ("gamma_beta", None); ("c1", Some (Number (7 # 4))); ("c2", Some (Number (43 # 10))); ("c3", Some (Number (3 # 2))); ("c4", Some (Number (107 # 100)));
     ("use_best_fit", Some (Flag false)); ("tolerance", Some (Number (1 # 10000))); ("max_iter", Some (Number (1000 # 1)))]);
  (* lines 380-394 *)
  ("iteration_procedure_gamma_b",
    [("Hm0", None); ("Tmm10", None); ("cot_alpha_average", None); ("B_berm", None); ("L_berm", None); ("db", None); ("gamma_beta", None);
     ("c1", Some (Number (7 # 4))); ("c2", Some (Number (43 # 10))); ("c3", Some (Number (3 # 2))); ("c4", Some (Number (107 # 100)));
     ("use_best_fit", Some (Flag false)); ("gamma_f", Some (Number (1 # 1)))])].

(** hydraulic/wave_runup/taw2002.py *)
Definition wave_runup_taw2002 : list signature := [
  (* lines 9-16 *)
  ("check_validity_range",
    [("Hm0", Some Missing); ("Tmm10", Some Missing); ("gamma_f", Some Missing); ("gamma_b", Some Missing); ("gamma_beta", Some Missing);
     ("cot_alpha", Some Missing)]);
  (* lines 90-107 *)
  ("calculate_wave_runup_height_z2p",
    [("Hm0", None); ("Tmm10", None); ("beta", Some Missing); ("gamma_beta", Some Missing); ("gamma_b", Some Missing); ("gamma_f", Some (Number (1 # 1)));
     ("B_berm", Some (Number (0 # 1))); ("db", Some (Number (0 # 1))); ("cot_alpha", Some Missing); ("cot_alpha_down", Some Missing);
     ("cot_alpha_up", Some Missing); ("c1", Some (Number (7 # 4))); ("c2", Some (Number (43 # 10))); ("c3", Some (Number (8 # 5)));
     ("c4", Some (Number (1 # 1))); ("use_best_fit", Some (Flag false))]);
  (* lines 186-203 *)
  ("calculate_dimensionless_wave_runup_height_z2p",
    [("Hm0", None); ("Tmm10", None); ("beta", Some Missing); ("gamma_beta", Some Missing); ("gamma_b", Some Missing); ("gamma_f", Some (Number (1 # 1)));
     ("B_berm", Some (Number (0 # 1))); ("db", Some (Number (0 # 1))); ("cot_alpha", Some Missing); ("cot_alpha_down", Some Missing);
     ("cot_alpha_up", Some Missing); ("c1", Some (Number (7 # 4))); ("c2", Some (Number (43 # 10))); ("c3", Some (Number (8 # 5)));
     ("c4", Some (Number (1 # 1))); ("use_best_fit", Some (Flag false))]);
  (* lines 346-353 *)
  ("determine_average_slope",
    [("Hm0", None); ("z2p", None); ("cot_alpha_down", None); ("cot_alpha_up", None); ("B_berm", None); ("db", None)]);
  (* lines 389-405 *)
  ("iteration_procedure_z2p",
    [("Hm0", None); ("Tmm10", None); ("cot_alpha_down", None); ("cot_alpha_up", None); ("B_berm", None); ("db", None); ("gamma_f", None);
     ("gamma_beta", None); ("c1", Some (Number (7 # 4))); ("c2", Some (Number (43 # 10))); ("c3", Some (Number (8 # 5))); ("c4", Some (Number (1 # 1)));
     ("use_best_fit", Some (Flag false)); ("tolerance", Some (Number (1 # 10000))); ("max_iter", Some (Number (1000 # 1)))]);
  (* lines 501-507 *)
  ("calculate_berm_length",
    [("Hm0", None); ("B_berm", None); ("cot_alpha", Some Missing); ("cot_alpha_down", Some Missing); ("cot_alpha_up", Some Missing)]);
  (* lines 543-547 *)
  ("check_composite_slope",
    [("cot_alpha", Some Missing); ("cot_alpha_down", Some Missing); ("cot_alpha_up", Some Missing)]);
  (* lines 586-588 *)
  ("check_calculate_gamma_beta",
    [("beta", None); ("gamma_beta", None)]);
  (* lines 628-642 *)
  ("iteration_procedure_gamma_b",
    [("Hm0", None); ("Tmm10", None); ("cot_alpha_average", None); ("B_berm", None); ("L_berm", None); ("db", None); ("gamma_beta", None);
     ("c1", Some (Number (7 # 4))); ("c2", Some (Number (43 # 10))); ("c3", Some (Number (8 # 5))); ("c4", Some (Number (1 # 1)));
     ("use_best_fit", Some (Flag false)); ("gamma_f", Some (Number (1 # 1)))]);
  (* lines 724-730 *)
  ("calculate_influence_berm_gamma_b",
    [("Hm0", None); ("z2p", None); ("db", None); ("B_berm", None); ("L_berm", None)]);
  (* lines 768-772 *)
  ("calculate_influence_oblique_waves_gamma_beta",
    [("beta", None); ("c_gamma_beta", Some (Number (11 # 5000))); ("max_angle", Some (Number (80 # 1)))]);
  (* lines 802-806 *)
  ("calculate_adjusted_influence_roughness_gamma_f",
    [("gamma_f", None); ("gamma_b", None); ("ksi_mm10", None)])].

(** hydraulic/wave_runup/vangent2001.py *)
Definition wave_runup_vangent2001 : list signature := [
  (* lines 8-15 *)
  ("calculate_wave_runup_height_z1p",
    [("Hs", None); ("Tmm10", None); ("gamma", None); ("cot_alpha", None); ("c0", Some (Number (29 # 20))); ("c1", Some (Number (51 # 10)))]);
  (* lines 55-63 *)
  ("calculate_wave_runup_height_z2p",
    [("Tmm10", None); ("gamma", None); ("cot_alpha", None); ("Hm0", Some Missing); ("Hs", Some Missing); ("c0", Some (Number (27 # 20)));
     ("c1", Some (Number (47 # 10)))]);
  (* lines 126-133 *)
  ("calculate_wave_runup_height_z10p",
    [("Hs", None); ("Tmm10", None); ("gamma", None); ("cot_alpha", None); ("c0", Some (Number (11 # 10))); ("c1", Some (Number (4 # 1)))]);
  (* lines 173-180 *)
  ("calculate_wave_runup_height_zXp",
    [("H", None); ("Tmm10", None); ("gamma", None); ("cot_alpha", None); ("c0", None); ("c1", None)]);
  (* lines 229-238 *)
  ("_invert_for_Hs",
    [("Hs_i0", None); ("z1p", None); ("Tmm10", None); ("gamma", None); ("cot_alpha", None); ("c0", Some (Number (29 # 20)));
     ("c1", Some (Number (51 # 10)))])].

(** hydraulic/wave_transmission/briganti2003.py *)
Definition wave_transmission_briganti2003 : list signature := [
  (* lines 10-13 *)
  ("check_validity",
    [("s0p", Some Missing); ("ksi_0p", Some Missing)]);
  (* lines 45-51 *)
  ("calculate_wave_transmission_Kt",
    [("Hsi", None); ("Tpi", None); ("Rc", None); ("B", None); ("cot_alpha", None)])].

(** hydraulic/wave_transmission/dangremond1996.py *)
Definition wave_transmission_dangremond1996 : list signature := [
  (* lines 9-14 *)
  ("check_validity",
    [("Kt", Some Missing); ("s0p", Some Missing); ("Hsi_over_h", Some Missing); ("Rc_over_Hsi", Some Missing)]);
  (* lines 69-78 *)
  ("calculate_wave_transmission_Kt_permeable",
    [("Hsi", None); ("Tpi", None); ("h", None); ("Rc", None); ("B", None); ("cot_alpha", None); ("C1", Some (Number (16 # 25)));
     ("do_validity_check", Some (Flag true))]);
  (* lines 123-131 *)
  ("calculate_wave_transmission_Kt_impermeable",
    [("Hsi", None); ("Tpi", None); ("h", None); ("Rc", None); ("B", None); ("cot_alpha", None); ("C1", Some (Number (4 # 5)))])].

(** hydraulic/wave_transmission/goda1967_caisson.py *)
Definition wave_transmission_goda1967_caisson : list signature := [
  (* lines 6-6 *)
  ("check_validity",
    []);
  (* lines 11-16 *)
  ("calculate_wave_transmission_Kt",
    [("Hsi", None); ("Rc", None); ("alpha_1", Some (Number (11 # 5))); ("beta_1", Some (Number (2 # 5)))])].

(** hydraulic/wave_transmission/vangent2023.py *)
Definition wave_transmission_vangent2023 : list signature := [
  (* lines 9-15 *)
  ("check_validity_range",
    [("Hm0", Some Missing); ("Tmm10", Some Missing); ("Rc", Some Missing); ("B", Some Missing); ("structure_type", Some Missing)]);
  (* lines 77-83 *)
  ("calculate_wave_transmission_Kt",
    [("Hm0", None); ("Tmm10", None); ("Rc", None); ("B", None); ("structure_type", Some (Text "permeable"))])].

(** hydraulic/wave_transmission/vangent2024_setup.py *)
Definition wave_transmission_vangent2024_setup : list signature := [
  (* lines 9-17 *)
  ("check_validity_range",
    [("Hm0", Some Missing); ("Tmm10", Some Missing); ("Rc", Some Missing); ("B", Some Missing); ("hc", Some Missing); ("Dn50", Some Missing);
     ("structure_type", Some (Text "impermeable"))]);
  (* lines 113-117 *)
  ("calculate_structure_induced_setup_delta_impermeable",
    [("Hm0", None); ("Tmm10", None); ("Rc", None)]);
  (* lines 148-152 *)
  ("calculate_dimensionless_structure_induced_setup_impermeable",
    [("Hm0", None); ("Tmm10", None); ("Rc", None)]);
  (* lines 189-194 *)
  ("calculate_structure_induced_setup_delta_permeable",
    [("Hm0", None); ("Tmm10", None); ("Rc", None); ("hc", None)]);
  (* lines 227-232 *)
  ("calculate_dimensionless_structure_induced_setup_permeable",
    [("Hm0", None); ("Tmm10", None); ("Rc", None); ("hc", None)])].

(** structural/forces_caisson/goda1985.py *)
Definition forces_caisson_goda1985 : list signature := [
  (* lines 9-17 *)
  ("check_validity_range",
    [("beta", Some Missing); ("cota_seabed", Some Missing); ("Tmax", Some Missing); ("tup", Some Missing); ("Bup", Some Missing); ("h_s", Some Missing);
     ("B1", Some Missing)]);
  (* lines 83-93 *)
  ("check_impulsive_breaking",
    [("beta", Some Missing); ("B1", Some Missing); ("L", Some Missing); ("cota_seabed", Some Missing); ("offshore_wave_steepness", Some Missing);
     ("Rc", Some Missing); ("Hsi", Some Missing); ("d", Some Missing); ("h_s", Some Missing)]);
  (* lines 173-205 *)
  ("calculate_forces_and_reactions",
    [("HD", None); ("Hsi", None); ("Tmax", None); ("beta", None); ("h_s", None); ("d", None); ("B1", None); ("cota_seabed", None); ("rho_water", None);
     ("hacc", None); ("Rc", None); ("Bup", None); ("rho_fill_above_SWL", Some (Number (2400 # 1))); ("rho_fill_below_SWL", Some (Number (2100 # 1)));
     ("offshore_wave_steepness", Some Missing); ("muf", Some (Number (3 # 5))); ("tup_over_Bup", Some (Number (1 # 2))); ("g", Some (Number (981 # 100)));
     ("return_dict", Some (Flag false))]);
  (* lines 412-449 *)
  ("calculate_pressures_and_forces",
    [("HD", None); ("Hsi", None); ("Tmax", None); ("beta", None); ("h_s", None); ("d", None); ("B1", None); ("cota_seabed", None); ("rho_water", None);
     ("hacc", None); ("Rc", None); ("Bup", None); ("offshore_wave_steepness", Some Missing); ("g", Some (Number (981 # 100)));
     ("return_dict", Some (Flag false))]);
  (* lines 660-668 *)
  ("calculate_Wup",
    [("hacc", None); ("Rc", None); ("Bup", None); ("rho_fill_below_SWL", None); ("rho_water", None); ("rho_fill_above_SWL", None);
     ("g", Some (Number (981 # 100)))]);
  (* lines 699-710 *)
  ("calculate_safety_factors",
    [("FU", None); ("FH", None); ("Wup", None); ("muf", None); ("tup", None); ("MH", None); ("MU", None)]);
  (* lines 753-765 *)
  ("calculate_bearing_pressures",
    [("Wup", None); ("tup", None); ("MH", None); ("MU", None); ("FU", None); ("Bup", None)])].

(** structural/forces_crestwall/vangentvanderwerf2019.py *)
Definition forces_crestwall_vangentvanderwerf2019 : list signature := [
  (* lines 8-14 *)
  ("check_validity",
    [("Rc", Some Missing); ("Ac", Some Missing); ("Hm0", Some Missing); ("Fb", Some Missing); ("beta", Some Missing)]);
  (* lines 73-78 *)
  ("calculate_influence_oblique_waves_force_gamma_F_beta",
    [("z2p", None); ("Ac", None); ("beta", None); ("gamma_A", None)]);
  (* lines 112-117 *)
  ("calculate_influence_oblique_waves_horizontal_force_gamma_FH_beta",
    [("z2p", None); ("Ac", None); ("beta", None); ("gamma_A", Some (Number (1 # 1)))]);
  (* lines 151-156 *)
  ("calculate_influence_oblique_waves_vertical_force_gamma_FV_beta",
    [("z2p", None); ("Ac", None); ("beta", None); ("gamma_A", Some (Number (3 # 4)))]);
  (* lines 190-193 *)
  ("calculate_influence_oblique_waves_gamma_beta",
    [("beta", None); ("c_beta", Some (Number (1 # 2)))]);
  (* lines 214-228 *)
  ("calculate_FH2p_perpendicular",
    [("Hm0", None); ("Tmm10", None); ("cot_alpha", None); ("Ac", None); ("Rc", None); ("Hwall", None); ("gamma_beta", Some (Number (1 # 1)));
     ("gamma_f", Some (Number (9 # 20))); ("c0", Some (Number (29 # 20))); ("c1", Some (Number (5 # 1))); ("rho_water", Some (Number (1025 # 1)));
     ("g", Some (Number (981 # 100))); ("cFH", Some (Number (1 # 1)))]);
  (* lines 289-298 *)
  ("calculate_FH2p_perpendicular_from_z2p",
    [("Hm0", None); ("z2p", None); ("Ac", None); ("Rc", None); ("Hwall", None); ("rho_water", Some (Number (1025 # 1))); ("g", Some (Number (981 # 100)));
     ("cFH", Some (Number (1 # 1)))]);
  (* lines 344-359 *)
  ("calculate_FH2p_oblique",
    [("Hm0", None); ("Tmm10", None); ("beta", None); ("cot_alpha", None); ("Ac", None); ("Rc", None); ("Hwall", None);
     ("gamma_beta", Some (Number (1 # 1))); ("gamma_f", Some (Number (9 # 20))); ("c0", Some (Number (29 # 20))); ("c1", Some (Number (5 # 1)));
     ("cFH", Some (Number (1 # 1))); ("rho_water", Some (Number (1025 # 1))); ("g", Some (Number (981 # 100)))]);
  (* lines 428-443 *)
  ("calculate_FV2p_perpendicular",
    [("Hm0", None); ("Tmm10", None); ("cot_alpha", None); ("Ac", None); ("Bwall", None); ("Fb", None); ("gamma_beta", Some (Number (1 # 1)));
     ("gamma_f", Some (Number (9 # 20))); ("c0", Some (Number (29 # 20))); ("c1", Some (Number (5 # 1))); ("cFV", Some (Number (2 # 5)));
     ("cFb", Some (Number (1 # 2))); ("rho_water", Some (Number (1025 # 1))); ("g", Some (Number (981 # 100)))]);
  (* lines 506-515 *)
  ("calculate_FV2p_perpendicular_from_z2p",
    [("z2p", None); ("Ac", None); ("Bwall", None); ("Fb", None); ("cFV", Some (Number (2 # 5))); ("cFb", Some (Number (1 # 2)));
     ("rho_water", Some (Number (1025 # 1))); ("g", Some (Number (981 # 100)))]);
  (* lines 559-575 *)
  ("calculate_FV2p_oblique",
    [("Hm0", None); ("Tmm10", None); ("beta", None); ("cot_alpha", None); ("Ac", None); ("Bwall", None); ("Fb", None);
     ("gamma_beta", Some (Number (1 # 1))); ("gamma_f", Some (Number (9 # 20))); ("c0", Some (Number (29 # 20))); ("c1", Some (Number (5 # 1)));
     ("cFV", Some (Number (2 # 5))); ("cFb", Some (Number (1 # 2))); ("rho_water", Some (Number (1025 # 1))); ("g", Some (Number (981 # 100)))]);
  (* lines 646-648 *)
  ("calculate_FH01p_perpendicular",
    [("FH2p", None)]);
  (* lines 673-676 *)
  ("calculate_FV01p_perpendicular",
    [("FV2p", None); ("s0p", None)])].

(** structural/stability_concrete_armour/accropode2_hudson1959.py *)
Definition stability_concrete_armour_accropode2_hudson1959 : list signature := [
  (* lines 20-23 *)
  ("check_validity_range",
    [("cot_alpha", Some Missing); ("seabed_slope_perc", Some Missing)]);
  (* lines 72-79 *)
  ("calculate_unit_mass_M",
    [("Hs", None); ("rho_water", None); ("rho_armour", None); ("KD", None); ("cot_alpha", Some (Number (133 # 100))); ("alpha_Hs", Some (Number (1 # 1)))]);
  (* lines 133-140 *)
  ("calculate_significant_wave_height_Hs",
    [("M", None); ("rho_water", None); ("rho_armour", None); ("KD", None); ("cot_alpha", Some (Number (133 # 100))); ("alpha_Hs", Some (Number (1 # 1)))]);
  (* lines 194-196 *)
  ("calculate_KD_breaking_trunk_from_seabed_slope",
    [("seabed_slope_perc", None)]);
  (* lines 227-229 *)
  ("calculate_KD_nonbreaking_trunk_from_seabed_slope",
    [])].

(** structural/stability_concrete_armour/accropode_hudson1959.py *)
Definition stability_concrete_armour_accropode_hudson1959 : list signature := [
  (* lines 21-24 *)
  ("check_validity_range",
    [("cot_alpha", Some Missing); ("seabed_slope_perc", Some Missing)]);
  (* lines 66-73 *)
  ("calculate_unit_mass_M",
    [("Hs", None); ("rho_water", None); ("rho_armour", None); ("KD", None); ("cot_alpha", Some (Number (133 # 100))); ("alpha_Hs", Some (Number (1 # 1)))]);
  (* lines 130-137 *)
  ("calculate_significant_wave_height_Hs",
    [("M", None); ("rho_water", None); ("rho_armour", None); ("KD", None); ("cot_alpha", Some (Number (133 # 100))); ("alpha_Hs", Some (Number (1 # 1)))]);
  (* lines 194-196 *)
  ("calculate_KD_breaking_trunk_from_seabed_slope",
    [("seabed_slope_perc", None)]);
  (* lines 227-229 *)
  ("calculate_KD_nonbreaking_trunk_from_seabed_slope",
    [])].

(** structural/stability_concrete_armour/core_loc_hudson1959.py *)
Definition stability_concrete_armour_core_loc_hudson1959 : list signature := [
  (* lines 19-22 *)
  ("check_validity_range",
    [("cot_alpha", Some Missing); ("seabed_slope_perc", Some Missing)]);
  (* lines 64-71 *)
  ("calculate_unit_mass_M",
    [("Hs", None); ("rho_water", None); ("rho_armour", None); ("KD", None); ("cot_alpha", Some (Number (133 # 100))); ("alpha_Hs", Some (Number (1 # 1)))]);
  (* lines 124-131 *)
  ("calculate_significant_wave_height_Hs",
    [("M", None); ("rho_water", None); ("rho_armour", None); ("KD", None); ("cot_alpha", Some (Number (133 # 100))); ("alpha_Hs", Some (Number (1 # 1)))]);
  (* lines 184-186 *)
  ("calculate_KD_breaking_trunk_from_seabed_slope",
    [("seabed_slope_perc", None)]);
  (* lines 217-219 *)
  ("calculate_KD_nonbreaking_trunk_from_seabed_slope",
    [])].

(** structural/stability_concrete_armour/cubes_double_layer_hudson1959.py *)
Definition stability_concrete_armour_cubes_double_layer_hudson1959 : list signature := [
  (* lines 22-22 *)
  ("check_validity_range",
    []);
  (* lines 27-34 *)
  ("calculate_unit_mass_M",
    [("Hs", None); ("rho_water", None); ("rho_armour", None); ("KD", None); ("cot_alpha", None); ("alpha_Hs", Some (Number (1 # 1)))]);
  (* lines 79-86 *)
  ("calculate_significant_wave_height_Hs",
    [("M", None); ("rho_water", None); ("rho_armour", None); ("KD", None); ("cot_alpha", None); ("alpha_Hs", Some (Number (1 # 1)))])].

(** structural/stability_concrete_armour/cubes_double_layer_vandermeer1988.py *)
Definition stability_concrete_armour_cubes_double_layer_vandermeer1988 : list signature := [
  (* lines 17-23 *)
  ("check_validity_range",
    [("Hs", Some Missing); ("Tm", Some Missing); ("rho_armour", Some Missing); ("N_waves", Some Missing); ("cot_alpha", Some Missing)]);
  (* lines 106-116 *)
  ("calculate_nominal_diameter_Dn_vanDerMeer1988",
    [("Hs", None); ("Tm", None); ("rho_water", None); ("rho_armour", None); ("N_waves", None); ("cot_alpha", None); ("Nod", None)]);
  (* lines 169-177 *)
  ("calculate_wave_height_Hs_vanDerMeer1988",
    [("Dn", None); ("s0m", None); ("rho_water", None); ("rho_armour", None); ("N_waves", None); ("cot_alpha", None); ("Nod", None)]);
  (* lines 230-238 *)
  ("calculate_damage_Nod_vanDerMeer1988",
    [("Hs", None); ("Dn", None); ("s0m", None); ("rho_water", None); ("rho_armour", None); ("N_waves", None); ("cot_alpha", None)])].

(** structural/stability_concrete_armour/cubes_single_layer_vangent2002.py *)
Definition stability_concrete_armour_cubes_single_layer_vangent2002 : list signature := [
  (* lines 13-13 *)
  ("check_validity_range",
    []);
  (* lines 18-23 *)
  ("calculate_unit_mass_M_start_of_damage",
    [("Hs", None); ("rho_water", None); ("rho_armour", None); ("Ns", Some (Number (29 # 10)))]);
  (* lines 64-69 *)
  ("calculate_unit_mass_M_failure",
    [("Hs", None); ("rho_water", None); ("rho_armour", None); ("Ns", Some (Number (7 # 2)))]);
  (* lines 106-111 *)
  ("calculate_significant_wave_height_Hs_start_of_damage",
    [("M", None); ("rho_water", None); ("rho_armour", None); ("Ns", Some (Number (29 # 10)))]);
  (* lines 151-156 *)
  ("calculate_significant_wave_height_Hs_failure",
    [("M", None); ("rho_water", None); ("rho_armour", None); ("Ns", Some (Number (7 # 2)))])].

(** structural/stability_concrete_armour/cubipod_hudson1959.py *)
Definition stability_concrete_armour_cubipod_hudson1959 : list signature := [
  (* lines 19-19 *)
  ("check_validity_range",
    []);
  (* lines 24-31 *)
  ("calculate_unit_mass_M",
    [("Hs", None); ("rho_water", None); ("rho_armour", None); ("KD", None); ("cot_alpha", Some (Number (133 # 100))); ("alpha_Hs", Some (Number (1 # 1)))]);
  (* lines 76-83 *)
  ("calculate_significant_wave_height_Hs",
    [("M", None); ("rho_water", None); ("rho_armour", None); ("KD", None); ("cot_alpha", Some (Number (133 # 100))); ("alpha_Hs", Some (Number (1 # 1)))])].

(** structural/stability_concrete_armour/tetrapod_hudson1959.py *)
Definition stability_concrete_armour_tetrapod_hudson1959 : list signature := [
  (* lines 20-20 *)
  ("check_validity_range",
    []);
  (* lines 25-32 *)
  ("calculate_unit_mass_M",
    [("Hs", None); ("rho_water", None); ("rho_armour", None); ("KD", None); ("cot_alpha", None); ("alpha_Hs", Some (Number (1 # 1)))]);
  (* lines 78-85 *)
  ("calculate_significant_wave_height_Hs",
    [("M", None); ("rho_water", None); ("rho_armour", None); ("KD", None); ("cot_alpha", None); ("alpha_Hs", Some (Number (1 # 1)))])].

(** structural/stability_concrete_armour/xbloc.py *)
Definition stability_concrete_armour_xbloc : list signature := [
  (* lines 17-17 *)
  ("check_validity_range",
    []);
  (* lines 22-27 *)
  ("calculate_wave_height_Hs_from_V",
    [("V", None); ("rho_water", None); ("rho_armour", None); ("total_correction_factor", Some (Number (1 # 1)))]);
  (* lines 58-63 *)
  ("calculate_wave_height_Hs_from_M",
    [("M", None); ("rho_water", None); ("rho_armour", None); ("total_correction_factor", Some (Number (1 # 1)))]);
  (* lines 101-106 *)
  ("calculate_unit_volume_V",
    [("Hs", None); ("rho_water", None); ("rho_armour", None); ("total_correction_factor", Some (Number (1 # 1)))]);
  (* lines 146-151 *)
  ("calculate_unit_mass_M",
    [("Hs", None); ("rho_water", None); ("rho_armour", None); ("total_correction_factor", Some (Number (1 # 1)))]);
  (* lines 189-191 *)
  ("calculate_correctionfactor_unit_mass_M_by_cotalpha_seabed",
    [("cot_alpha", None)]);
  (* lines 226-228 *)
  ("calculate_correctionfactor_unit_mass_M_by_percslope_seabed",
    [("perc_slope", None)]);
  (* lines 259-261 *)
  ("calculate_correctionfactor_unit_mass_M_by_relative_freeboard",
    [("rel_freeboard", None)]);
  (* lines 284-286 *)
  ("calculate_correctionfactor_unit_mass_M_by_rel_depth",
    [("rel_depth", None)]);
  (* lines 310-312 *)
  ("switch_correction_factor_unit_mass_M_near_design_event_frequency",
    [("design_event_occurs_frequently", Some (Flag false))]);
  (* lines 334-337 *)
  ("switch_correctionfactor_unit_mass_M_by_core_permeability",
    [("low_core_permeability", Some (Flag false)); ("core_impermeable", Some (Flag false))]);
  (* lines 363-365 *)
  ("calculate_correctionfactor_unit_mass_M_by_structure_slope",
    [("cot_alpha", None)])].

(** structural/stability_concrete_armour/xblocplus.py *)
Definition stability_concrete_armour_xblocplus : list signature := [
  (* lines 16-16 *)
  ("check_validity_range",
    []);
  (* lines 21-26 *)
  ("calculate_wave_height_Hs_from_V",
    [("V", None); ("rho_water", None); ("rho_armour", None); ("total_correction_factor", Some (Number (1 # 1)))]);
  (* lines 57-62 *)
  ("calculate_wave_height_Hs_from_M",
    [("M", None); ("rho_water", None); ("rho_armour", None); ("total_correction_factor", Some (Number (1 # 1)))]);
  (* lines 100-105 *)
  ("calculate_unit_volume_V",
    [("Hs", None); ("rho_water", None); ("rho_armour", None); ("total_correction_factor", Some (Number (1 # 1)))]);
  (* lines 145-150 *)
  ("calculate_unit_mass_M",
    [("Hs", None); ("rho_water", None); ("rho_armour", None); ("total_correction_factor", Some (Number (1 # 1)))]);
  (* lines 188-190 *)
  ("calculate_correctionfactor_unit_mass_M_by_cotalpha_seabed",
    [("cot_alpha", None)]);
  (* lines 225-227 *)
  ("calculate_correctionfactor_unit_mass_M_by_percslope_seabed",
    [("perc_slope", None)]);
  (* lines 258-260 *)
  ("calculate_correctionfactor_unit_mass_M_by_relative_freeboard",
    [("rel_freeboard", None)]);
  (* lines 283-286 *)
  ("switch_correctionfactor_unit_mass_M_by_core_permeability",
    [("low_core_permeability", Some (Flag false)); ("core_impermeable", Some (Flag false))])].

(** structural/stability_rock_armour/etemadshahidi2020.py *)
Definition stability_rock_armour_etemadshahidi2020 : list signature := [
  (* lines 9-20 *)
  ("check_validity_range",
    [("Hs", Some Missing); ("Tmm10", Some Missing); ("N_waves", Some Missing); ("cot_alpha", Some Missing); ("P", Some Missing); ("S", Some Missing);
     ("Dn50", Some Missing); ("Dn50_core", Some Missing); ("rho_armour", Some Missing); ("rho_water", Some (Number (1025 # 1)))]);
  (* lines 158-172 *)
  ("calculate_damage_number_S",
    [("Hs", None); ("Tmm10", None); ("N_waves", None); ("cot_alpha", None); ("rho_armour", None); ("Dn50", Some Missing); ("M50", Some Missing);
     ("Dn50_core", Some Missing); ("M50_core", Some Missing); ("rho_core", Some Missing); ("rho_water", Some (Number (1025 # 1))); ("m", Some Missing);
     ("use_depth_limited_version", Some (Flag false))]);
  (* lines 284-299 *)
  ("calculate_nominal_rock_diameter_Dn50",
    [("Hs", None); ("Tmm10", None); ("N_waves", None); ("cot_alpha", None); ("rho_armour", None); ("S", None); ("Dn50_core", Some Missing);
     ("M50_core", Some Missing); ("rho_core", Some Missing); ("m", Some Missing); ("use_depth_limited_version", Some (Flag false));
     ("Cp_init", Some (Number (1 # 2))); ("max_iter", Some (Number (1000 # 1))); ("tolerance", Some (Number (1 # 100000)))]);
  (* lines 438-452 *)
  ("calculate_significant_wave_height_Hs",
    [("Tmm10", None); ("N_waves", None); ("cot_alpha", None); ("rho_armour", None); ("S", None); ("Dn50", Some Missing); ("M50", Some Missing);
     ("Dn50_core", Some Missing); ("M50_core", Some Missing); ("rho_core", Some Missing); ("m", Some Missing);
     ("use_depth_limited_version", Some (Flag false)); ("g", Some (Number (981 # 100)))]);
  (* lines 576-579 *)
  ("calculate_permeability_coefficient_Cp",
    [("Dn50", None); ("Dn50_core", None)])].

(** structural/stability_rock_armour/hudson1959.py *)
Definition stability_rock_armour_hudson1959 : list signature := [
  (* lines 8-8 *)
  ("check_validity_range",
    []);
  (* lines 13-20 *)
  ("calculate_median_rock_mass_M50_no_damage",
    [("Hs", None); ("rho_water", None); ("rho_armour", None); ("KD", None); ("cot_alpha", None); ("alpha_Hs", Some (Number (127 # 100)))]);
  (* lines 63-70 *)
  ("calculate_significant_wave_height_Hs_no_damage",
    [("M50", None); ("rho_water", None); ("rho_armour", None); ("KD", None); ("cot_alpha", None); ("alpha_Hs", Some (Number (127 # 100)))]);
  (* lines 112-114 *)
  ("lookup_table_damage_factors",
    [("damage_percentage", None); ("rock_type", Some (Text "rough"))]);
  (* lines 151-160 *)
  ("calculate_median_rock_mass_M50",
    [("Hs", None); ("rho_water", None); ("rho_armour", None); ("KD", None); ("cot_alpha", None); ("damage_percentage", None);
     ("rock_type", Some (Text "rough")); ("alpha_Hs", Some (Number (127 # 100)))]);
  (* lines 215-224 *)
  ("calculate_significant_wave_height_Hs",
    [("M50", None); ("rho_water", None); ("rho_armour", None); ("KD", None); ("cot_alpha", None); ("damage_percentage", None);
     ("rock_type", Some (Text "rough")); ("alpha_Hs", Some (Number (127 # 100)))])].

(** structural/stability_rock_armour/jumelet2024.py *)
Definition stability_rock_armour_jumelet2024 : list signature := [
  (* lines 9-14 *)
  ("check_validity_range",
    [("Hs", Some Missing); ("Tmm10", Some Missing); ("N_waves", Some Missing); ("cot_alpha", Some Missing)]);
  (* lines 80-90 *)
  ("calculate_damage_number_S",
    [("Hs", None); ("Tmm10", None); ("N_waves", None); ("cot_alpha", None); ("rho_armour", None); ("Dn50", Some Missing); ("M50", Some Missing);
     ("c_pl", Some (Number (43 # 10))); ("rho_water", Some (Number (1025 # 1)))]);
  (* lines 150-158 *)
  ("calculate_nominal_rock_diameter_Dn50",
    [("Hs", None); ("Tmm10", None); ("N_waves", None); ("cot_alpha", None); ("rho_armour", None); ("S", None); ("c_pl", Some (Number (43 # 10)))]);
  (* lines 217-230 *)
  ("calculate_significant_wave_height_Hs",
    [("Tmm10", None); ("N_waves", None); ("cot_alpha", None); ("rho_armour", None); ("S", None); ("Dn50", Some Missing); ("M50", Some Missing);
     ("c_pl", Some (Number (43 # 10))); ("g", Some (Number (981 # 100))); ("smm10_init", Some (Number (3 # 100))); ("max_iter", Some (Number (1000 # 1)));
     ("tolerance", Some (Number (1 # 1000)))]);
  (* lines 319-321 *)
  ("calculate_fraction_plunging_waves_Fp",
    [("ksi_mm10", None)])].

(** structural/stability_rock_armour/kramerburcharth2004_lowcrested.py *)
Definition stability_rock_armour_kramerburcharth2004_lowcrested : list signature := [
  (* lines 9-12 *)
  ("check_validity_range",
    [("Rc", Some Missing); ("Dn50", Some Missing)]);
  (* lines 40-47 *)
  ("calculate_nominal_rock_diameter_Dn50",
    [("Hs", None); ("Rc", None); ("rho_armour", None); ("Ns_init", Some (Number (2 # 1))); ("max_iter", Some (Number (1000 # 1)));
     ("tolerance", Some (Number (1 # 100000)))]);
  (* lines 100-105 *)
  ("calculate_significant_wave_height_Hs",
    [("Rc", None); ("rho_armour", None); ("Dn50", Some Missing); ("M50", Some Missing)]);
  (* lines 145-153 *)
  ("calculate_crest_freeboard_Rc",
    [("Hs", None); ("rho_armour", None); ("Dn50", Some Missing); ("M50", Some Missing); ("Rc_Dn50_init", Some (Number ((-1) # 1)));
     ("max_iter", Some (Number (1000 # 1))); ("tolerance", Some (Number (1 # 100000)))])].

(** structural/stability_rock_armour/scaravaglione2025.py *)
Definition stability_rock_armour_scaravaglione2025 : list signature := [
  (* lines 9-19 *)
  ("check_validity_range",
    [("Hm0", Some Missing); ("Tmm10", Some Missing); ("N_waves", Some Missing); ("cot_alpha", Some Missing); ("P", Some Missing); ("Dn50", Some Missing);
     ("Dn50_core", Some Missing); ("rho_armour", Some Missing); ("rho_water", Some (Number (1025 # 1)))]);
  (* lines 127-140 *)
  ("calculate_damage_number_S",
    [("Hm0", None); ("Tmm10", None); ("N_waves", None); ("cot_alpha", None); ("rho_armour", None); ("rho_core", None); ("Dn50", Some Missing);
     ("Dn50_core", Some Missing); ("M50", Some Missing); ("M50_core", Some Missing); ("c_VGnew", Some (Number (33 # 10)));
     ("rho_water", Some (Number (1025 # 1)))]);
  (* lines 212-224 *)
  ("calculate_nominal_rock_diameter_Dn50",
    [("Hm0", None); ("Tmm10", None); ("N_waves", None); ("cot_alpha", None); ("rho_armour", None); ("rho_core", None); ("S", None);
     ("Dn50_core", Some Missing); ("M50_core", Some Missing); ("c_VGnew", Some (Number (33 # 10))); ("rho_water", Some (Number (1025 # 1)))]);
  (* lines 287-301 *)
  ("calculate_significant_wave_height_Hm0",
    [("Tmm10", None); ("N_waves", None); ("cot_alpha", None); ("rho_armour", None); ("rho_core", None); ("S", None); ("Dn50", Some Missing);
     ("Dn50_core", Some Missing); ("M50", Some Missing); ("M50_core", Some Missing); ("c_VGnew", Some (Number (33 # 10))); ("g", Some (Number (981 # 100)));
     ("rho_water", Some (Number (1025 # 1)))])].

(** structural/stability_rock_armour/vandermeer1988.py *)
Definition stability_rock_armour_vandermeer1988 : list signature := [
  (* lines 9-17 *)
  ("check_validity_range",
    [("Hs", Some Missing); ("H2p", Some Missing); ("Tp", Some Missing); ("N_waves", Some Missing); ("cot_alpha", Some Missing); ("P", Some Missing);
     ("rho_armour", Some Missing)]);
  (* lines 87-100 *)
  ("calculate_damage_number_S",
    [("Hs", None); ("H2p", None); ("Tm", None); ("N_waves", None); ("cot_alpha", None); ("P", None); ("rho_armour", None); ("Dn50", Some Missing);
     ("M50", Some Missing); ("c_pl", Some (Number (87 # 10))); ("c_s", Some (Number (7 # 5))); ("rho_water", Some (Number (1025 # 1)))]);
  (* lines 197-209 *)
  ("calculate_nominal_rock_diameter_Dn50",
    [("Hs", None); ("H2p", None); ("Tm", None); ("N_waves", None); ("cot_alpha", None); ("P", None); ("rho_armour", None); ("S", None);
     ("c_pl", Some (Number (87 # 10))); ("c_s", Some (Number (7 # 5))); ("rho_water", Some (Number (1025 # 1)))]);
  (* lines 298-312 *)
  ("calculate_significant_wave_height_Hs",
    [("ratio_H2p_Hs", None); ("Tm", None); ("N_waves", None); ("cot_alpha", None); ("P", None); ("rho_armour", None); ("S", None); ("Dn50", Some Missing);
     ("M50", Some Missing); ("c_pl", Some (Number (87 # 10))); ("c_s", Some (Number (7 # 5))); ("g", Some (Number (981 # 100)));
     ("rho_water", Some (Number (1025 # 1)))]);
  (* lines 418-420 *)
  ("calculate_correction_term_gamma_N",
    [("N_waves", None)])].

(** structural/stability_rock_armour/vandermeer1988_modified.py *)
Definition stability_rock_armour_vandermeer1988_modified : list signature := [
  (* lines 9-19 *)
  ("check_validity_range",
    [("Hs", Some Missing); ("H2p", Some Missing); ("Tmm10", Some Missing); ("N_waves", Some Missing); ("cot_alpha", Some Missing); ("P", Some Missing);
     ("Dn50", Some Missing); ("rho_armour", Some Missing); ("rho_water", Some (Number (1025 # 1)))]);
  (* lines 122-135 *)
  ("calculate_damage_number_S",
    [("Hs", None); ("H2p", None); ("Tmm10", None); ("N_waves", None); ("cot_alpha", None); ("P", None); ("rho_armour", None); ("Dn50", Some Missing);
     ("M50", Some Missing); ("c_pl", Some (Number (42 # 5))); ("c_s", Some (Number (13 # 10))); ("rho_water", Some (Number (1025 # 1)))]);
  (* lines 226-238 *)
  ("calculate_nominal_rock_diameter_Dn50",
    [("Hs", None); ("H2p", None); ("Tmm10", None); ("N_waves", None); ("cot_alpha", None); ("P", None); ("rho_armour", None); ("S", None);
     ("c_pl", Some (Number (42 # 5))); ("c_s", Some (Number (13 # 10))); ("rho_water", Some (Number (1025 # 1)))]);
  (* lines 327-341 *)
  ("calculate_significant_wave_height_Hs",
    [("ratio_H2p_Hs", None); ("Tmm10", None); ("N_waves", None); ("cot_alpha", None); ("P", None); ("rho_armour", None); ("S", None);
     ("Dn50", Some Missing); ("M50", Some Missing); ("c_pl", Some (Number (42 # 5))); ("c_s", Some (Number (13 # 10))); ("g", Some (Number (981 # 100)));
     ("rho_water", Some (Number (1025 # 1)))])].

(** structural/stability_rock_armour/vandermeer2021.py *)
Definition stability_rock_armour_vandermeer2021 : list signature := [
  (* lines 9-22 *)
  ("calculate_damage_number_S",
    [("Hs", None); ("Tmm10", None); ("N_waves", None); ("cot_alpha", None); ("P", None); ("rho_armour", None); ("Dn50", Some Missing);
     ("M50", Some Missing); ("c_pl", Some (Number (649 # 100))); ("c_s", Some (Number (97 # 100))); ("c_pl_mult", Some (Number (1 # 1)));
     ("c_s_mult", Some (Number (1 # 1)))]);
  (* lines 88-100 *)
  ("calculate_nominal_rock_diameter_Dn50",
    [("Hs", None); ("Tmm10", None); ("N_waves", None); ("cot_alpha", None); ("P", None); ("rho_armour", None); ("S", None);
     ("c_pl", Some (Number (649 # 100))); ("c_s", Some (Number (97 # 100))); ("c_pl_mult", Some (Number (1 # 1))); ("c_s_mult", Some (Number (1 # 1)))]);
  (* lines 162-176 *)
  ("calculate_significant_wave_height_Hs",
    [("Tmm10", None); ("N_waves", None); ("cot_alpha", None); ("P", None); ("rho_armour", None); ("S", None); ("Dn50", Some Missing); ("M50", Some Missing);
     ("c_pl", Some (Number (649 # 100))); ("c_s", Some (Number (97 # 100))); ("c_pl_mult", Some (Number (1 # 1))); ("c_s_mult", Some (Number (1 # 1)));
     ("g", Some (Number (981 # 100)))])].

(** structural/stability_rock_rear/vangent2007.py *)
Definition stability_rock_rear_vangent2007 : list signature := [
  (* lines 12-25 *)
  ("check_validity_range",
    [("Rc", Some Missing); ("Rc2_front", Some Missing); ("Rc2_rear", Some Missing); ("Gc", Some Missing); ("Dn50", Some Missing);
     ("B_element", Some Missing); ("h", Some Missing); ("Hs", Some Missing); ("Tmm10", Some Missing); ("z1p", Some Missing); ("S", Some Missing);
     ("N_waves", Some Missing)]);
  (* lines 139-152 *)
  ("calculate_damage_number_S",
    [("cot_alpha", None); ("cot_phi", None); ("gamma", None); ("Hs", None); ("Tmm10", None); ("Rc", None); ("Rc2_front", None); ("Rc2_rear", None);
     ("N_waves", None); ("Dn50", Some Missing); ("M50", Some Missing); ("rho_rock", Some Missing)]);
  (* lines 229-240 *)
  ("calculate_nominal_rock_diameter_Dn50",
    [("cot_alpha", None); ("cot_phi", None); ("gamma", None); ("S", None); ("Hs", None); ("Tmm10", None); ("Rc", None); ("Rc2_front", None);
     ("Rc2_rear", None); ("N_waves", None)]);
  (* lines 306-321 *)
  ("calculate_maximum_significant_wave_height_Hs",
    [("cot_alpha", None); ("cot_phi", None); ("gamma", None); ("S", None); ("Tmm10", None); ("Rc", None); ("Rc2_front", None); ("Rc2_rear", None);
     ("N_waves", None); ("Dn50", Some Missing); ("M50", Some Missing); ("rho_rock", Some Missing); ("tolerance", Some (Number (1 # 10000)));
     ("max_iterations", Some (Number (10000 # 1)))]);
  (* lines 413-422 *)
  ("_invert_for_z1p",
    [("cot_phi", None); ("S", None); ("Dn50", None); ("Hs", None); ("Rc", None); ("Rc2_front", None); ("Rc2_rear", None); ("N_waves", None)])].

(** structural/stability_rock_rear/vangentpozueta2004.py *)
Definition stability_rock_rear_vangentpozueta2004 : list signature := [
  (* lines 13-27 *)
  ("check_validity_range",
    [("Rc", Some Missing); ("Rc_rear", Some Missing); ("cot_phi", Some Missing); ("gamma_f", Some Missing); ("Dn50", Some Missing);
     ("rho_rock", Some Missing); ("rho_water", Some Missing); ("Bc", Some Missing); ("Hs", Some Missing); ("Tmm10", Some Missing); ("z1p", Some Missing);
     ("S", Some Missing); ("N_waves", Some Missing)]);
  (* lines 137-153 *)
  ("calculate_damage_number_S",
    [("cot_alpha", None); ("cot_phi", None); ("gamma_f", None); ("gamma_f_Crest", None); ("Hs", None); ("Tmm10", None); ("Rc", None); ("Rc_rear", None);
     ("Bc", None); ("N_waves", None); ("Dn50", Some Missing); ("M50", Some Missing); ("rho_rock", Some Missing); ("rho_water", Some (Number (1025 # 1)));
     ("cs", Some (Power (1 # 125) (6 # 1)))]);
  (* lines 240-255 *)
  ("calculate_nominal_rock_diameter_Dn50",
    [("cot_alpha", None); ("cot_phi", None); ("gamma_f", None); ("gamma_f_Crest", None); ("S", None); ("Hs", None); ("Tmm10", None); ("Rc", None);
     ("Rc_rear", None); ("Bc", None); ("rho_rock", None); ("N_waves", None); ("rho_water", Some (Number (1025 # 1)));
     ("cs", Some (Power (1 # 125) (6 # 1)))]);
  (* lines 338-356 *)
  ("calculate_maximum_significant_wave_height_Hs",
    [("cot_alpha", None); ("cot_phi", None); ("gamma_f", None); ("gamma_f_Crest", None); ("S", None); ("Tmm10", None); ("Rc", None); ("Rc_rear", None);
     ("Bc", None); ("N_waves", None); ("Dn50", Some Missing); ("M50", Some Missing); ("rho_rock", Some Missing); ("rho_water", Some (Number (1025 # 1)));
     ("cs", Some (Power (1 # 125) (6 # 1))); ("tolerance", Some (Number (1 # 10000))); ("max_iterations", Some (Number (10000 # 1)))]);
  (* lines 477-488 *)
  ("_invert_for_u1p",
    [("cot_phi", None); ("S", None); ("Hs", None); ("Tmm10", None); ("Rc_rear", None); ("N_waves", None); ("Dn50", Some Missing); ("Delta", Some Missing);
     ("cs", Some (Power (1 # 125) (6 # 1)))])].

(** structural/stability_toe_berm/etemadshahidi2021.py *)
Definition stability_toe_berm_etemadshahidi2021 : list signature := [
  (* lines 9-21 *)
  ("check_validity",
    [("Hs", Some Missing); ("Tmm10", Some Missing); ("h", Some Missing); ("ht", Some Missing); ("Bt", Some Missing); ("Dn50", Some Missing);
     ("m", Some Missing); ("Nod", Some Missing); ("cot_alpha_armour_slope", Some Missing); ("rho_armour", Some Missing);
     ("rho_water", Some (Number (1025 # 1)))]);
  (* lines 164-182 *)
  ("calculate_damage_Nod",
    [("Hs", None); ("Tmm10", None); ("h", None); ("ht", None); ("Bt", None); ("m", None); ("Dn50", None); ("rho_rock", None);
     ("rho_water", Some (Number (1025 # 1))); ("g", Some (Number (981 # 100))); ("c1", Some (Number (6 # 5))); ("c2", Some (Number (56 # 5)));
     ("c3", Some (Number (7 # 4))); ("c4", Some (Number (1 # 6))); ("c5", Some (Number (2 # 5))); ("c6", Some (Number ((-1) # 10)));
     ("c7", Some (Number (37 # 10)))]);
  (* lines 256-274 *)
  ("calculate_nominal_diameter_Dn50",
    [("Hs", None); ("Tmm10", None); ("h", None); ("ht", None); ("Bt", None); ("Nod", None); ("m", None); ("rho_rock", None);
     ("rho_water", Some (Number (1025 # 1))); ("g", Some (Number (981 # 100))); ("c1", Some (Number (6 # 5))); ("c2", Some (Number (56 # 5)));
     ("c3", Some (Number (7 # 4))); ("c4", Some (Number (1 # 6))); ("c5", Some (Number (2 # 5))); ("c6", Some (Number ((-1) # 10)));
     ("c7", Some (Number (37 # 10)))]);
  (* lines 346-366 *)
  ("calculate_significant_wave_height_Hs",
    [("Tmm10", None); ("h", None); ("ht", None); ("Bt", None); ("Nod", None); ("m", None); ("Dn50", None); ("rho_rock", None);
     ("rho_water", Some (Number (1025 # 1))); ("g", Some (Number (981 # 100))); ("c1", Some (Number (6 # 5))); ("c2", Some (Number (56 # 5)));
     ("c3", Some (Number (7 # 4))); ("c4", Some (Number (1 # 6))); ("c5", Some (Number (2 # 5))); ("c6", Some (Number ((-1) # 10)));
     ("c7", Some (Number (37 # 10))); ("smm10_init", Some (Number (3 # 100))); ("max_iter", Some (Number (1000 # 1)))])].

(** structural/stability_toe_berm/gerding1993.py *)
Definition stability_toe_berm_gerding1993 : list signature := [
  (* lines 9-13 *)
  ("check_validity",
    [("ht", Some Missing); ("h", Some Missing); ("Dn50", Some Missing)]);
  (* lines 55-62 *)
  ("calculate_damage_Nod",
    [("Hs", None); ("ht", None); ("h", None); ("Dn50", None); ("rho_rock", None); ("rho_water", None)]);
  (* lines 102-109 *)
  ("calculate_nominal_diameter_Dn50",
    [("Hs", None); ("ht", None); ("h", None); ("Nod", None); ("rho_rock", None); ("rho_water", None)]);
  (* lines 151-158 *)
  ("calculate_wave_height_Hs",
    [("Dn50", None); ("ht", None); ("h", None); ("Nod", None); ("rho_rock", None); ("rho_water", None)]);
  (* lines 200-207 *)
  ("calculate_depth_above_toe_ht",
    [("Hs", None); ("Dn50", None); ("h", None); ("Nod", None); ("rho_rock", None); ("rho_water", None)])].

(** structural/stability_toe_berm/takahashi1990_caisson.py *)
Definition stability_toe_berm_takahashi1990_caisson : list signature := [
  (* lines 10-13 *)
  ("check_validity",
    [("Ns", Some Missing); ("Bt", Some Missing)]);
  (* lines 59-68 *)
  ("calculate_nominal_diameter_Dn50",
    [("Hs", None); ("Tp", None); ("hacc", None); ("Bt", None); ("rho_rock", None); ("rho_water", None); ("beta", None); ("g", Some (Number (981 # 100)))]);
  (* lines 118-127 *)
  ("calculate_significant_wave_height_Hs",
    [("Dn50", None); ("Tp", None); ("hacc", None); ("Bt", None); ("rho_rock", None); ("rho_water", None); ("beta", None); ("g", Some (Number (981 # 100)))]);
  (* lines 228-237 *)
  ("calculate_significant_depth_above_toe_hacc",
    [("Dn50", None); ("Tp", None); ("Hs", None); ("Bt", None); ("rho_rock", None); ("rho_water", None); ("beta", None); ("g", Some (Number (981 # 100)))]);
  (* lines 330-337 *)
  ("calculate_stability_number_Ns",
    [("Hs", None); ("Tp", None); ("hacc", None); ("Bt", None); ("beta", None); ("g", Some (Number (981 # 100)))])].

(** structural/stability_toe_berm/vandermeer1998.py *)
Definition stability_toe_berm_vandermeer1998 : list signature := [
  (* lines 9-16 *)
  ("check_validity",
    [("Hs", Some Missing); ("ht", Some Missing); ("h", Some Missing); ("Dn50", Some Missing); ("Nod", Some Missing); ("Delta", Some Missing)]);
  (* lines 87-94 *)
  ("calculate_damage_Nod",
    [("Hs", None); ("ht", None); ("h", None); ("Dn50", None); ("rho_rock", None); ("rho_water", None)]);
  (* lines 134-141 *)
  ("calculate_nominal_diameter_Dn50",
    [("Hs", None); ("ht", None); ("h", None); ("Nod", None); ("rho_rock", None); ("rho_water", None)]);
  (* lines 183-190 *)
  ("calculate_wave_height_Hs",
    [("Dn50", None); ("ht", None); ("h", None); ("Nod", None); ("rho_rock", None); ("rho_water", None)]);
  (* lines 232-239 *)
  ("calculate_depth_above_toe_ht",
    [("Hs", None); ("Dn50", None); ("h", None); ("Nod", None); ("rho_rock", None); ("rho_water", None)])].

(** structural/stability_toe_berm/vangentvanderwerf2014.py *)
Definition stability_toe_berm_vangentvanderwerf2014 : list signature := [
  (* lines 9-14 *)
  ("check_validity",
    [("Hs", Some Missing); ("tt", Some Missing); ("ht", Some Missing); ("cot_alpha_armour_slope", Some Missing)]);
  (* lines 82-98 *)
  ("calculate_damage_Nod",
    [("Hm0", None); ("Tmm10", None); ("ht", None); ("Bt", None); ("tt", None); ("Dn50", None); ("rho_rock", None); ("rho_water", None);
     ("cot_alpha_armour_slope", None); ("g", Some (Number (981 # 100))); ("c1", Some (Number (4 # 125))); ("c2", Some (Number (3 # 10)));
     ("c3", Some (Number (1 # 1))); ("c4", Some (Number (3 # 1))); ("c5", Some (Number (1 # 1)))]);
  (* lines 161-172 *)
  ("calculate_nominal_diameter_Dn50",
    [("Hm0", None); ("Tmm10", None); ("ht", None); ("Bt", None); ("tt", None); ("Nod", None); ("rho_rock", None); ("rho_water", None);
     ("cot_alpha_armour_slope", None); ("g", Some (Number (981 # 100)))]);
  (* lines 227-232 *)
  ("calculate_velocity_u_delta",
    [("Hs", None); ("Tmm10", None); ("ht", None); ("g", Some (Number (981 # 100)))])].

(** All of them by file. *)
Definition signatures : list (string * list signature) := [
  ("core_physics.py", core_physics);
  ("core_utility.py", core_utility);
  ("hydraulic/wave_overtopping/denbieman2021.py", wave_overtopping_denbieman2021);
  ("hydraulic/wave_overtopping/deridder2024.py", wave_overtopping_deridder2024);
  ("hydraulic/wave_overtopping/deridder2026.py", wave_overtopping_deridder2026);
  ("hydraulic/wave_overtopping/eurotop2007.py", wave_overtopping_eurotop2007);
  ("hydraulic/wave_overtopping/eurotop2018.py", wave_overtopping_eurotop2018);
  ("hydraulic/wave_overtopping/taw2002.py", wave_overtopping_taw2002);
  ("hydraulic/wave_overtopping/vangent2002_velocity.py", wave_overtopping_vangent2002_velocity);
  ("hydraulic/wave_overtopping/vangent2007.py", wave_overtopping_vangent2007);
  ("hydraulic/wave_overtopping/vangent2021_caisson.py", wave_overtopping_vangent2021_caisson);
  ("hydraulic/wave_overtopping/vangent2025.py", wave_overtopping_vangent2025);
  ("hydraulic/wave_runup/eurotop2018.py", wave_runup_eurotop2018);
  ("hydraulic/wave_runup/taw2002.py", wave_runup_taw2002);
  ("hydraulic/wave_runup/vangent2001.py", wave_runup_vangent2001);
  ("hydraulic/wave_transmission/briganti2003.py", wave_transmission_briganti2003);
  ("hydraulic/wave_transmission/dangremond1996.py", wave_transmission_dangremond1996);
  ("hydraulic/wave_transmission/goda1967_caisson.py", wave_transmission_goda1967_caisson);
  ("hydraulic/wave_transmission/vangent2023.py", wave_transmission_vangent2023);
  ("hydraulic/wave_transmission/vangent2024_setup.py", wave_transmission_vangent2024_setup);
  ("structural/forces_caisson/goda1985.py", forces_caisson_goda1985);
  ("structural/forces_crestwall/vangentvanderwerf2019.py", forces_crestwall_vangentvanderwerf2019);
  ("structural/stability_concrete_armour/accropode2_hudson1959.py", stability_concrete_armour_accropode2_hudson1959);
  ("structural/stability_concrete_armour/accropode_hudson1959.py", stability_concrete_armour_accropode_hudson1959);
  ("structural/stability_concrete_armour/core_loc_hudson1959.py", stability_concrete_armour_core_loc_hudson1959);
  ("structural/stability_concrete_armour/cubes_double_layer_hudson1959.py", stability_concrete_armour_cubes_double_layer_hudson1959);
  ("structural/stability_concrete_armour/cubes_double_layer_vandermeer1988.py", stability_concrete_armour_cubes_double_layer_vandermeer1988);
  ("structural/stability_concrete_armour/cubes_single_layer_vangent2002.py", stability_concrete_armour_cubes_single_layer_vangent2002);
  ("structural/stability_concrete_armour/cubipod_hudson1959.py", stability_concrete_armour_cubipod_hudson1959);
  ("structural/stability_concrete_armour/tetrapod_hudson1959.py", stability_concrete_armour_tetrapod_hudson1959);
  ("structural/stability_concrete_armour/xbloc.py", stability_concrete_armour_xbloc);
  ("structural/stability_concrete_armour/xblocplus.py", stability_concrete_armour_xblocplus);
  ("structural/stability_rock_armour/etemadshahidi2020.py", stability_rock_armour_etemadshahidi2020);
  ("structural/stability_rock_armour/hudson1959.py", stability_rock_armour_hudson1959);
  ("structural/stability_rock_armour/jumelet2024.py", stability_rock_armour_jumelet2024);
  ("structural/stability_rock_armour/kramerburcharth2004_lowcrested.py", stability_rock_armour_kramerburcharth2004_lowcrested);
  ("structural/stability_rock_armour/scaravaglione2025.py", stability_rock_armour_scaravaglione2025);
  ("structural/stability_rock_armour/vandermeer1988.py", stability_rock_armour_vandermeer1988);
  ("structural/stability_rock_armour/vandermeer1988_modified.py", stability_rock_armour_vandermeer1988_modified);
  ("structural/stability_rock_armour/vandermeer2021.py", stability_rock_armour_vandermeer2021);
  ("structural/stability_rock_rear/vangent2007.py", stability_rock_rear_vangent2007);
  ("structural/stability_rock_rear/vangentpozueta2004.py", stability_rock_rear_vangentpozueta2004);
  ("structural/stability_toe_berm/etemadshahidi2021.py", stability_toe_berm_etemadshahidi2021);
  ("structural/stability_toe_berm/gerding1993.py", stability_toe_berm_gerding1993);
  ("structural/stability_toe_berm/takahashi1990_caisson.py", stability_toe_berm_takahashi1990_caisson);
  ("structural/stability_toe_berm/vandermeer1998.py", stability_toe_berm_vandermeer1998);
  ("structural/stability_toe_berm/vangentvanderwerf2014.py", stability_toe_berm_vangentvanderwerf2014)].

(** What the call f(...) of a function of a file binds. *)
Definition signature_of (file name : string) : option (list parameter) :=
  match lookup file signatures with
  | Some fs => lookup name fs
  | None => None
  end.
Definition default_of (file name param : string) : option literal :=
  match signature_of file name with
  | Some ps => match lookup param ps with Some d => d | None => None end
  | None => None
  end.
