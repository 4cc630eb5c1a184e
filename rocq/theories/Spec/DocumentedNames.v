(** The parameters in the order in which the documentation of the functions lists
    them (section Parameters of the docstring; functions without that section are
    left out).  Taken from the docstrings, not from the signatures. *)
From Coq Require Import String List.
Import ListNotations.
Open Scope string_scope.

(** core_physics.py *)
Definition names_core_physics : list (string * list string) := [
  ("calculate_wave_steepness_s",
    ["H"; "T"; "g"]);
  ("calculate_Iribarren_number_ksi",
    ["H"; "T"; "cot_alpha"]);
  ("calculate_critical_Iribarren_number_ksi_mc",
    ["c_pl"; "c_s"; "P"; "cot_alpha"]);
  ("calculate_stability_number_Ns",
    ["H"; "D"; "rho_rock"; "rho_water"]);
  ("calculate_buoyant_density_Delta",
    ["rho_rock"; "rho_water"]);
  ("calculate_M50_from_Dn50",
    ["Dn50"; "rho_rock"]);
  ("calculate_Dn50_from_M50",
    ["M50"; "rho_rock"]);
  ("check_usage_Dn50_or_M50",
    ["Dn50"; "M50"; "rho_rock"]);
  ("calculate_S_from_Nod",
    ["Nod"; "G"; "nv"]);
  ("calculate_Nod_from_S",
    ["S"; "G"; "nv"]);
  ("check_usage_stabilitynumber",
    ["Hs"; "Dn"; "Delta"; "Ns"]);
  ("calculate_local_wavelength",
    ["T"; "h"; "g"])].

(** core_utility.py *)
Definition names_core_utility : list (string * list string) := [
  ("check_variable_validity_range",
    ["variable_name"; "formula_name"; "value"; "min_value"; "max_value"])].

(** hydraulic/wave_overtopping/denbieman2021.py *)
Definition names_wave_overtopping_denbieman2021 : list (string * list string) := [
  ("write_input_file_XGB_Overtopping",
    ["beta"; "h"; "Hm0"; "Tmm10"; "Bt"; "ht"; "B_berm"; "db"; "Rc"; "Ac"; "Gc"; "cot_alpha_down"; "cot_alpha_up"; "gamma_f_down"; "gamma_f_up";
     "tan_alpha_f"; "output_dir"; "file_name"])].

(** hydraulic/wave_overtopping/deridder2024.py *)
Definition names_wave_overtopping_deridder2024 : list (string * list string) := [
  ("check_validity_range",
    ["h"; "Hm0"; "Hm0_HF"; "Hm0_LF"; "Tmm10"; "Tmm10_HF"; "Rc"; "cot_alpha"; "m_foreshore_slope"; "Dn50"]);
  ("calculate_crest_freeboard_discharge_q_eq24",
    ["Hm0"; "smm10_HF"; "gamma_f"; "q"; "g"]);
  ("calculate_crest_freeboard_discharge_q_eq26",
    ["Hm0"; "smm10_HF"; "Hm0_LF"; "gamma_f"; "q"; "g"]);
  ("calculate_dimensionless_crest_freeboard_discharge_q_eq24",
    ["Hm0"; "smm10_HF"; "gamma_f"; "q"; "g"]);
  ("calculate_overtopping_discharge_q_eq24",
    ["Hm0"; "smm10_HF"; "gamma_f"; "Rc"; "g"]);
  ("calculate_overtopping_discharge_q_eq26",
    ["Hm0"; "smm10_HF"; "Hm0_LF"; "gamma_f"; "Rc"; "g"]);
  ("calculate_dimensionless_overtopping_discharge_eq24",
    ["Hm0"; "smm10_HF"; "gamma_f"; "Rc"]);
  ("calculate_dimensionless_overtopping_discharge_eq26",
    ["Hm0"; "smm10_HF"; "Hm0_LF"; "gamma_f"; "Rc"])].

(** hydraulic/wave_overtopping/deridder2026.py *)
Definition names_wave_overtopping_deridder2026 : list (string * list string) := [
  ("check_validity_range",
    ["h"; "Hm0"; "Hm0_HF"; "Hm0_LF"; "Tmm10"; "Tmm10_HF"; "Rc"; "Dn50"; "theta"]);
  ("calculate_crest_freeboard_discharge_q_eq28",
    ["Hm0"; "smm10_HF"; "gamma_f"; "q"; "g"; "theta"]);
  ("calculate_crest_freeboard_discharge_q_eq32",
    ["Hm0_HF"; "smm10_HF"; "Hm0_LF"; "gamma_f"; "q"; "g"; "theta"]);
  ("calculate_dimensionless_crest_freeboard_discharge_q_eq28",
    ["Hm0"; "smm10_HF"; "gamma_f"; "q"; "g"; "gamma_beta"]);
  ("calculate_overtopping_discharge_q_eq28",
    ["Hm0"; "smm10_HF"; "gamma_f"; "Rc"; "g"; "theta"]);
  ("calculate_overtopping_discharge_q_eq32",
    ["Hm0_HF"; "smm10_HF"; "Hm0_LF"; "gamma_f"; "Rc"; "g"; "theta"]);
  ("calculate_dimensionless_overtopping_discharge_eq28",
    ["Hm0"; "smm10_HF"; "gamma_f"; "Rc"; "theta"]);
  ("calculate_dimensionless_overtopping_discharge_eq32",
    ["Hm0_HF"; "smm10_HF"; "Hm0_LF"; "gamma_f"; "Rc"; "theta"])].

(** hydraulic/wave_overtopping/eurotop2007.py *)
Definition names_wave_overtopping_eurotop2007 : list (string * list string) := [
  ("calculate_overtopping_discharge_q_rubble_mound",
    ["Hm0"; "Tmm10"; "Rc"; "beta"; "gamma_beta"; "gamma_f"; "cot_alpha"; "c2"; "c3"; "use_best_fit"; "g"]);
  ("calculate_dimensionless_overtopping_discharge_q_rubble_mound",
    ["Hm0"; "Tmm10"; "Rc"; "beta"; "gamma_beta"; "gamma_f"; "cot_alpha"; "c2"; "c3"; "use_best_fit"]);
  ("check_best_fit",
    ["c2"; "c3"; "use_best_fit"]);
  ("calculate_crest_freeboard_Rc_rubble_mound",
    ["Hm0"; "Tmm10"; "q"; "beta"; "gamma_beta"; "gamma_f"; "cot_alpha"; "c2"; "c3"; "use_best_fit"]);
  ("calculate_dimensionless_crest_freeboard_rubble_mound",
    ["Hm0"; "Tmm10"; "q"; "beta"; "gamma_beta"; "gamma_f"; "cot_alpha"; "c2"; "c3"; "use_best_fit"])].

(** hydraulic/wave_overtopping/eurotop2018.py *)
Definition names_wave_overtopping_eurotop2018 : list (string * list string) := [
  ("check_validity_range_rubble_mound",
    ["cot_alpha"]);
  ("calculate_overtopping_discharge_q",
    ["Hm0"; "Tmm10"; "Rc"; "beta"; "gamma_beta"; "gamma_b"; "gamma_f"; "gamma_v"; "gamma_star"; "B_berm"; "db"; "cot_alpha"; "cot_alpha_down";
     "cot_alpha_up"; "c1"; "c2"; "c3"; "c4"; "use_best_fit"; "g"]);
  ("calculate_dimensionless_overtopping_discharge_q",
    ["Hm0"; "Tmm10"; "Rc"; "beta"; "gamma_beta"; "gamma_b"; "gamma_f"; "gamma_v"; "gamma_star"; "B_berm"; "db"; "cot_alpha"; "cot_alpha_down";
     "cot_alpha_up"; "c1"; "c2"; "c3"; "c4"; "use_best_fit"]);
  ("q_diml_max_equation",
    ["Hm0"; "Rc"; "gamma_beta"; "gamma_f"; "gamma_star"; "c2"; "c3"]);
  ("check_best_fit",
    ["c1"; "c2"; "c3"; "c4"; "use_best_fit"]);
  ("calculate_influence_oblique_waves_gamma_beta",
    ["beta"; "gamma_f"; "gamma_f_crit"; "c_gamma_beta_smooth"; "c_gamma_beta_rough"; "max_angle"]);
  ("calculate_crest_freeboard_Rc",
    ["Hm0"; "Tmm10"; "q"; "beta"; "gamma_beta"; "gamma_b"; "gamma_f"; "gamma_v"; "gamma_star"; "B_berm"; "db"; "cot_alpha"; "cot_alpha_down";
     "cot_alpha_up"; "c1"; "c2"; "c3"; "c4"; "use_best_fit"; "g"]);
  ("calculate_dimensionless_crest_freeboard",
    ["Hm0"; "Tmm10"; "q"; "beta"; "gamma_beta"; "gamma_b"; "gamma_f"; "gamma_v"; "gamma_star"; "B_berm"; "db"; "cot_alpha"; "cot_alpha_down";
     "cot_alpha_up"; "c1"; "c2"; "c3"; "c4"; "use_best_fit"; "g"]);
  ("Rc_diml_max_equation",
    ["Hm0"; "q"; "gamma_beta"; "gamma_f"; "gamma_star"; "c2"; "c3"; "g"]);
  ("calculate_overtopping_discharge_q_rubble_mound",
    ["Hm0"; "Tmm10"; "Rc"; "beta"; "gamma_beta"; "gamma_f"; "B_berm"; "db"; "cot_alpha"; "cot_alpha_down"; "cot_alpha_up"; "c2"; "c3";
     "use_best_fit"; "g"]);
  ("calculate_dimensionless_overtopping_discharge_q_rubble_mound",
    ["Hm0"; "Tmm10"; "Rc"; "beta"; "gamma_beta"; "gamma_f"; "B_berm"; "db"; "cot_alpha"; "cot_alpha_down"; "cot_alpha_up"; "c2"; "c3"; "use_best_fit"]);
  ("calculate_crest_freeboard_Rc_rubble_mound",
    ["Hm0"; "Tmm10"; "q"; "beta"; "gamma_beta"; "gamma_f"; "B_berm"; "db"; "cot_alpha"; "cot_alpha_down"; "cot_alpha_up"; "c2"; "c3"; "use_best_fit";
     "g"]);
  ("calculate_dimensionless_crest_freeboard_rubble_mound",
    ["Hm0"; "Tmm10"; "q"; "beta"; "gamma_beta"; "gamma_f"; "B_berm"; "db"; "cot_alpha"; "cot_alpha_down"; "cot_alpha_up"; "c2"; "c3"; "use_best_fit";
     "g"])].

(** hydraulic/wave_overtopping/taw2002.py *)
Definition names_wave_overtopping_taw2002 : list (string * list string) := [
  ("check_validity_range",
    ["Hm0"; "Tmm10"; "beta"; "cot_alpha"; "cot_alpha_down"; "cot_alpha_up"; "gamma_f"; "gamma_b"; "gamma_beta"; "gamma_v"]);
  ("calculate_overtopping_discharge_q",
    ["Hm0"; "Tmm10"; "Rc"; "cot_alpha"; "cot_alpha_down"; "cot_alpha_up"; "beta"; "B_berm"; "db"; "gamma_beta"; "gamma_b"; "gamma_f"; "gamma_v";
     "sigma"; "g"; "use_best_fit"]);
  ("calculate_dimensionless_overtopping_discharge_q",
    ["Hm0"; "Tmm10"; "Rc"; "cot_alpha"; "cot_alpha_down"; "cot_alpha_up"; "beta"; "B_berm"; "db"; "gamma_beta"; "gamma_b"; "gamma_f"; "gamma_v";
     "sigma"; "use_best_fit"]);
  ("q_diml_max_equation",
    ["Hm0"; "Rc"; "gamma_beta"; "gamma_f"; "c3"; "cor3"; "c2"]);
  ("calculate_influence_oblique_waves_gamma_beta",
    ["beta"; "c_gamma_beta"; "max_angle"]);
  ("calculate_influence_crest_wall_gamma_v",
    ["alpha_wall_deg"]);
  ("calculate_crest_freeboard_Rc",
    ["Hm0"; "Tmm10"; "q"; "cot_alpha"; "cot_alpha_down"; "cot_alpha_up"; "beta"; "B_berm"; "db"; "gamma_beta"; "gamma_b"; "gamma_f"; "gamma_v";
     "sigma"; "g"; "use_best_fit"]);
  ("calculate_dimensionless_crest_freeboard",
    ["Hm0"; "Tmm10"; "q"; "cot_alpha"; "cot_alpha_down"; "cot_alpha_up"; "beta"; "B_berm"; "db"; "gamma_beta"; "gamma_b"; "gamma_f"; "gamma_v";
     "sigma"; "g"; "use_best_fit"]);
  ("Rc_diml_max_equation",
    ["Hm0"; "q"; "gamma_beta"; "gamma_f"; "c3"; "cor3"; "c2"; "g"])].

(** hydraulic/wave_overtopping/vangent2002_velocity.py *)
Definition names_wave_overtopping_vangent2002_velocity : list (string * list string) := [
  ("calculate_maximum_wave_overtopping_velocity_uXp",
    ["Hs"; "zXp"; "Rc"; "Bc"; "gamma_f"; "gamma_f_Crest"; "cu1"; "cu2"; "g"])].

(** hydraulic/wave_overtopping/vangent2007.py *)
Definition names_wave_overtopping_vangent2007 : list (string * list string) := [
  ("write_input_file_NN_Overtopping",
    ["beta"; "h"; "Hm0"; "Tmm10"; "Bt"; "ht"; "B_berm"; "db"; "Rc"; "Ac"; "Gc"; "cot_alpha_down"; "cot_alpha_up"; "gamma_f"; "tan_alpha_B";
     "output_dir"; "file_name"])].

(** hydraulic/wave_overtopping/vangent2021_caisson.py *)
Definition names_wave_overtopping_vangent2021_caisson : list (string * list string) := [
  ("check_validity_range",
    ["Hm0"; "Tmm10"; "beta"; "Rc"; "q_diml"]);
  ("calculate_overtopping_discharge_q",
    ["Hm0"; "Rc"; "beta"; "gamma_beta"; "Hm0_swell"; "c"; "c_swell"; "short_crested_waves"; "crossing_seas"; "parapet"; "g"]);
  ("calculate_dimensionless_overtopping_discharge_q",
    ["Hm0"; "Rc"; "beta"; "gamma_beta"; "Hm0_swell"; "c"; "c_swell"; "short_crested_waves"; "crossing_seas"; "parapet"]);
  ("calculate_influence_oblique_waves_gamma_beta",
    ["beta"; "gamma_p"; "c_beta"]);
  ("calculate_crest_freeboard_Rc",
    ["Hm0"; "q"; "beta"; "gamma_beta"; "Hm0_swell"; "c"; "c_swell"; "short_crested_waves"; "crossing_seas"; "parapet"; "g"]);
  ("calculate_dimensionless_crest_freeboard",
    ["Hm0"; "q"; "beta"; "gamma_beta"; "Hm0_swell"; "c"; "c_swell"; "short_crested_waves"; "crossing_seas"; "parapet"; "g"])].

(** hydraulic/wave_overtopping/vangent2025.py *)
Definition names_wave_overtopping_vangent2025 : list (string * list string) := [
  ("check_validity_range",
    ["Hm0"; "Hm0_deep"; "Tmm10"; "beta"; "h"; "cot_alpha"; "Dn50"; "Rc"; "Ac"; "Gc"; "B_berm"; "db"]);
  ("calculate_overtopping_discharge_q",
    ["Hm0"; "Hm0_swell"; "Tmm10"; "Rc"; "Ac"; "cot_alpha"; "beta"; "B_berm"; "db"; "Dn50"; "gamma_f"; "gamma_b"; "gamma_v"; "gamma_beta"; "g";
     "design_calculation"; "include_influence_wind"]);
  ("calculate_dimensionless_overtopping_discharge_q",
    ["Hm0"; "Hm0_swell"; "Tmm10"; "Rc"; "Ac"; "cot_alpha"; "beta"; "B_berm"; "db"; "Dn50"; "gamma_f"; "gamma_b"; "gamma_v"; "gamma_beta";
     "design_calculation"; "include_influence_wind"]);
  ("q_diml_max_equation",
    ["Hm0"; "Hm0_swell"; "ksi_mm10"; "cot_alpha"; "Rc"; "gamma_f"; "gamma_b"; "gamma_v"; "gamma_beta"; "c2"; "c3"]);
  ("calculate_influence_friction_gamma_f",
    ["Dn50"; "Hm0"; "smm10"; "c_f1"; "c_f2"; "smm10_lim"]);
  ("calculate_influence_berm_gamma_b",
    ["Hm0"; "smm10"; "Ac"; "B_berm"; "BL"; "c_b1"; "c_b2"; "c_b3"; "c_b4"]);
  ("calculate_influence_oblique_waves_gamma_beta",
    ["beta"; "c_beta"]);
  ("calculate_influence_crest_wall_gamma_v",
    ["cot_alpha"; "Rc"; "Ac"; "c_v"]);
  ("calculate_influence_wind_gamma_w",
    ["hc"; "Hm0"; "q_diml"]);
  ("calculate_crest_freeboard_Rc",
    ["Hm0"; "Hm0_swell"; "Tmm10"; "q"; "Ac"; "cot_alpha"; "beta"; "B_berm"; "db"; "Dn50"; "gamma_f"; "gamma_b"; "gamma_v"; "gamma_beta";
     "design_calculation"; "include_influence_wind"]);
  ("calculate_dimensionless_crest_freeboard",
    ["Hm0"; "Hm0_swell"; "Tmm10"; "q"; "Ac"; "cot_alpha"; "beta"; "B_berm"; "db"; "Dn50"; "gamma_f"; "gamma_b"; "gamma_v"; "gamma_beta"; "g";
     "design_calculation"; "include_influence_wind"; "max_iter"; "tolerance"]);
  ("Rc_diml_max_equation",
    ["Hm0"; "Hm0_swell"; "q"; "cot_alpha"; "ksi_mm10"; "gamma_f"; "gamma_b"; "gamma_v"; "gamma_beta"; "c2"; "c3"; "g"])].

(** hydraulic/wave_runup/eurotop2018.py *)
Definition names_wave_runup_eurotop2018 : list (string * list string) := [
  ("calculate_wave_runup_height_z2p",
    ["Hm0"; "Tmm10"; "beta"; "gamma_beta"; "gamma_b"; "gamma_f"; "B_berm"; "db"; "cot_alpha"; "cot_alpha_down"; "cot_alpha_up"; "c1"; "c2"; "c3";
     "c4"; "use_best_fit"]);
  ("calculate_dimensionless_wave_runup_height_z2p",
    ["Hm0"; "Tmm10"; "beta"; "gamma_beta"; "gamma_b"; "gamma_f"; "B_berm"; "db"; "cot_alpha"; "cot_alpha_down"; "cot_alpha_up"; "c1"; "c2"; "c3";
     "c4"; "use_best_fit"]);
  ("check_best_fit",
    ["c1"; "c2"; "c3"; "c4"; "use_best_fit"]);
  ("calculate_influence_oblique_waves_gamma_beta",
    ["beta"; "gamma_f"; "gamma_f_crit"; "c_gamma_beta_smooth"; "c_gamma_beta_rough"; "max_angle"]);
  ("iteration_procedure_z2p",
    ["Hm0"; "Tmm10"; "cot_alpha_down"; "cot_alpha_up"; "B_berm"; "db"; "gamma_f"; "gamma_beta"; "c1"; "c2"; "c3"; "c4"; "use_best_fit"; "tolerance";
     "max_iter"]);
  ("iteration_procedure_gamma_b",
    ["Hm0"; "Tmm10"; "cot_alpha_average"; "B_berm"; "L_berm"; "db"; "gamma_beta"; "c1"; "c2"; "c3"; "c4"; "use_best_fit"; "gamma_f"])].

(** hydraulic/wave_runup/taw2002.py *)
Definition names_wave_runup_taw2002 : list (string * list string) := [
  ("check_validity_range",
    ["Hm0"; "Tmm10"; "gamma_f"; "gamma_b"; "gamma_beta"; "gamma_v"; "cot_alpha"]);
  ("calculate_wave_runup_height_z2p",
    ["Hm0"; "Tmm10"; "beta"; "gamma_beta"; "gamma_b"; "gamma_f"; "B_berm"; "db"; "cot_alpha"; "cot_alpha_down"; "cot_alpha_up"; "c1"; "c2"; "c3";
     "c4"; "use_best_fit"]);
  ("calculate_dimensionless_wave_runup_height_z2p",
    ["Hm0"; "Tmm10"; "beta"; "gamma_beta"; "gamma_b"; "gamma_f"; "B_berm"; "db"; "cot_alpha"; "cot_alpha_down"; "cot_alpha_up"; "c1"; "c2"; "c3";
     "c4"; "use_best_fit"]);
  ("determine_average_slope",
    ["Hm0"; "z2p"; "cot_alpha_down"; "cot_alpha_up"; "B_berm"; "db"]);
  ("iteration_procedure_z2p",
    ["Hm0"; "Tmm10"; "cot_alpha_down"; "cot_alpha_up"; "B_berm"; "db"; "gamma_f"; "gamma_beta"; "c1"; "c2"; "c3"; "c4"; "use_best_fit"; "tolerance";
     "max_iter"]);
  ("calculate_berm_length",
    ["Hm0"; "B_berm"; "cot_alpha"; "cot_alpha_down"; "cot_alpha_up"]);
  ("check_composite_slope",
    ["cot_alpha"; "cot_alpha_down"; "cot_alpha_up"]);
  ("check_calculate_gamma_beta",
    ["beta"; "gamma_beta"]);
  ("iteration_procedure_gamma_b",
    ["Hm0"; "Tmm10"; "cot_alpha_average"; "B_berm"; "L_berm"; "db"; "gamma_beta"; "c1"; "c2"; "c3"; "c4"; "use_best_fit"; "gamma_f"]);
  ("calculate_influence_berm_gamma_b",
    ["Hm0"; "z2p"; "db"; "B_berm"; "L_berm"]);
  ("calculate_influence_oblique_waves_gamma_beta",
    ["beta"; "c_gamma_beta"; "max_angle"]);
  ("calculate_adjusted_influence_roughness_gamma_f",
    ["gamma_f"; "gamma_b"; "ksi_mm10"])].

(** hydraulic/wave_runup/vangent2001.py *)
Definition names_wave_runup_vangent2001 : list (string * list string) := [
  ("calculate_wave_runup_height_z1p",
    ["Hs"; "Tmm10"; "gamma"; "cot_alpha"; "c0"; "c1"]);
  ("calculate_wave_runup_height_z2p",
    ["Tmm10"; "gamma"; "cot_alpha"; "Hm0"; "Hs"; "c0"; "c1"]);
  ("calculate_wave_runup_height_z10p",
    ["Hs"; "Tmm10"; "gamma"; "cot_alpha"; "c0"; "c1"]);
  ("calculate_wave_runup_height_zXp",
    ["H"; "Tmm10"; "gamma"; "cot_alpha"; "c0"; "c1"])].

(** hydraulic/wave_transmission/briganti2003.py *)
Definition names_wave_transmission_briganti2003 : list (string * list string) := [
  ("check_validity",
    ["s0p"; "ksi_0p"]);
  ("calculate_wave_transmission_Kt",
    ["Hsi"; "Tpi"; "Rc"; "B"; "cot_alpha"])].

(** hydraulic/wave_transmission/dangremond1996.py *)
Definition names_wave_transmission_dangremond1996 : list (string * list string) := [
  ("check_validity",
    ["Kt"; "s0p"; "Hsi_over_h"; "Rc_over_Hsi"]);
  ("calculate_wave_transmission_Kt_permeable",
    ["Hsi"; "Tpi"; "h"; "Rc"; "B"; "cot_alpha"; "C1"]);
  ("calculate_wave_transmission_Kt_impermeable",
    ["Hsi"; "Tpi"; "h"; "Rc"; "B"; "cot_alpha"; "C1"])].

(** hydraulic/wave_transmission/goda1967_caisson.py *)
Definition names_wave_transmission_goda1967_caisson : list (string * list string) := [
  ("calculate_wave_transmission_Kt",
    ["Hsi"; "Rc"; "alpha_1"; "beta_1"])].

(** hydraulic/wave_transmission/vangent2023.py *)
Definition names_wave_transmission_vangent2023 : list (string * list string) := [
  ("check_validity_range",
    ["Hm0"; "Tmm10"; "Rc"; "B"; "structure_type"]);
  ("calculate_wave_transmission_Kt",
    ["Hm0"; "Tmm10"; "Rc"; "B"; "structure_type"])].

(** hydraulic/wave_transmission/vangent2024_setup.py *)
Definition names_wave_transmission_vangent2024_setup : list (string * list string) := [
  ("check_validity_range",
    ["Hm0"; "Tmm10"; "Rc"; "B"; "hc"; "Dn50"; "structure_type"]);
  ("calculate_structure_induced_setup_delta_impermeable",
    ["Hm0"; "Tmm10"; "Rc"]);
  ("calculate_dimensionless_structure_induced_setup_impermeable",
    ["Hm0"; "Tmm10"; "Rc"]);
  ("calculate_structure_induced_setup_delta_permeable",
    ["Hm0"; "Tmm10"; "Rc"; "hc"]);
  ("calculate_dimensionless_structure_induced_setup_permeable",
    ["Hm0"; "Tmm10"; "Rc"; "hc"])].

(** structural/forces_caisson/goda1985.py *)
Definition names_forces_caisson_goda1985 : list (string * list string) := [
  ("check_validity_range",
    ["beta"; "cota_seabed"; "Tmax"; "tup"; "Bup"; "h_s"; "B1"]);
  ("check_impulsive_breaking",
    ["beta"; "B1"; "L"; "cota_seabed"; "offshore_wave_steepness"; "Rc"; "Hsi"; "d"; "h_s"]);
  ("calculate_forces_and_reactions",
    ["HD"; "Hsi"; "Tmax"; "beta"; "h_s"; "d"; "B1"; "cota_seabed"; "rho_water"; "hacc"; "Rc"; "Bup"; "g"; "return_dict"]);
  ("calculate_pressures_and_forces",
    ["HD"; "Hsi"; "Tmax"; "beta"; "h_s"; "d"; "B1"; "cota_seabed"; "rho_water"; "hacc"; "Rc"; "Bup"; "g"; "return_dict"]);
  ("calculate_Wup",
    ["hacc"; "Rc"; "Bup"; "rho_fill_below_SWL"; "rho_water"; "rho_fill_above_SWL"; "g"]);
  ("calculate_safety_factors",
    ["FU"; "FH"; "Wup"; "muf"; "tup"; "MH"; "MU"]);
  ("calculate_bearing_pressures",
    ["Wup"; "tup"; "MH"; "MU"; "FU"; "Bup"])].

(** structural/forces_crestwall/vangentvanderwerf2019.py *)
Definition names_forces_crestwall_vangentvanderwerf2019 : list (string * list string) := [
  ("check_validity",
    ["Rc"; "Ac"; "Hm0"; "Fb"; "beta"]);
  ("calculate_influence_oblique_waves_force_gamma_F_beta",
    ["z2p"; "Ac"; "beta"; "gamma_A"]);
  ("calculate_influence_oblique_waves_horizontal_force_gamma_FH_beta",
    ["z2p"; "Ac"; "beta"; "gamma_A"]);
  ("calculate_influence_oblique_waves_vertical_force_gamma_FV_beta",
    ["z2p"; "Ac"; "beta"; "gamma_A"]);
  ("calculate_influence_oblique_waves_gamma_beta",
    ["beta"; "c_beta"]);
  ("calculate_FH2p_perpendicular",
    ["Hm0"; "Tmm10"; "cot_alpha"; "Ac"; "Rc"; "Hwall"; "gamma_beta"; "gamma_f"; "c0"; "c1"; "rho_water"; "g"; "cFH"]);
  ("calculate_FH2p_perpendicular_from_z2p",
    ["Hm0"; "z2p"; "Ac"; "Rc"; "Hwall"; "rho_water"; "g"; "cFH"]);
  ("calculate_FH2p_oblique",
    ["Hm0"; "Tmm10"; "beta"; "cot_alpha"; "Ac"; "Rc"; "Hwall"; "gamma_beta"; "gamma_f"; "c0"; "c1"; "cFH"; "rho_water"; "g"]);
  ("calculate_FV2p_perpendicular",
    ["Hm0"; "Tmm10"; "cot_alpha"; "Ac"; "Bwall"; "Fb"; "gamma_beta"; "gamma_f"; "c0"; "c1"; "cFV"; "cFb"; "rho_water"; "g"]);
  ("calculate_FV2p_perpendicular_from_z2p",
    ["z2p"; "Ac"; "Bwall"; "Fb"; "cFV"; "cFb"; "rho_water"; "g"]);
  ("calculate_FV2p_oblique",
    ["Hm0"; "Tmm10"; "beta"; "cot_alpha"; "Ac"; "Bwall"; "Fb"; "gamma_beta"; "gamma_f"; "c0"; "c1"; "cFV"; "cFb"; "rho_water"; "g"]);
  ("calculate_FH01p_perpendicular",
    ["FH2p"]);
  ("calculate_FV01p_perpendicular",
    ["FV2p"; "s0p"])].

(** structural/stability_concrete_armour/accropode2_hudson1959.py *)
Definition names_stability_concrete_armour_accropode2_hudson1959 : list (string * list string) := [
  ("check_validity_range",
    ["cot_alpha"; "seabed_slope_perc"]);
  ("calculate_unit_mass_M",
    ["Hs"; "rho_water"; "rho_armour"; "KD"; "cot_alpha"; "alpha_Hs"]);
  ("calculate_significant_wave_height_Hs",
    ["M"; "rho_water"; "rho_armour"; "KD"; "cot_alpha"; "alpha_Hs"]);
  ("calculate_KD_breaking_trunk_from_seabed_slope",
    ["seabed_slope_perc"])].

(** structural/stability_concrete_armour/accropode_hudson1959.py *)
Definition names_stability_concrete_armour_accropode_hudson1959 : list (string * list string) := [
  ("check_validity_range",
    ["cot_alpha"; "seabed_slope_perc"]);
  ("calculate_unit_mass_M",
    ["Hs"; "rho_water"; "rho_armour"; "KD"; "cot_alpha"; "alpha_Hs"]);
  ("calculate_significant_wave_height_Hs",
    ["M"; "rho_water"; "rho_armour"; "KD"; "cot_alpha"; "alpha_Hs"]);
  ("calculate_KD_breaking_trunk_from_seabed_slope",
    ["seabed_slope_perc"])].

(** structural/stability_concrete_armour/core_loc_hudson1959.py *)
Definition names_stability_concrete_armour_core_loc_hudson1959 : list (string * list string) := [
  ("check_validity_range",
    ["cot_alpha"; "seabed_slope_perc"]);
  ("calculate_unit_mass_M",
    ["Hs"; "rho_water"; "rho_armour"; "KD"; "cot_alpha"; "alpha_Hs"]);
  ("calculate_significant_wave_height_Hs",
    ["M"; "rho_water"; "rho_armour"; "KD"; "cot_alpha"; "alpha_Hs"]);
  ("calculate_KD_breaking_trunk_from_seabed_slope",
    ["seabed_slope_perc"])].

(** structural/stability_concrete_armour/cubes_double_layer_hudson1959.py *)
Definition names_stability_concrete_armour_cubes_double_layer_hudson1959 : list (string * list string) := [
  ("calculate_unit_mass_M",
    ["Hs"; "rho_water"; "rho_armour"; "KD"; "cot_alpha"; "alpha_Hs"]);
  ("calculate_significant_wave_height_Hs",
    ["M"; "rho_water"; "rho_armour"; "KD"; "cot_alpha"; "alpha_Hs"])].

(** structural/stability_concrete_armour/cubes_double_layer_vandermeer1988.py *)
Definition names_stability_concrete_armour_cubes_double_layer_vandermeer1988 : list (string * list string) := [
  ("check_validity_range",
    ["Hs"; "Tm"; "rho_armour"; "N_waves"; "cot_alpha"]);
  ("calculate_nominal_diameter_Dn_vanDerMeer1988",
    ["Hs"; "Tm"; "rho_water"; "rho_armour"; "N_waves"; "cot_alpha"; "Nod"]);
  ("calculate_wave_height_Hs_vanDerMeer1988",
    ["Dn"; "s0m"; "rho_water"; "rho_armour"; "N_waves"; "cot_alpha"; "Nod"]);
  ("calculate_damage_Nod_vanDerMeer1988",
    ["Dn"; "s0m"; "rho_water"; "rho_armour"; "N_waves"; "cot_alpha"; "Nod"])].

(** structural/stability_concrete_armour/cubes_single_layer_vangent2002.py *)
Definition names_stability_concrete_armour_cubes_single_layer_vangent2002 : list (string * list string) := [
  ("calculate_unit_mass_M_start_of_damage",
    ["Hs"; "rho_water"; "rho_armour"; "Ns"]);
  ("calculate_unit_mass_M_failure",
    ["Hs"; "rho_water"; "rho_armour"; "Ns"]);
  ("calculate_significant_wave_height_Hs_start_of_damage",
    ["M"; "rho_water"; "rho_armour"; "Ns"]);
  ("calculate_significant_wave_height_Hs_failure",
    ["M"; "rho_water"; "rho_armour"; "Ns"])].

(** structural/stability_concrete_armour/cubipod_hudson1959.py *)
Definition names_stability_concrete_armour_cubipod_hudson1959 : list (string * list string) := [
  ("calculate_unit_mass_M",
    ["Hs"; "rho_water"; "rho_armour"; "KD"; "cot_alpha"; "alpha_Hs"]);
  ("calculate_significant_wave_height_Hs",
    ["M"; "rho_water"; "rho_armour"; "KD"; "cot_alpha"; "alpha_Hs"])].

(** structural/stability_concrete_armour/tetrapod_hudson1959.py *)
Definition names_stability_concrete_armour_tetrapod_hudson1959 : list (string * list string) := [
  ("calculate_unit_mass_M",
    ["Hs"; "rho_water"; "rho_armour"; "KD"; "cot_alpha"; "alpha_Hs"]);
  ("calculate_significant_wave_height_Hs",
    ["M"; "rho_water"; "rho_armour"; "KD"; "cot_alpha"; "alpha_Hs"])].

(** structural/stability_concrete_armour/xbloc.py *)
Definition names_stability_concrete_armour_xbloc : list (string * list string) := [
  ("calculate_wave_height_Hs_from_V",
    ["V"; "rho_water"; "rho_armour"; "total_correction_factor"]);
  ("calculate_wave_height_Hs_from_M",
    ["M"; "rho_water"; "rho_armour"; "total_correction_factor"]);
  ("calculate_unit_volume_V",
    ["Hs"; "rho_water"; "rho_armour"; "total_correction_factor"]);
  ("calculate_unit_mass_M",
    ["Hs"; "rho_water"; "rho_armour"; "total_correction_factor"]);
  ("calculate_correctionfactor_unit_mass_M_by_cotalpha_seabed",
    ["cot_alpha"]);
  ("calculate_correctionfactor_unit_mass_M_by_percslope_seabed",
    ["perc_slope"]);
  ("calculate_correctionfactor_unit_mass_M_by_relative_freeboard",
    ["rel_freeboard"]);
  ("calculate_correctionfactor_unit_mass_M_by_rel_depth",
    ["rel_depth"]);
  ("switch_correction_factor_unit_mass_M_near_design_event_frequency",
    ["design_event_occurs_frequently"]);
  ("switch_correctionfactor_unit_mass_M_by_core_permeability",
    ["low_core_permeability"; "core_impermeable"]);
  ("calculate_correctionfactor_unit_mass_M_by_structure_slope",
    ["cot_alpha"])].

(** structural/stability_concrete_armour/xblocplus.py *)
Definition names_stability_concrete_armour_xblocplus : list (string * list string) := [
  ("calculate_wave_height_Hs_from_V",
    ["V"; "rho_water"; "rho_armour"; "total_correction_factor"]);
  ("calculate_wave_height_Hs_from_M",
    ["M"; "rho_water"; "rho_armour"; "total_correction_factor"]);
  ("calculate_unit_volume_V",
    ["Hs"; "rho_water"; "rho_armour"; "total_correction_factor"]);
  ("calculate_unit_mass_M",
    ["Hs"; "rho_water"; "rho_armour"; "total_correction_factor"]);
  ("calculate_correctionfactor_unit_mass_M_by_cotalpha_seabed",
    ["cot_alpha"]);
  ("calculate_correctionfactor_unit_mass_M_by_percslope_seabed",
    ["perc_slope"]);
  ("calculate_correctionfactor_unit_mass_M_by_relative_freeboard",
    ["rel_freeboard"]);
  ("switch_correctionfactor_unit_mass_M_by_core_permeability",
    ["low_core_permeability"; "core_impermeable"])].

(** structural/stability_rock_armour/etemadshahidi2020.py *)
Definition names_stability_rock_armour_etemadshahidi2020 : list (string * list string) := [
  ("check_validity_range",
    ["Hs"; "Tmm10"; "N_waves"; "cot_alpha"; "P"; "S"; "Dn50"; "Dn50_core"; "rho_armour"; "rho_water"]);
  ("calculate_damage_number_S",
    ["Hs"; "Tmm10"; "N_waves"; "cot_alpha"; "rho_armour"; "Dn50"; "M50"; "Dn50_core"; "M50_core"; "rho_core"; "rho_water"; "m";
     "use_depth_limited_version"]);
  ("calculate_nominal_rock_diameter_Dn50",
    ["Hs"; "Tmm10"; "N_waves"; "cot_alpha"; "rho_armour"; "S"; "Dn50_core"; "M50_core"; "rho_core"; "m"; "use_depth_limited_version"; "Cp_init";
     "max_iter"; "tolerance"]);
  ("calculate_significant_wave_height_Hs",
    ["Tmm10"; "N_waves"; "cot_alpha"; "rho_armour"; "S"; "Dn50"; "M50"; "Dn50_core"; "M50_core"; "rho_core"; "m"; "use_depth_limited_version"; "g"]);
  ("calculate_permeability_coefficient_Cp",
    ["Dn50"; "Dn50_core"])].

(** structural/stability_rock_armour/hudson1959.py *)
Definition names_stability_rock_armour_hudson1959 : list (string * list string) := [
  ("calculate_median_rock_mass_M50_no_damage",
    ["Hs"; "rho_water"; "rho_armour"; "KD"; "cot_alpha"; "alpha_Hs"]);
  ("calculate_significant_wave_height_Hs_no_damage",
    ["M50"; "rho_water"; "rho_armour"; "KD"; "cot_alpha"; "alpha_Hs"]);
  ("lookup_table_damage_factors",
    ["damage_percentage"; "rock_type"]);
  ("calculate_median_rock_mass_M50",
    ["Hs"; "rho_water"; "rho_armour"; "KD"; "cot_alpha"; "damage_percentage"; "alpha_Hs"]);
  ("calculate_significant_wave_height_Hs",
    ["M50"; "rho_water"; "rho_armour"; "KD"; "cot_alpha"; "damage_percentage"; "alpha_Hs"])].

(** structural/stability_rock_armour/jumelet2024.py *)
Definition names_stability_rock_armour_jumelet2024 : list (string * list string) := [
  ("check_validity_range",
    ["Hs"; "Tmm10"; "N_waves"; "cot_alpha"]);
  ("calculate_damage_number_S",
    ["Hs"; "Tmm10"; "N_waves"; "cot_alpha"; "rho_armour"; "Dn50"; "M50"; "c_pl"; "rho_water"]);
  ("calculate_nominal_rock_diameter_Dn50",
    ["Hs"; "Tmm10"; "N_waves"; "cot_alpha"; "rho_armour"; "S"; "c_pl"]);
  ("calculate_significant_wave_height_Hs",
    ["Tmm10"; "N_waves"; "cot_alpha"; "rho_armour"; "S"; "Dn50"; "M50"; "c_pl"; "g"; "smm10_init"; "max_iter"; "tolerance"]);
  ("calculate_fraction_plunging_waves_Fp",
    ["ksi_mm10"])].

(** structural/stability_rock_armour/kramerburcharth2004_lowcrested.py *)
Definition names_stability_rock_armour_kramerburcharth2004_lowcrested : list (string * list string) := [
  ("check_validity_range",
    ["Rc"; "Dn50"]);
  ("calculate_nominal_rock_diameter_Dn50",
    ["Hs"; "Rc"; "rho_armour"; "Ns_init"; "max_iter"; "tolerance"]);
  ("calculate_significant_wave_height_Hs",
    ["Rc"; "rho_armour"; "Dn50"; "M50"]);
  ("calculate_crest_freeboard_Rc",
    ["Hs"; "rho_armour"; "Dn50"; "M50"; "Rc_Dn50_init"; "max_iter"; "tolerance"])].

(** structural/stability_rock_armour/scaravaglione2025.py *)
Definition names_stability_rock_armour_scaravaglione2025 : list (string * list string) := [
  ("check_validity_range",
    ["Hm0"; "Tmm10"; "N_waves"; "cot_alpha"; "P"; "Dn50"; "Dn50_core"; "rho_armour"; "rho_water"]);
  ("calculate_damage_number_S",
    ["Hm0"; "Tmm10"; "N_waves"; "cot_alpha"; "rho_armour"; "rho_core"; "Dn50"; "Dn50_core"; "M50"; "M50_core"; "c_VGnew"; "rho_water"]);
  ("calculate_nominal_rock_diameter_Dn50",
    ["Hm0"; "Tmm10"; "N_waves"; "cot_alpha"; "rho_armour"; "rho_core"; "S"; "Dn50_core"; "M50_core"; "c_VGnew"; "rho_water"]);
  ("calculate_significant_wave_height_Hm0",
    ["Tmm10"; "N_waves"; "cot_alpha"; "rho_armour"; "rho_core"; "S"; "Dn50"; "Dn50_core"; "M50"; "M50_core"; "c_VGnew"; "g"; "rho_water"])].

(** structural/stability_rock_armour/vandermeer1988.py *)
Definition names_stability_rock_armour_vandermeer1988 : list (string * list string) := [
  ("check_validity_range",
    ["Hs"; "H2p"; "Tp"; "N_waves"; "cot_alpha"; "P"; "rho_armour"]);
  ("calculate_damage_number_S",
    ["Hs"; "H2p"; "Tm"; "N_waves"; "cot_alpha"; "P"; "rho_armour"; "Dn50"; "M50"; "c_pl"; "c_s"; "rho_water"]);
  ("calculate_nominal_rock_diameter_Dn50",
    ["Hs"; "H2p"; "Tm"; "N_waves"; "cot_alpha"; "P"; "rho_armour"; "S"; "c_pl"; "c_s"; "rho_water"]);
  ("calculate_significant_wave_height_Hs",
    ["ratio_H2p_Hs"; "Tm"; "N_waves"; "cot_alpha"; "P"; "rho_armour"; "S"; "Dn50"; "M50"; "c_pl"; "c_s"; "g"; "rho_water"]);
  ("calculate_correction_term_gamma_N",
    ["N_waves"])].

(** structural/stability_rock_armour/vandermeer1988_modified.py *)
Definition names_stability_rock_armour_vandermeer1988_modified : list (string * list string) := [
  ("check_validity_range",
    ["Hs"; "H2p"; "Tmm10"; "N_waves"; "cot_alpha"; "P"; "Dn50"; "rho_armour"; "rho_water"]);
  ("calculate_damage_number_S",
    ["Hs"; "H2p"; "Tmm10"; "N_waves"; "cot_alpha"; "P"; "rho_armour"; "Dn50"; "M50"; "c_pl"; "c_s"; "rho_water"]);
  ("calculate_nominal_rock_diameter_Dn50",
    ["Hs"; "H2p"; "Tmm10"; "N_waves"; "cot_alpha"; "P"; "rho_armour"; "S"; "c_pl"; "c_s"; "rho_water"]);
  ("calculate_significant_wave_height_Hs",
    ["ratio_H2p_Hs"; "Tmm10"; "N_waves"; "cot_alpha"; "P"; "rho_armour"; "S"; "Dn50"; "M50"; "c_pl"; "c_s"; "g"; "rho_water"])].

(** structural/stability_rock_armour/vandermeer2021.py *)
Definition names_stability_rock_armour_vandermeer2021 : list (string * list string) := [
  ("calculate_damage_number_S",
    ["Hs"; "Tmm10"; "N_waves"; "cot_alpha"; "P"; "rho_armour"; "Dn50"; "M50"; "c_pl"; "c_s"; "c_pl_mult"; "c_s_mult"]);
  ("calculate_nominal_rock_diameter_Dn50",
    ["Hs"; "Tmm10"; "N_waves"; "cot_alpha"; "P"; "rho_armour"; "S"; "c_pl"; "c_s"; "c_pl_mult"; "c_s_mult"]);
  ("calculate_significant_wave_height_Hs",
    ["Tmm10"; "N_waves"; "cot_alpha"; "P"; "rho_armour"; "S"; "Dn50"; "M50"; "c_pl"; "c_s"; "c_pl_mult"; "c_s_mult"; "g"])].

(** structural/stability_rock_rear/vangent2007.py *)
Definition names_stability_rock_rear_vangent2007 : list (string * list string) := [
  ("check_validity_range",
    ["Rc"; "Rc2_front"; "Rc2_rear"; "Gc"; "Dn50"; "B_element"; "h"; "Hs"; "Tmm10"; "z1p"; "S"; "N_waves"]);
  ("calculate_damage_number_S",
    ["cot_alpha"; "cot_phi"; "gamma"; "Hs"; "Tmm10"; "Rc"; "Rc2_front"; "Rc2_rear"; "N_waves"; "Dn50"; "M50"; "rho_rock"]);
  ("calculate_nominal_rock_diameter_Dn50",
    ["cot_alpha"; "cot_phi"; "gamma"; "S"; "Hs"; "Tmm10"; "Rc"; "Rc2_front"; "Rc2_rear"; "N_waves"]);
  ("calculate_maximum_significant_wave_height_Hs",
    ["cot_alpha"; "cot_phi"; "gamma"; "S"; "Tmm10"; "Rc"; "Rc2_front"; "Rc2_rear"; "N_waves"; "Dn50"; "M50"; "rho_rock"; "tolerance"; "max_iterations"])].

(** structural/stability_rock_rear/vangentpozueta2004.py *)
Definition names_stability_rock_rear_vangentpozueta2004 : list (string * list string) := [
  ("check_validity_range",
    ["Rc"; "Rc_rear"; "cot_phi"; "gamma_f"; "Dn50"; "rho_rock"; "rho_water"; "Bc"; "Hs"; "Tmm10"; "z1p"; "S"; "N_waves"]);
  ("calculate_damage_number_S",
    ["cot_alpha"; "cot_phi"; "gamma_f"; "gamma_f_Crest"; "Hs"; "Tmm10"; "Rc"; "Rc_rear"; "Bc"; "N_waves"; "Dn50"; "M50"; "rho_rock"; "rho_water"; "cs"]);
  ("calculate_nominal_rock_diameter_Dn50",
    ["cot_alpha"; "cot_phi"; "gamma_f"; "gamma_f_Crest"; "S"; "Hs"; "Tmm10"; "Rc"; "Rc_rear"; "Bc"; "rho_rock"; "N_waves"; "rho_water"; "cs"]);
  ("calculate_maximum_significant_wave_height_Hs",
    ["cot_alpha"; "cot_phi"; "gamma_f"; "gamma_f_Crest"; "S"; "Tmm10"; "Rc"; "Rc_rear"; "Bc"; "N_waves"; "Dn50"; "M50"; "rho_rock"; "rho_water";
     "cs"; "tolerance"; "max_iterations"])].

(** structural/stability_toe_berm/etemadshahidi2021.py *)
Definition names_stability_toe_berm_etemadshahidi2021 : list (string * list string) := [
  ("check_validity",
    ["Hs"; "Tmm10"; "h"; "ht"; "Bt"; "Dn50"; "m"; "Nod"; "cot_alpha_armour_slope"; "rho_armour"; "rho_water"]);
  ("calculate_damage_Nod",
    ["Hs"; "Tmm10"; "h"; "ht"; "Bt"; "m"; "Dn50"; "rho_rock"; "rho_water"; "g"; "c1"; "c2"; "c3"; "c4"; "c5"; "c6"; "c7"]);
  ("calculate_nominal_diameter_Dn50",
    ["Hs"; "Tmm10"; "h"; "ht"; "Bt"; "Nod"; "m"; "rho_rock"; "rho_water"; "g"; "c1"; "c2"; "c3"; "c4"; "c5"; "c6"; "c7"]);
  ("calculate_significant_wave_height_Hs",
    ["Tmm10"; "h"; "ht"; "Bt"; "Nod"; "m"; "Dn50"; "rho_rock"; "rho_water"; "g"; "c1"; "c2"; "c3"; "c4"; "c5"; "c6"; "c7"; "smm10_init"; "max_iter"])].

(** structural/stability_toe_berm/gerding1993.py *)
Definition names_stability_toe_berm_gerding1993 : list (string * list string) := [
  ("check_validity",
    ["ht"; "h"; "Dn50"]);
  ("calculate_damage_Nod",
    ["Hs"; "ht"; "h"; "Dn50"; "rho_rock"; "rho_water"]);
  ("calculate_nominal_diameter_Dn50",
    ["Hs"; "ht"; "h"; "Nod"; "rho_rock"; "rho_water"; "g"]);
  ("calculate_wave_height_Hs",
    ["Dn50"; "ht"; "h"; "Nod"; "rho_rock"; "rho_water"; "g"]);
  ("calculate_depth_above_toe_ht",
    ["Hs"; "Dn50"; "h"; "Nod"; "rho_rock"; "rho_water"; "g"])].

(** structural/stability_toe_berm/takahashi1990_caisson.py *)
Definition names_stability_toe_berm_takahashi1990_caisson : list (string * list string) := [
  ("check_validity",
    ["Ns"; "Bt"]);
  ("calculate_nominal_diameter_Dn50",
    ["Hs"; "Tp"; "ht"; "Bt"; "rho_rock"; "rho_water"]);
  ("calculate_significant_wave_height_Hs",
    ["Dn50"; "Tp"; "ht"; "Bt"; "rho_rock"; "rho_water"]);
  ("calculate_significant_depth_above_toe_hacc",
    ["Dn50"; "Tp"; "Hs"; "Bt"; "rho_rock"; "rho_water"]);
  ("calculate_stability_number_Ns",
    ["Hs"; "Tmm10"; "ht"; "Bt"; "g"])].

(** structural/stability_toe_berm/vandermeer1998.py *)
Definition names_stability_toe_berm_vandermeer1998 : list (string * list string) := [
  ("check_validity",
    ["Hs"; "ht"; "h"; "Dn50"; "Nod"; "Delta"]);
  ("calculate_damage_Nod",
    ["Hs"; "ht"; "h"; "Dn50"; "rho_rock"; "rho_water"]);
  ("calculate_nominal_diameter_Dn50",
    ["Hs"; "ht"; "h"; "Nod"; "rho_rock"; "rho_water"; "g"]);
  ("calculate_wave_height_Hs",
    ["Dn50"; "ht"; "h"; "Nod"; "rho_rock"; "rho_water"; "g"]);
  ("calculate_depth_above_toe_ht",
    ["Hs"; "Dn50"; "h"; "Nod"; "rho_rock"; "rho_water"; "g"])].

(** structural/stability_toe_berm/vangentvanderwerf2014.py *)
Definition names_stability_toe_berm_vangentvanderwerf2014 : list (string * list string) := [
  ("check_validity",
    ["Hs"; "tt"; "ht"; "cot_alpha_armour_slope"]);
  ("calculate_damage_Nod",
    ["Hm0"; "Tmm10"; "ht"; "Bt"; "tt"; "Dn50"; "rho_rock"; "rho_water"; "cot_alpha_armour_slope"; "g"; "c1"; "c2"; "c3"; "c4"; "c5"]);
  ("calculate_nominal_diameter_Dn50",
    ["Hm0"; "Tmm10"; "ht"; "Bt"; "tt"; "Nod"; "rho_rock"; "rho_water"; "cot_alpha_armour_slope"; "g"]);
  ("calculate_velocity_u_delta",
    ["Hs"; "Tmm10"; "ht"; "g"])].

Definition documented_names : list (string * list (string * list string)) := [
  ("core_physics.py", names_core_physics);
  ("core_utility.py", names_core_utility);
  ("hydraulic/wave_overtopping/denbieman2021.py", names_wave_overtopping_denbieman2021);
  ("hydraulic/wave_overtopping/deridder2024.py", names_wave_overtopping_deridder2024);
  ("hydraulic/wave_overtopping/deridder2026.py", names_wave_overtopping_deridder2026);
  ("hydraulic/wave_overtopping/eurotop2007.py", names_wave_overtopping_eurotop2007);
  ("hydraulic/wave_overtopping/eurotop2018.py", names_wave_overtopping_eurotop2018);
  ("hydraulic/wave_overtopping/taw2002.py", names_wave_overtopping_taw2002);
  ("hydraulic/wave_overtopping/vangent2002_velocity.py", names_wave_overtopping_vangent2002_velocity);
  ("hydraulic/wave_overtopping/vangent2007.py", names_wave_overtopping_vangent2007);
  ("hydraulic/wave_overtopping/vangent2021_caisson.py", names_wave_overtopping_vangent2021_caisson);
  ("hydraulic/wave_overtopping/vangent2025.py", names_wave_overtopping_vangent2025);
  ("hydraulic/wave_runup/eurotop2018.py", names_wave_runup_eurotop2018);
  ("hydraulic/wave_runup/taw2002.py", names_wave_runup_taw2002);
  ("hydraulic/wave_runup/vangent2001.py", names_wave_runup_vangent2001);
  ("hydraulic/wave_transmission/briganti2003.py", names_wave_transmission_briganti2003);
  ("hydraulic/wave_transmission/dangremond1996.py", names_wave_transmission_dangremond1996);
  ("hydraulic/wave_transmission/goda1967_caisson.py", names_wave_transmission_goda1967_caisson);
  ("hydraulic/wave_transmission/vangent2023.py", names_wave_transmission_vangent2023);
  ("hydraulic/wave_transmission/vangent2024_setup.py", names_wave_transmission_vangent2024_setup);
  ("structural/forces_caisson/goda1985.py", names_forces_caisson_goda1985);
  ("structural/forces_crestwall/vangentvanderwerf2019.py", names_forces_crestwall_vangentvanderwerf2019);
  ("structural/stability_concrete_armour/accropode2_hudson1959.py", names_stability_concrete_armour_accropode2_hudson1959);
  ("structural/stability_concrete_armour/accropode_hudson1959.py", names_stability_concrete_armour_accropode_hudson1959);
  ("structural/stability_concrete_armour/core_loc_hudson1959.py", names_stability_concrete_armour_core_loc_hudson1959);
  ("structural/stability_concrete_armour/cubes_double_layer_hudson1959.py", names_stability_concrete_armour_cubes_double_layer_hudson1959);
  ("structural/stability_concrete_armour/cubes_double_layer_vandermeer1988.py", names_stability_concrete_armour_cubes_double_layer_vandermeer1988);
  ("structural/stability_concrete_armour/cubes_single_layer_vangent2002.py", names_stability_concrete_armour_cubes_single_layer_vangent2002);
  ("structural/stability_concrete_armour/cubipod_hudson1959.py", names_stability_concrete_armour_cubipod_hudson1959);
  ("structural/stability_concrete_armour/tetrapod_hudson1959.py", names_stability_concrete_armour_tetrapod_hudson1959);
  ("structural/stability_concrete_armour/xbloc.py", names_stability_concrete_armour_xbloc);
  ("structural/stability_concrete_armour/xblocplus.py", names_stability_concrete_armour_xblocplus);
  ("structural/stability_rock_armour/etemadshahidi2020.py", names_stability_rock_armour_etemadshahidi2020);
  ("structural/stability_rock_armour/hudson1959.py", names_stability_rock_armour_hudson1959);
  ("structural/stability_rock_armour/jumelet2024.py", names_stability_rock_armour_jumelet2024);
  ("structural/stability_rock_armour/kramerburcharth2004_lowcrested.py", names_stability_rock_armour_kramerburcharth2004_lowcrested);
  ("structural/stability_rock_armour/scaravaglione2025.py", names_stability_rock_armour_scaravaglione2025);
  ("structural/stability_rock_armour/vandermeer1988.py", names_stability_rock_armour_vandermeer1988);
  ("structural/stability_rock_armour/vandermeer1988_modified.py", names_stability_rock_armour_vandermeer1988_modified);
  ("structural/stability_rock_armour/vandermeer2021.py", names_stability_rock_armour_vandermeer2021);
  ("structural/stability_rock_rear/vangent2007.py", names_stability_rock_rear_vangent2007);
  ("structural/stability_rock_rear/vangentpozueta2004.py", names_stability_rock_rear_vangentpozueta2004);
  ("structural/stability_toe_berm/etemadshahidi2021.py", names_stability_toe_berm_etemadshahidi2021);
  ("structural/stability_toe_berm/gerding1993.py", names_stability_toe_berm_gerding1993);
  ("structural/stability_toe_berm/takahashi1990_caisson.py", names_stability_toe_berm_takahashi1990_caisson);
  ("structural/stability_toe_berm/vandermeer1998.py", names_stability_toe_berm_vandermeer1998);
  ("structural/stability_toe_berm/vangentvanderwerf2014.py", names_stability_toe_berm_vangentvanderwerf2014)].
