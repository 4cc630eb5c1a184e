(** Model of the concrete-unit modules that wrap the Hudson formula:
    functions/structural/stability_concrete_armour/{accropode,accropode2,
    core_loc,cubes_double_layer,cubipod,tetrapod}_hudson1959.py.
    The constant dictionaries unit_properties are in Model/UnitProperties.v.
    for arrays with one axis *)
From Coq Require Import Reals String List Bool.
From Verif.Lib Require Import Num Monad Table Arr.
From Verif.Model Require Import CoreUtility ArrCore ArrHudson1959.
Import ListNotations.
Open Scope string_scope.
Open Scope arr_scope.

(** ** accropode2_hudson1959.py *)
(** lines 20-69 *)
Definition accropode2_check_validity_range (cot_alpha seabed_slope_perc : nums) : M unit :=
  when (given cot_alpha)
    (acheck "Cotangent of the front-side slope of the structure" "Accropode II Hudson 1959"
       cot_alpha #1.33 #1.5) ;;
  when (given seabed_slope_perc)
    (acheck "Seabed slope in percentage" "Accropode II documentation" seabed_slope_perc #0 #10).
(** lines 72-130 *)
Definition accropode2_unit_mass_M (Hs rho_water rho_armour KD cot_alpha alpha_Hs : nums) : M nums :=
  m <- calculate_median_rock_mass_M50_no_damage Hs rho_water rho_armour KD cot_alpha alpha_Hs ;;
  accropode2_check_validity_range cot_alpha anan ;;
  ret m.
(** lines 133-191 *)
Definition accropode2_wave_height_Hs (m rho_water rho_armour KD cot_alpha alpha_Hs : nums) : M nums :=
  Hs <- calculate_significant_wave_height_Hs_no_damage m rho_water rho_armour KD cot_alpha alpha_Hs ;;
  accropode2_check_validity_range cot_alpha anan ;;
  ret Hs.
(** lines 194-224 *)
Definition accropode2_KD_breaking (seabed_slope_perc : nums) : M nums :=
  kd <- op1 (fun x => interp x [(#0, #16); (#1, #16); (#5, #10.66); (#10, #9)]%num) seabed_slope_perc ;;
  kd <- afloor (kd / #0.1) * #0.1 ;;
  accropode2_check_validity_range anan seabed_slope_perc ;;
  ret kd.

(** ** accropode_hudson1959.py *)
(** lines 21-63 *)
Definition accropode_check_validity_range (cot_alpha seabed_slope_perc : nums) : M unit :=
  when (given cot_alpha)
    (acheck "Cotangent of the front-side slope of the structure" "Accropodes Hudson 1959"
       cot_alpha #1.33 #1.5) ;;
  when (given seabed_slope_perc)
    (acheck "Seabed slope in percentage" "Accropode documentation" seabed_slope_perc #0 #10).
(** lines 66-127 *)
Definition accropode_unit_mass_M (Hs rho_water rho_armour KD cot_alpha alpha_Hs : nums) : M nums :=
  m <- calculate_median_rock_mass_M50_no_damage Hs rho_water rho_armour KD cot_alpha alpha_Hs ;;
  accropode_check_validity_range cot_alpha anan ;;
  ret m.
(** lines 130-191 *)
Definition accropode_wave_height_Hs (m rho_water rho_armour KD cot_alpha alpha_Hs : nums) : M nums :=
  Hs <- calculate_significant_wave_height_Hs_no_damage m rho_water rho_armour KD cot_alpha alpha_Hs ;;
  accropode_check_validity_range cot_alpha anan ;;
  ret Hs.
(** lines 194-224 *)
Definition accropode_KD_breaking (seabed_slope_perc : nums) : M nums :=
  kd <- op1 (fun x => interp x [(#0, #15); (#1, #15); (#5, #9.7); (#10, #8)]%num) seabed_slope_perc ;;
  kd <- afloor (kd / #0.1) * #0.1 ;;
  accropode_check_validity_range anan seabed_slope_perc ;;
  ret kd.

(** ** core_loc_hudson1959.py *)
(** lines 19-61 *)
Definition core_loc_check_validity_range (cot_alpha seabed_slope_perc : nums) : M unit :=
  when (given cot_alpha)
    (acheck "Cotangent of the front-side slope of the structure" "Core Loc Hudson 1959"
       cot_alpha #1.33 #1.5) ;;
  when (given seabed_slope_perc)
    (acheck "Seabed slope in percentage" "Core Loc documentation" seabed_slope_perc #0 #10).
(** lines 64-121 *)
Definition core_loc_unit_mass_M (Hs rho_water rho_armour KD cot_alpha alpha_Hs : nums) : M nums :=
  calculate_median_rock_mass_M50_no_damage Hs rho_water rho_armour KD cot_alpha alpha_Hs.
(** lines 124-181 *)
Definition core_loc_wave_height_Hs (m rho_water rho_armour KD cot_alpha alpha_Hs : nums) : M nums :=
  calculate_significant_wave_height_Hs_no_damage m rho_water rho_armour KD cot_alpha alpha_Hs.
(** lines 184-214 *)
Definition core_loc_KD_breaking (seabed_slope_perc : nums) : M nums :=
  kd <- op1 (fun x => interp x [(#0, #16); (#1, #16); (#5, #10.66); (#10, #9)]%num) seabed_slope_perc ;;
  kd <- afloor (kd / #0.1) * #0.1 ;;
  core_loc_check_validity_range anan seabed_slope_perc ;;
  ret kd.

(** ** cubes_double_layer_hudson1959.py *)
(** lines 27-76 *)
Definition cubes_unit_mass_M (Hs rho_water rho_armour KD cot_alpha alpha_Hs : nums) : M nums :=
  calculate_median_rock_mass_M50_no_damage Hs rho_water rho_armour KD cot_alpha alpha_Hs.
(** lines 79-128 *)
Definition cubes_wave_height_Hs (m rho_water rho_armour KD cot_alpha alpha_Hs : nums) : M nums :=
  calculate_significant_wave_height_Hs_no_damage m rho_water rho_armour KD cot_alpha alpha_Hs.

(** ** cubipod_hudson1959.py *)
(** lines 24-73 *)
Definition cubipod_unit_mass_M (Hs rho_water rho_armour KD cot_alpha alpha_Hs : nums) : M nums :=
  calculate_median_rock_mass_M50_no_damage Hs rho_water rho_armour KD cot_alpha alpha_Hs.
(** lines 76-126 *)
Definition cubipod_wave_height_Hs (m rho_water rho_armour KD cot_alpha alpha_Hs : nums) : M nums :=
  calculate_significant_wave_height_Hs_no_damage m rho_water rho_armour KD cot_alpha alpha_Hs.

(** ** tetrapod_hudson1959.py *)
(** lines 25-75 *)
Definition tetrapod_unit_mass_M (Hs rho_water rho_armour KD cot_alpha alpha_Hs : nums) : M nums :=
  calculate_median_rock_mass_M50_no_damage Hs rho_water rho_armour KD cot_alpha alpha_Hs.
(** lines 78-128 *)
Definition tetrapod_wave_height_Hs (m rho_water rho_armour KD cot_alpha alpha_Hs : nums) : M nums :=
  calculate_significant_wave_height_Hs_no_damage m rho_water rho_armour KD cot_alpha alpha_Hs.
