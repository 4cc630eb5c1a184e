(** Model of functions/structural/stability_rock_armour/hudson1959.py for arrays
    with one axis *)
From Coq Require Import Reals String List Bool.
From Verif.Lib Require Import Num Monad Str Table Arr.
From Verif.Model Require Import CoreUtility ArrCore.
From Verif.Model Require Hudson1959.
Import ListNotations.
Open Scope string_scope.
Open Scope arr_scope.

(** hudson1959.py:13-60 *)
Definition calculate_median_rock_mass_M50_no_damage
    (Hs rho_water rho_armour KD cot_alpha alpha_Hs : nums) : M nums :=
  H_use <- Hs * alpha_Hs ;;
  Delta <- calculate_buoyant_density_Delta rho_armour rho_water ;;
  (rho_armour * apow H_use #3) / (KD * apow Delta #3 * cot_alpha).

(** hudson1959.py:63-109 *)
Definition calculate_significant_wave_height_Hs_no_damage
    (M50 rho_water rho_armour KD cot_alpha alpha_Hs : nums) : M nums :=
  Delta <- calculate_buoyant_density_Delta rho_armour rho_water ;;
  (Delta / alpha_Hs) * apow ((M50 * KD * cot_alpha) / rho_armour) (#1 / #3).

(** hudson1959.py:112-148.  np.searchsorted finds an index for every entry; an
    array of indices takes an entry of the table for each, IndexError when one of
    them is outside. *)
Definition lookup_table_damage_factors (damage_percentage : nums) (rock_type : string) : M nums :=
  if String.eqb (strip (lower rock_type)) "rough" then
    each (fun p => index Hudson1959.mult_factors_rough (searchsorted_right Hudson1959.percentages p)) damage_percentage
  else if String.eqb (strip (lower rock_type)) "smooth" then
    each (fun p => index Hudson1959.mult_factors_smooth (searchsorted_right Hudson1959.percentages p)) damage_percentage
  else raise ValueError.

(** hudson1959.py:151-212 *)
Definition calculate_median_rock_mass_M50
    (Hs rho_water rho_armour KD cot_alpha damage_percentage : nums) (rock_type : string)
    (alpha_Hs : nums) : M nums :=
  mult_factor <- lookup_table_damage_factors damage_percentage rock_type ;;
  M50 <- calculate_median_rock_mass_M50_no_damage Hs rho_water rho_armour KD cot_alpha alpha_Hs ;;
  M50 / apow mult_factor #3.

(** hudson1959.py:215-276 *)
Definition calculate_significant_wave_height_Hs
    (M50 rho_water rho_armour KD cot_alpha damage_percentage : nums) (rock_type : string)
    (alpha_Hs : nums) : M nums :=
  mult_factor <- lookup_table_damage_factors damage_percentage rock_type ;;
  Hs <- calculate_significant_wave_height_Hs_no_damage M50 rho_water rho_armour KD cot_alpha alpha_Hs ;;
  Hs * mult_factor.
