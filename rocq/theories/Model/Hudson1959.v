(** Model of functions/structural/stability_rock_armour/hudson1959.py *)
From Coq Require Import Reals String List Bool.
From Verif.Lib Require Import Num Monad Str Table.
From Verif.Model Require Import CoreUtility CorePhysics.
Import ListNotations.
Open Scope string_scope.
Open Scope num_scope.

(** hudson1959.py:8-10, check_validity_range() does nothing. *)

(** hudson1959.py:13-60 *)
Definition calculate_median_rock_mass_M50_no_damage
    (Hs rho_water rho_armour KD cot_alpha alpha_Hs : num) : num :=
  let H_use := Hs * alpha_Hs in
  let Delta := calculate_buoyant_density_Delta rho_armour rho_water in
  (rho_armour * npow H_use #3) / (KD * npow Delta #3 * cot_alpha).

(** hudson1959.py:63-109 *)
Definition calculate_significant_wave_height_Hs_no_damage
    (M50 rho_water rho_armour KD cot_alpha alpha_Hs : num) : num :=
  let Delta := calculate_buoyant_density_Delta rho_armour rho_water in
  (Delta / alpha_Hs) * npow ((M50 * KD * cot_alpha) / rho_armour) (#1 / #3).

(** hudson1959.py:136-138 *)
Definition percentages : list num := [#0; #5; #10; #15; #20; #30; #40; #50; #100].
Definition mult_factors_rough : list num :=
  [#1; #1; #1.08; #1.14; #1.20; #1.29; #1.41; #1.54; #1.54].
Definition mult_factors_smooth : list num :=
  [#1; #1; #1.08; #1.19; #1.27; #1.37; #1.47; #1.56; #1.56].

(** hudson1959.py:112-148 (a scalar percentage) *)
Definition lookup_table_damage_factors (damage_percentage : num) (rock_type : string) : M num :=
  let ind := searchsorted_right percentages damage_percentage in
  if String.eqb (strip (lower rock_type)) "rough" then index mult_factors_rough ind
  else if String.eqb (strip (lower rock_type)) "smooth" then index mult_factors_smooth ind
  else raise ValueError.

(** hudson1959.py:151-212 *)
Definition calculate_median_rock_mass_M50
    (Hs rho_water rho_armour KD cot_alpha damage_percentage : num) (rock_type : string)
    (alpha_Hs : num) : M num :=
  mult_factor <- lookup_table_damage_factors damage_percentage rock_type ;;
  let M50 := calculate_median_rock_mass_M50_no_damage Hs rho_water rho_armour KD cot_alpha alpha_Hs in
  ret (M50 / npow mult_factor #3).

(** hudson1959.py:215-276 *)
Definition calculate_significant_wave_height_Hs
    (M50 rho_water rho_armour KD cot_alpha damage_percentage : num) (rock_type : string)
    (alpha_Hs : num) : M num :=
  mult_factor <- lookup_table_damage_factors damage_percentage rock_type ;;
  let Hs := calculate_significant_wave_height_Hs_no_damage M50 rho_water rho_armour KD cot_alpha alpha_Hs in
  ret (Hs * mult_factor).

(** Default of alpha_Hs, lines 19, 69, 159, 223. *)
Definition alpha_Hs_default : num := #1.27.
