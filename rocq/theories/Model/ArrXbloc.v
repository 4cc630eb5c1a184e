(** Model of functions/structural/stability_concrete_armour/xbloc.py and xblocplus.py
    for arrays with one axis.  The correction factors are plain python floats, not
    arrays, whatever the argument is. *)
From Coq Require Import Reals String List Bool.
From Verif.Lib Require Import Num Monad Arr ArrFlags.
From Verif.Model Require Import ArrCore.
Open Scope arr_scope.

(** [if a and b:] asks for the truth value of b only when a is true *)
Definition both (a b : M (arr bool)) : M bool :=
  a <- holds a ;; if a : bool then holds b else ret false.
Arguments both (_ _)%arr.

(** ** xbloc.py *)
(** lines 22-55 *)
Definition xbloc_wave_height_Hs_from_V (V rho_water rho_armour total_correction_factor : nums) : M nums :=
  Delta <- calculate_buoyant_density_Delta rho_armour rho_water ;;
  V <- V / total_correction_factor ;;
  apow V (#1 / #3) * #2.77 * Delta.
(** lines 58-98 *)
Definition xbloc_wave_height_Hs_from_M (m rho_water rho_armour total_correction_factor : nums) : M nums :=
  V <- m / rho_armour ;;
  xbloc_wave_height_Hs_from_V V rho_water rho_armour total_correction_factor.
(** lines 101-143 *)
Definition xbloc_unit_volume_V (Hs rho_water rho_armour total_correction_factor : nums) : M nums :=
  Delta <- calculate_buoyant_density_Delta rho_armour rho_water ;;
  total_correction_factor * apow (Hs / (#2.77 * Delta)) #3.
(** lines 146-186 *)
Definition xbloc_unit_mass_M (Hs rho_water rho_armour total_correction_factor : nums) : M nums :=
  V <- xbloc_unit_volume_V Hs rho_water rho_armour total_correction_factor ;;
  V * rho_armour.
(** lines 189-223 *)
Definition xbloc_factor_cotalpha_seabed (cot_alpha : nums) : M num :=
  mild <- both (cot_alpha <=? #30) (cot_alpha >? #20) ;;
  if mild : bool then ret #1.1%num else
  medium <- both (cot_alpha <=? #20) (cot_alpha >? #15) ;;
  if medium : bool then ret #1.25%num else
  steep <- both (cot_alpha <=? #15) (cot_alpha >? #10) ;;
  if steep : bool then ret #1.5%num else
  steepest <- holds (cot_alpha <=? #10) ;;
  if steepest : bool then ret #2%num else ret #1%num.
(** lines 226-256 *)
Definition xbloc_factor_percslope_seabed (perc_slope : nums) : M num :=
  cot_alpha <- #100 / perc_slope ;;
  xbloc_factor_cotalpha_seabed cot_alpha.
(** lines 259-281 *)
Definition xbloc_factor_relative_freeboard (rel_freeboard : nums) : M num :=
  low <- holds (rel_freeboard <? #0.5) ;;
  if low : bool then ret #2%num else
  medium <- holds (rel_freeboard <? #1) ;;
  if medium : bool then ret #1.5%num else ret #1%num.
(** lines 284-307 *)
Definition xbloc_factor_rel_depth (rel_depth : nums) : M num :=
  let correction_factor := #1%num in
  deep <- holds (rel_depth >? #2.5) ;;
  let correction_factor := if deep : bool then #1.5%num else correction_factor in
  deeper <- holds (rel_depth >? #3.5) ;;
  let correction_factor := if deeper : bool then #2%num else correction_factor in
  ret correction_factor.
(** lines 363-385 *)
Definition xbloc_factor_structure_slope (cot_alpha : nums) : M num :=
  mild <- holds (cot_alpha >? #2 / #3) ;;
  if mild : bool then ret #1.25%num else
  medium <- holds (cot_alpha >? #1 / #2) ;;
  if medium : bool then ret #1.5%num else ret #1%num.

(** ** xblocplus.py *)
(** lines 21-54 *)
Definition xblocplus_wave_height_Hs_from_V (V rho_water rho_armour total_correction_factor : nums) : M nums :=
  Delta <- calculate_buoyant_density_Delta rho_armour rho_water ;;
  V <- V / total_correction_factor ;;
  apow V (#1 / #3) * #2.5 * Delta.
(** lines 57-97 *)
Definition xblocplus_wave_height_Hs_from_M (m rho_water rho_armour total_correction_factor : nums) : M nums :=
  V <- m / rho_armour ;;
  xblocplus_wave_height_Hs_from_V V rho_water rho_armour total_correction_factor.
(** lines 100-142 *)
Definition xblocplus_unit_volume_V (Hs rho_water rho_armour total_correction_factor : nums) : M nums :=
  Delta <- calculate_buoyant_density_Delta rho_armour rho_water ;;
  total_correction_factor * apow (Hs / (#2.5 * Delta)) #3.
(** lines 145-185 *)
Definition xblocplus_unit_mass_M (Hs rho_water rho_armour total_correction_factor : nums) : M nums :=
  V <- xblocplus_unit_volume_V Hs rho_water rho_armour total_correction_factor ;;
  V * rho_armour.
(** lines 188-222 *)
Definition xblocplus_factor_cotalpha_seabed (cot_alpha : nums) : M num :=
  mild <- both (cot_alpha <=? #30) (cot_alpha >? #20) ;;
  if mild : bool then ret #1.1%num else
  medium <- both (cot_alpha <=? #20) (cot_alpha >? #15) ;;
  if medium : bool then ret #1.25%num else
  steep <- both (cot_alpha <=? #15) (cot_alpha >? #10) ;;
  if steep : bool then ret #1.5%num else
  steepest <- holds (cot_alpha <=? #10) ;;
  if steepest : bool then ret #2%num else ret #1%num.
(** lines 225-255 *)
Definition xblocplus_factor_percslope_seabed (perc_slope : nums) : M num :=
  cot_alpha <- #100 / perc_slope ;;
  xblocplus_factor_cotalpha_seabed cot_alpha.
(** lines 258-280 *)
Definition xblocplus_factor_relative_freeboard (rel_freeboard : nums) : M num :=
  low <- holds (rel_freeboard <? #0.5) ;;
  if low : bool then ret #1.5%num else
  medium <- holds (rel_freeboard <? #1) ;;
  if medium : bool then ret #1.25%num else ret #1%num.
