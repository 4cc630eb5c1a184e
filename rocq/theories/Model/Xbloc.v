(** Model of functions/structural/stability_concrete_armour/xbloc.py and
    xblocplus.py.  The constant dictionaries unit_properties are in Model/UnitProperties.v. *)
From Coq Require Import Reals String List Bool.
From Verif.Lib Require Import Num Monad.
From Verif.Model Require Import CoreUtility CorePhysics.
Import ListNotations.
Open Scope num_scope.

(** ** xbloc.py *)
(** lines 22-55 *)
Definition xbloc_wave_height_Hs_from_V (V rho_water rho_armour total_correction_factor : num) : num :=
  let Delta := calculate_buoyant_density_Delta rho_armour rho_water in
  let V := V / total_correction_factor in
  npow V (#1 / #3) * #2.77 * Delta.
(** lines 58-98 *)
Definition xbloc_wave_height_Hs_from_M (m rho_water rho_armour total_correction_factor : num) : num :=
  let V := m / rho_armour in
  xbloc_wave_height_Hs_from_V V rho_water rho_armour total_correction_factor.
(** lines 101-143 *)
Definition xbloc_unit_volume_V (Hs rho_water rho_armour total_correction_factor : num) : num :=
  let Delta := calculate_buoyant_density_Delta rho_armour rho_water in
  total_correction_factor * npow (Hs / (#2.77 * Delta)) #3.
(** lines 146-186 *)
Definition xbloc_unit_mass_M (Hs rho_water rho_armour total_correction_factor : num) : num :=
  let V := xbloc_unit_volume_V Hs rho_water rho_armour total_correction_factor in
  V * rho_armour.
(** lines 189-223 *)
Definition xbloc_factor_cotalpha_seabed (cot_alpha : num) : num :=
  if (cot_alpha <=? #30) && (cot_alpha >? #20) then #1.1
  else if (cot_alpha <=? #20) && (cot_alpha >? #15) then #1.25
  else if (cot_alpha <=? #15) && (cot_alpha >? #10) then #1.5
  else if cot_alpha <=? #10 then #2
  else #1.
(** lines 226-256 *)
Definition xbloc_factor_percslope_seabed (perc_slope : num) : num :=
  xbloc_factor_cotalpha_seabed (#100 / perc_slope).
(** lines 259-281 *)
Definition xbloc_factor_relative_freeboard (rel_freeboard : num) : num :=
  if rel_freeboard <? #0.5 then #2
  else if rel_freeboard <? #1 then #1.5
  else #1.
(** lines 284-307 *)
Definition xbloc_factor_rel_depth (rel_depth : num) : num :=
  let correction_factor := #1 in
  let correction_factor := if rel_depth >? #2.5 then #1.5 else correction_factor in
  let correction_factor := if rel_depth >? #3.5 then #2 else correction_factor in
  correction_factor.
(** lines 310-331 *)
Definition xbloc_factor_design_event_frequency (design_event_occurs_frequently : bool) : num :=
  if design_event_occurs_frequently then #1.25 else #1.
(** lines 334-360 *)
Definition xbloc_factor_core_permeability (low_core_permeability core_impermeable : bool) : num :=
  let correction_factor := #1 in
  let correction_factor := if low_core_permeability then #1.5 else correction_factor in
  let correction_factor := if core_impermeable then #2 else correction_factor in
  correction_factor.
(** lines 363-385 *)
Definition xbloc_factor_structure_slope (cot_alpha : num) : num :=
  if cot_alpha >? #2 / #3 then #1.25
  else if cot_alpha >? #1 / #2 then #1.5
  else #1.

(** ** xblocplus.py *)
(** lines 21-54 *)
Definition xblocplus_wave_height_Hs_from_V (V rho_water rho_armour total_correction_factor : num) : num :=
  let Delta := calculate_buoyant_density_Delta rho_armour rho_water in
  let V := V / total_correction_factor in
  npow V (#1 / #3) * #2.5 * Delta.
(** lines 57-97 *)
Definition xblocplus_wave_height_Hs_from_M (m rho_water rho_armour total_correction_factor : num) : num :=
  let V := m / rho_armour in
  xblocplus_wave_height_Hs_from_V V rho_water rho_armour total_correction_factor.
(** lines 100-142 *)
Definition xblocplus_unit_volume_V (Hs rho_water rho_armour total_correction_factor : num) : num :=
  let Delta := calculate_buoyant_density_Delta rho_armour rho_water in
  total_correction_factor * npow (Hs / (#2.5 * Delta)) #3.
(** lines 145-185 *)
Definition xblocplus_unit_mass_M (Hs rho_water rho_armour total_correction_factor : num) : num :=
  let V := xblocplus_unit_volume_V Hs rho_water rho_armour total_correction_factor in
  V * rho_armour.
(** lines 188-222 *)
Definition xblocplus_factor_cotalpha_seabed (cot_alpha : num) : num :=
  if (cot_alpha <=? #30) && (cot_alpha >? #20) then #1.1
  else if (cot_alpha <=? #20) && (cot_alpha >? #15) then #1.25
  else if (cot_alpha <=? #15) && (cot_alpha >? #10) then #1.5
  else if cot_alpha <=? #10 then #2
  else #1.
(** lines 225-255 *)
Definition xblocplus_factor_percslope_seabed (perc_slope : num) : num :=
  xblocplus_factor_cotalpha_seabed (#100 / perc_slope).
(** lines 258-280 *)
Definition xblocplus_factor_relative_freeboard (rel_freeboard : num) : num :=
  if rel_freeboard <? #0.5 then #1.5
  else if rel_freeboard <? #1 then #1.25
  else #1.
(** lines 283-309 *)
Definition xblocplus_factor_core_permeability (low_core_permeability core_impermeable : bool) : num :=
  let correction_factor := #1 in
  let correction_factor := if low_core_permeability then #1.25 else correction_factor in
  let correction_factor := if core_impermeable then #1.5 else correction_factor in
  correction_factor.
