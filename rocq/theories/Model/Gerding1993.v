(** Model of functions/structural/stability_toe_berm/gerding1993.py *)
From Coq Require Import Reals String List Bool.
From Verif.Lib Require Import Num Monad.
From Verif.Model Require Import CoreUtility CorePhysics.
Open Scope string_scope.
Open Scope num_scope.

(** gerding1993.py:9-52 *)
Definition check_validity (ht h Dn50 : num) : M unit :=
  when (provided ht && provided h)
    (check "Relative toe height (h)" "Gerding (1993)" (ht / h) #0.4 #0.9) ;;
  when (provided ht && provided Dn50)
    (check "Relative toe height (Dn50)" "Gerding (1993)" (ht / Dn50) #3 #25).

(** gerding1993.py:55-99 *)
Definition calculate_damage_Nod (Hs ht h Dn50 rho_rock rho_water : num) : M num :=
  let Delta := calculate_buoyant_density_Delta rho_rock rho_water in
  let Nod := npow ((Hs / (Delta * Dn50)) / (#1.6 + #0.24 * (ht / Dn50))) (#1 / #0.15) in
  check_validity ht h Dn50 ;;
  ret Nod.

(** gerding1993.py:102-148 *)
Definition calculate_nominal_diameter_Dn50 (Hs ht h Nod rho_rock rho_water : num) : M num :=
  let Delta := calculate_buoyant_density_Delta rho_rock rho_water in
  let Dn50 := ((Hs / Delta) - (npow Nod #0.15) * #0.24 * ht) / (npow Nod #0.15 * #1.6) in
  check_validity ht h Dn50 ;;
  ret Dn50.

(** gerding1993.py:151-197 *)
Definition calculate_wave_height_Hs (Dn50 ht h Nod rho_rock rho_water : num) : M num :=
  let Delta := calculate_buoyant_density_Delta rho_rock rho_water in
  let Hs := (npow Nod #0.15) * Delta * Dn50 * (#1.6 + #0.24 * (ht / Dn50)) in
  check_validity ht h Dn50 ;;
  ret Hs.

(** gerding1993.py:200-246 *)
Definition calculate_depth_above_toe_ht (Hs Dn50 h Nod rho_rock rho_water : num) : M num :=
  let Delta := calculate_buoyant_density_Delta rho_rock rho_water in
  let ht := (Dn50 * ((Hs / (Delta * Dn50 * (npow Nod #0.15))) - #1.6)) / #0.24 in
  check_validity ht h Dn50 ;;
  ret ht.
