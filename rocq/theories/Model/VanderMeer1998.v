(** Model of functions/structural/stability_toe_berm/vandermeer1998.py *)
From Coq Require Import Reals String List Bool.
From Verif.Lib Require Import Num Monad.
From Verif.Model Require Import CoreUtility CorePhysics.
Open Scope string_scope.
Open Scope num_scope.

(** vandermeer1998.py:9-84.  Line 79 computes [Hs / Delta * Dn50]. *)
Definition check_validity (Hs ht h Dn50 Nod Delta : num) : M unit :=
  when (provided Hs)
    (check "Relative toe height (h)" "van der Meer (1998)" Hs #0.01 #20) ;;
  when (provided ht && provided h)
    (check "Relative toe height (Dn50)" "van der Meer (1998)" (ht / h) #0.4 #0.9) ;;
  when (provided ht && provided Dn50)
    (check "Relative toe height (Dn50)" "van der Meer (1998)" (ht / Dn50) #3 #25) ;;
  when (provided Nod && provided Dn50 && provided Hs && provided Delta)
    (check "Nod vs Ns" "van der Meer (1998)"
       (npow Nod (- #0.15) * (Hs / Delta * Dn50)) #2 PInf).

(** vandermeer1998.py:87-131 *)
Definition calculate_damage_Nod (Hs ht h Dn50 rho_rock rho_water : num) : M num :=
  let Delta := calculate_buoyant_density_Delta rho_rock rho_water in
  let Ns := Hs / (Delta * Dn50) in
  let Nod := npow (Ns / (#2 + #6.2 * npow (ht / h) #2.7)) (#1 / #0.15) in
  check_validity Hs ht h Dn50 Nod Delta ;;
  ret Nod.

(** vandermeer1998.py:134-180 *)
Definition calculate_nominal_diameter_Dn50 (Hs ht h Nod rho_rock rho_water : num) : M num :=
  let Delta := calculate_buoyant_density_Delta rho_rock rho_water in
  let Dn50 := Hs / ((#2 + #6.2 * npow (ht / h) #2.7) * npow Nod #0.15 * Delta) in
  check_validity Hs ht h Dn50 Nod Delta ;;
  ret Dn50.

(** vandermeer1998.py:183-229 *)
Definition calculate_wave_height_Hs (Dn50 ht h Nod rho_rock rho_water : num) : M num :=
  let Delta := calculate_buoyant_density_Delta rho_rock rho_water in
  let Hs := ((#2 + #6.2 * npow (ht / h) #2.7) * Delta * Dn50) / npow Nod (- #0.15) in
  check_validity Hs ht h Dn50 Nod Delta ;;
  ret Hs.

(** vandermeer1998.py:232-282 *)
Definition calculate_depth_above_toe_ht (Hs Dn50 h Nod rho_rock rho_water : num) : M num :=
  let Delta := calculate_buoyant_density_Delta rho_rock rho_water in
  let ht := (((Hs * npow Nod (- #0.15)) / (Delta * Dn50)) - #2) / #6.2 in
  let ht := if ht >? #0 then npow ht (#1 / #2.7) * h else NaN in
  check_validity Hs ht h Dn50 Nod Delta ;;
  ret ht.
