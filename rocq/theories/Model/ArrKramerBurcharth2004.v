(** Model of functions/structural/stability_rock_armour/kramerburcharth2004_lowcrested.py
    for arrays with one axis *)
From Coq Require Import Reals String List Bool.
From Verif.Lib Require Import Num Monad Arr ArrLoop.
From Verif.Model Require Import CoreUtility ArrCore.
Open Scope string_scope.
Open Scope arr_scope.

(** kramerburcharth2004_lowcrested.py:9-37 *)
Definition check_validity_range (Rc Dn50 : nums) : M unit :=
  when (given Rc && given Dn50)
    (acheck "Relative crest height Rc / Dn50" "Kramer & Burcharth, 2004" (Rc / Dn50) (- #3.1) #1.5).

(** The body of the loop, kramerburcharth2004_lowcrested.py:88; the new value is
    the state of the next iteration. *)
Definition diameter_step (Hs Rc Delta Dn50 : nums) : M nums :=
  (#1 / #1.36) * ((Hs / Delta) - Rc * (#0.06 * (Rc / Dn50) - #0.23)).

(** kramerburcharth2004_lowcrested.py:40-97; Ns_init is a float *)
Definition calculate_nominal_rock_diameter_Dn50
    (Hs Rc rho_armour : nums) (Ns_init : num) (max_iter : nat) (tolerance : num) : M nums :=
  Delta <- calculate_buoyant_density_Delta rho_armour #1025 ;;
  Dn50 <- Hs / (Delta * float Ns_init) ;;
  Dn50 <- until_settled (diameter_step Hs Rc Delta) value_of tolerance max_iter Dn50 (Sc PInf) (Sc PInf) (Some Dn50) ;;
  Dn50 <- bound Dn50 ;;
  check_validity_range Rc Dn50 ;;
  ret Dn50.

(** kramerburcharth2004_lowcrested.py:100-142 *)
Definition calculate_significant_wave_height_Hs (Rc rho_armour Dn50 M50 : nums) : M nums :=
  Dn50 <- check_usage_Dn50_or_M50 Dn50 M50 rho_armour ;;
  Delta <- calculate_buoyant_density_Delta rho_armour #1025 ;;
  Hs <- (#0.06 * apow (Rc / Dn50) #2 - #0.23 * Rc / Dn50 + #1.36) * Delta * Dn50 ;;
  check_validity_range Rc Dn50 ;;
  ret Hs.

(** The body of the loop, kramerburcharth2004_lowcrested.py:198 *)
Definition freeboard_step (Hs Dn50 Delta Rc : nums) : M nums :=
  ((Hs / Delta) - #1.36 * Dn50) / (#0.06 * (Rc / Dn50) - #0.23).

(** kramerburcharth2004_lowcrested.py:145-207; Rc_Dn50_init is a float *)
Definition calculate_crest_freeboard_Rc
    (Hs rho_armour Dn50 M50 : nums) (Rc_Dn50_init : num) (max_iter : nat) (tolerance : num) : M nums :=
  Dn50 <- check_usage_Dn50_or_M50 Dn50 M50 rho_armour ;;
  Delta <- calculate_buoyant_density_Delta rho_armour #1025 ;;
  Rc <- float Rc_Dn50_init * Dn50 ;;
  Rc <- until_settled (freeboard_step Hs Dn50 Delta) value_of tolerance max_iter Rc (Sc PInf) (Sc PInf) (Some Rc) ;;
  Rc <- bound Rc ;;
  check_validity_range Rc Dn50 ;;
  ret Rc.
