(** Model of functions/core_utility.py and functions/core_physics.py for arrays
    with one axis.  The functions are those of CoreUtility.v and CorePhysics.v with
    every operation the broadcasting one. *)
From Coq Require Import Reals String List Bool.
From Verif.Lib Require Import Num Monad Arr.
From Verif.Model Require Import CoreUtility Numpy.
Import ListNotations.
Open Scope string_scope.
Open Scope arr_scope.

(** core_utility.py:7-54; the list that is returned is not used by any caller. *)
Definition acheck (variable_name formula_name : string) (values : M nums) (lo hi : num) : M unit :=
  values <- values ;;
  check_values variable_name formula_name (entries values) lo hi ;;
  ret tt.
Arguments acheck (_ _)%string _%arr (_ _)%num.

(** [not np.any(np.isnan(x))] *)
Definition given (x : nums) : bool := negb (any_nan x).

(** The default of every [g] argument (core_physics.py:13). *)
Definition g_default : nums := #9.81.

(** np.deg2rad *)
Definition adeg2rad := op1 deg2rad.
Arguments adeg2rad _%arr.

(** core_physics.py:10-35 *)
Definition calculate_wave_steepness_s (H T g : nums) : M nums :=
  (#2 * api / g) * H / apow T #2.

(** core_physics.py:38-65 *)
Definition calculate_Iribarren_number_ksi (H T cot_alpha : nums) : M nums :=
  s <- calculate_wave_steepness_s H T g_default ;;
  (#1 / cot_alpha) / asqrt s.

(** core_physics.py:68-99 *)
Definition calculate_critical_Iribarren_number_ksi_mc (c_pl c_s P cot_alpha : nums) : M nums :=
  apow ((c_pl / c_s) * apow P #0.31 * asqrt (#1 / cot_alpha)) (#1 / (P + #0.5)).

(** core_physics.py:134-156 *)
Definition calculate_buoyant_density_Delta (rho_rock rho_water : nums) : M nums :=
  (rho_rock - rho_water) / rho_water.

(** core_physics.py:102-131 *)
Definition calculate_stability_number_Ns (H D rho_rock rho_water : nums) : M nums :=
  Delta <- calculate_buoyant_density_Delta rho_rock rho_water ;;
  H / (Delta * D).

(** core_physics.py:159-180 *)
Definition calculate_M50_from_Dn50 (Dn50 rho_rock : nums) : M nums :=
  rho_rock * apow Dn50 #3.

(** core_physics.py:183-202 *)
Definition calculate_Dn50_from_M50 (M50 rho_rock : nums) : M nums :=
  apow (M50 / rho_rock) (#1 / #3).

(** core_physics.py:205-245: the size is looked for in the whole array. *)
Definition check_usage_Dn50_or_M50 (Dn50 M50 rho_rock : nums) : M nums :=
  if andb (all_nan Dn50) (all_nan M50) then raise ValueError
  else if andb (all_nan Dn50) (negb (all_nan M50)) then
    if all_nan rho_rock then
      warn (WText "rho_armour is not provided, the default value of 2650 kg/m3 is used.") ;;
      calculate_Dn50_from_M50 M50 #2650
    else calculate_Dn50_from_M50 M50 rho_rock
  else ret Dn50.

(** core_physics.py:248-279 *)
Definition calculate_S_from_Nod (Nod G nv : nums) : M nums :=
  factor <- G * (#1 - nv) ;; Nod / factor.

(** core_physics.py:282-312 *)
Definition calculate_Nod_from_S (S G nv : nums) : M nums :=
  factor <- G * (#1 - nv) ;; S * factor.

(** core_physics.py:315-371, as in CorePhysics.v *)
Definition check_usage_stabilitynumber (Hs Dn Delta Ns : option nums) : M (nums * string) :=
  match Hs, Dn, Delta, Ns with
  | None, Some Dn, Some Delta, Some Ns => r <- Dn * Delta * Ns ;; ret (r, "Hs")
  | Some Hs, None, Some Delta, Some Ns => r <- Hs / Ns / Delta ;; ret (r, "Dn")
  | Some Hs, Some Dn, None, Some Ns => r <- Hs / Ns / Dn ;; ret (r, "Delta")
  | Some Hs, Some Dn, Some Delta, None => r <- Hs / (Delta * Dn) ;; ret (r, "Ns")
  | _, _, _, _ => raise ValueError
  end.
(** [...][0] *)
Definition first (m : M (nums * string)) : M nums := r <- m ;; ret (fst r).
