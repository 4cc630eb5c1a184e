(** Model of functions/core_physics.py *)
From Coq Require Import Reals String List Bool ZArith.
From Verif.Lib Require Import Num Monad.
From Verif.Model Require Import CoreUtility.
Import ListNotations.
Open Scope string_scope.
Open Scope num_scope.

(** The default of every [g] argument (core_physics.py:13, 377). *)
Definition g_default : num := #9.81.

(** core_physics.py:10-35, calculate_wave_steepness_s *)
Definition calculate_wave_steepness_s (H T g : num) : num :=
  (#2 * npi / g) * H / npow T #2.

(** core_physics.py:38-65, calculate_Iribarren_number_ksi.  The steepness is
    taken with the default gravity (line 63). *)
Definition calculate_Iribarren_number_ksi (H T cot_alpha : num) : num :=
  let s := calculate_wave_steepness_s H T g_default in
  (#1 / cot_alpha) / nsqrt s.

(** core_physics.py:68-99, calculate_critical_Iribarren_number_ksi_mc *)
Definition calculate_critical_Iribarren_number_ksi_mc (c_pl c_s P cot_alpha : num) : num :=
  npow ((c_pl / c_s) * npow P #0.31 * nsqrt (#1 / cot_alpha)) (#1 / (P + #0.5)).

(** core_physics.py:134-156, calculate_buoyant_density_Delta *)
Definition calculate_buoyant_density_Delta (rho_rock rho_water : num) : num :=
  (rho_rock - rho_water) / rho_water.

(** core_physics.py:102-131, calculate_stability_number_Ns *)
Definition calculate_stability_number_Ns (H D rho_rock rho_water : num) : num :=
  let Delta := calculate_buoyant_density_Delta rho_rock rho_water in
  H / (Delta * D).

(** core_physics.py:159-180, calculate_M50_from_Dn50 *)
Definition calculate_M50_from_Dn50 (Dn50 rho_rock : num) : num :=
  rho_rock * npow Dn50 #3.

(** core_physics.py:183-202, calculate_Dn50_from_M50 *)
Definition calculate_Dn50_from_M50 (M50 rho_rock : num) : num :=
  npow (M50 / rho_rock) (#1 / #3).

(** core_physics.py:205-245, check_usage_Dn50_or_M50 (scalar arguments) *)
Definition check_usage_Dn50_or_M50 (Dn50 M50 rho_rock : num) : M num :=
  if isnan Dn50 && isnan M50 then raise ValueError
  else if isnan Dn50 && negb (isnan M50) then
    if isnan rho_rock then
      warn (WText "rho_armour is not provided, the default value of 2650 kg/m3 is used.") ;;
      ret (calculate_Dn50_from_M50 M50 #2650)
    else ret (calculate_Dn50_from_M50 M50 rho_rock)
  else ret Dn50.

(** core_physics.py:248-279, calculate_S_from_Nod *)
Definition calculate_S_from_Nod (Nod G nv : num) : num :=
  let factor := G * (#1 - nv) in Nod / factor.

(** core_physics.py:282-312, calculate_Nod_from_S *)
Definition calculate_Nod_from_S (S G nv : num) : num :=
  let factor := G * (#1 - nv) in S * factor.

Definition is_none {A} (o : option A) : bool := match o with None => true | Some _ => false end.
Definition b2n (b : bool) : nat := if b then 1 else 0.

(** core_physics.py:315-371, check_usage_stabilitynumber.  [None] is python's
    None.  The last [else] of the code does not exist; falling through the
    chain would leave out1 unbound. *)
Definition check_usage_stabilitynumber (Hs Dn Delta Ns : option num) : M (num * string) :=
  let missing := (b2n (is_none Hs) + b2n (is_none Dn) + b2n (is_none Delta) + b2n (is_none Ns))%nat in
  if Nat.ltb 1 missing then raise ValueError
  else if Nat.eqb missing 0 then raise ValueError
  else match Hs, Dn, Delta, Ns with
       | None, Some Dn, Some Delta, Some Ns => ret (Dn * Delta * Ns, "Hs")
       | Some Hs, None, Some Delta, Some Ns => ret (Hs / Ns / Delta, "Dn")
       | Some Hs, Some Dn, None, Some Ns => ret (Hs / Ns / Dn, "Delta")
       | Some Hs, Some Dn, Some Delta, None => ret (Hs / (Delta * Dn), "Ns")
       | _, _, _, _ => raise UnboundLocalError
       end.

(** The external routine dispersion.disper (package deltares_wave_toolbox):
    [disper w h g] is the wave number for one angular frequency; for an array
    of frequencies the package returns the array of wave numbers, and for a
    scalar frequency an array with one element (hence the [[0]] in line 398). *)
Section Wavelength.
Variable disper : num -> num -> num -> num.

Definition two_pi : num := #2 * npi.

(** The angular frequencies passed to disper. *)
Definition omegas (T : pyval) : list num :=
  match T with
  | PyInt t | PyFloat t => [two_pi / t]
  | PyArr ts => map (fun t => two_pi / t) ts
  end.

(** core_physics.py:374-410, calculate_local_wavelength *)
Definition calculate_local_wavelength (T h : pyval) (g : num) : M pyval :=
  match h with
  | PyInt h | PyFloat h =>
      match map (fun w => disper w h g) (omegas T) with
      | k :: _ => ret (PyFloat (two_pi / k))
      | [] => raise IndexError
      end
  | PyArr hs =>
      if Nat.ltb 1 (List.length hs) then
        match T with
        | PyFloat t =>
            ret (PyArr (map (fun k => two_pi / k) (map (fun h => disper (two_pi / t) h g) hs)))
        | PyInt _ => raise TypeError
        | PyArr ts =>
            if Nat.eqb (List.length hs) (List.length ts) then
              ret (PyArr (map (fun k => two_pi / k)
                    (map (fun ht => disper (two_pi / snd ht) (fst ht) g) (combine hs ts))))
            else raise UnboundLocalError
        end
      else raise UnboundLocalError
  end.

(** The scalar case used by the formula modules. *)
Definition local_wavelength (T h g : num) : num := two_pi / disper (two_pi / T) h g.
End Wavelength.
