(** Model of functions/structural/stability_toe_berm/takahashi1990_caisson.py for arrays
    with at most one axis, without the search for the wave height (lines 118-225).
    Gravity is one number. *)
From Coq Require Import Reals String List Bool.
From Verif.Lib Require Import Num Monad Arr ArrFlags ArrLoop.
From Verif.Model Require Import ArrCore.
From Verif.Model Require ArrGoda1985.
Import ListNotations.
Open Scope string_scope.
Open Scope arr_scope.

(** takahashi1990_caisson.py:10-56 *)
Definition check_validity (Ns Bt : nums) : M unit :=
  when (given Ns)
    (acheck "Stability number Ns" "Takahashi et al (1990)" Ns #0 PInf) ;;
  when (given Bt)
    (acheck "Toe width Bt" "Takahashi et al (1990)" Bt #0 PInf).

Section Takahashi.
Variable disper : num -> num -> num -> num.

(** takahashi1990_caisson.py:330-393 *)
Definition calculate_stability_number_Ns (Hs Tp hacc Bt beta : nums) (g : num) : M nums :=
  beta <- adeg2rad beta ;;
  Lp <- ArrGoda1985.calculate_local_wavelength disper Tp hacc g ;;
  k <- (#2 * api) / Lp ;;
  hacck2 <- #2 * k * hacc ;;
  kappa_1 <- hacck2 / asinh hacck2 ;;
  kappa_2a <- #0.45 * apow (asin beta) #2 * apow (acos (k * Bt * acos beta)) #2 ;;
  kappa_2b <- apow (acos beta) #2 * apow (asin (k * Bt * acos beta)) #2 ;;
  kappa_2 <- amax kappa_2a kappa_2b ;;
  kappa <- kappa_1 * kappa_2 ;;
  a <- (#1 - kappa) / apow kappa (#1 / #3) ;;
  b <- apow (#1 - kappa) #2 / apow kappa (#1 / #3) ;;
  Ns <- amax #1.8 (#1.3 * a * hacc / Hs + #1.8 * aexp (- #1.5 * b * (hacc / Hs))) ;;
  check_validity Ns Bt ;;
  ret Ns.

(** takahashi1990_caisson.py:59-115 *)
Definition calculate_nominal_diameter_Dn50
    (Hs Tp hacc Bt rho_rock rho_water beta : nums) (g : num) : M nums :=
  Delta <- calculate_buoyant_density_Delta rho_rock rho_water ;;
  Ns <- calculate_stability_number_Ns Hs Tp hacc Bt beta g ;;
  Dn50 <- first (check_usage_stabilitynumber (Some Hs) None (Some Delta) (Some Ns)) ;;
  ret Dn50.

(** The loops of lines 295-302 and 317-324.  They have no bound: [fuel] exists in the
    model only.  The visited depths are collected as in np.append, without shape.
    The addition of line 296 is in place, and at line 285 the depth and the step are the
    same object; that would matter for an array only, and the truth value of the first
    test is an error for every array of wave heights (C72_depth_stop). *)
Fixpoint hacc_loop (fuel : nat) (Ns Hs Tp Bt beta : nums) (g : num) (dht : nums) (firsteval : arr bool)
    (hacc_in Ns_out : nums) (hacc_array : list num) : M (list num) :=
  same <- lift2 Bool.eqb (ret firsteval) (Ns <? Ns_out) ;;
  again <- truth same ;;
  if again : bool then
    match fuel with
    | O => raise OutOfFuel
    | S fuel =>
        hacc_in <- hacc_in + dht ;;
        Ns_out <- calculate_stability_number_Ns Hs Tp hacc_in Bt beta g ;;
        hacc_loop fuel Ns Hs Tp Bt beta g dht firsteval hacc_in Ns_out (hacc_array ++ entries hacc_in)
    end
  else ret hacc_array.

(** hacc_array[-1] *)
Definition last_of (l : list num) : M nums :=
  match rev l with x :: _ => ret (Sc x) | [] => raise IndexError end.

(** takahashi1990_caisson.py:228-327.  Both searches get the same fuel. *)
Definition calculate_significant_depth_above_toe_hacc (fuel : nat)
    (Dn50 Tp Hs Bt rho_rock rho_water beta : nums) (g : num) : M nums :=
  Delta <- calculate_buoyant_density_Delta rho_rock rho_water ;;
  Ns <- first (check_usage_stabilitynumber (Some Hs) (Some Dn50) (Some Delta) None) ;;
  dht <- Hs / #20 ;;
  Ns_out <- calculate_stability_number_Ns Hs Tp dht Bt beta g ;;
  firsteval <- (Ns <? Ns_out) ;;
  hacc_array <- hacc_loop fuel Ns Hs Tp Bt beta g dht firsteval dht Ns_out [] ;;
  hacc <- last_of hacc_array ;;
  coarse <- holds (dht >? #0.001) ;;
  if coarse : bool then
    hacc_in <- hacc - dht ;;
    Ns_out <- calculate_stability_number_Ns Hs Tp hacc_in Bt beta g ;;
    firsteval <- (Ns <? Ns_out) ;;
    hacc_array <- hacc_loop fuel Ns Hs Tp Bt beta g #0.001 firsteval hacc_in Ns_out [] ;;
    last_of hacc_array
  else ret hacc.
End Takahashi.
