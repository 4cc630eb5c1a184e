(** Model of functions/structural/stability_toe_berm/takahashi1990_caisson.py

    Every function takes the external routine [disper] (see CorePhysics.v). *)
From Coq Require Import Reals String List Bool ZArith.
From Verif.Lib Require Import Num Monad.
From Verif.Model Require Import CoreUtility CorePhysics.
Import ListNotations.
Open Scope string_scope.
Open Scope num_scope.

(** takahashi1990_caisson.py:10-56 *)
Definition check_validity (Ns Bt : num) : M unit :=
  when (provided Ns)
    (check "Stability number Ns" "Takahashi et al (1990)" Ns #0 PInf) ;;
  when (provided Bt)
    (check "Toe width Bt" "Takahashi et al (1990)" Bt #0 PInf).

(** np.deg2rad *)
Definition deg2rad (x : num) : num := x * (npi / #180).

(** np.arange(start, stop, step) for float arguments: the values
    start + i*step for i below ceil((stop-start)/step).  A zero step or a
    non-finite argument makes numpy raise ValueError. *)
Definition arange (start stop step : num) : M (list num) :=
  match start, stop, step with
  | Fin a, Fin b, Fin d =>
      if Reqb d 0 then raise ValueError
      else
        let n := Z.to_nat (- Int_part (- ((b - a) / d)%R)) in
        ret (map (fun i => Fin (a + INR i * d)%R) (seq 0 n))
  | _, _, _ => raise ValueError
  end.

(** np.argmin: index of the first smallest element (a NaN counts as smallest);
    ValueError on an empty array. *)
Fixpoint argmin_from (l : list num) (i best_i : nat) (best : num) : nat :=
  match l with
  | [] => best_i
  | x :: l' =>
      if isnan best then best_i
      else if isnan x || (x <? best) then argmin_from l' (S i) i x
      else argmin_from l' (S i) best_i best
  end.
Definition argmin (l : list num) : M nat :=
  match l with
  | [] => raise ValueError
  | x :: l' => ret (argmin_from l' 1 0 x)
  end.

(** l[i] for a python index that may be -1. *)
Definition py_index (l : list num) (i : Z) : M num :=
  let i := if (i <? 0)%Z then (i + Z.of_nat (List.length l))%Z else i in
  if (i <? 0)%Z then raise IndexError
  else match nth_error l (Z.to_nat i) with Some x => ret x | None => raise IndexError end.

Section Takahashi.
Variable disper : num -> num -> num -> num.

(** takahashi1990_caisson.py:330-393 *)
Definition calculate_stability_number_Ns (Hs Tp hacc Bt beta g : num) : M num :=
  let beta := deg2rad beta in
  let Lp := local_wavelength disper Tp hacc g in
  let k := (#2 * npi) / Lp in
  let hacck2 := #2 * k * hacc in
  let kappa_1 := hacck2 / nsinh hacck2 in
  let kappa_2a := #0.45 * npow (nsin beta) #2 * npow (ncos (k * Bt * ncos beta)) #2 in
  let kappa_2b := npow (ncos beta) #2 * npow (nsin (k * Bt * ncos beta)) #2 in
  let kappa_2 := nmax kappa_2a kappa_2b in
  let kappa := kappa_1 * kappa_2 in
  let a := (#1 - kappa) / npow kappa (#1 / #3) in
  let b := npow (#1 - kappa) #2 / npow kappa (#1 / #3) in
  let Ns := nmax #1.8 (#1.3 * a * hacc / Hs + #1.8 * nexp (- #1.5 * b * (hacc / Hs))) in
  check_validity Ns Bt ;;
  ret Ns.

(** takahashi1990_caisson.py:59-115 *)
Definition calculate_nominal_diameter_Dn50
    (Hs Tp hacc Bt rho_rock rho_water beta g : num) : M num :=
  let Delta := calculate_buoyant_density_Delta rho_rock rho_water in
  Ns <- calculate_stability_number_Ns Hs Tp hacc Bt beta g ;;
  r <- check_usage_stabilitynumber (Some Hs) None (Some Delta) (Some Ns) ;;
  ret (fst r).

(** The loops of lines 188-195 and 207-214: the wave height that the stability
    number of each trial value implies. *)
Fixpoint table_out (Dn50 Delta Tp hacc Bt beta g : num) (tab : list num) : M (list num) :=
  match tab with
  | [] => ret []
  | Hsin :: tab =>
      Ns <- calculate_stability_number_Ns Hsin Tp hacc Bt beta g ;;
      r <- check_usage_stabilitynumber None (Some Dn50) (Some Delta) (Some Ns) ;;
      rest <- table_out Dn50 Delta Tp hacc Bt beta g tab ;;
      ret (fst r :: rest)
  end.

Definition absdiffs (l1 l2 : list num) : list num :=
  map (fun p => nabs (fst p - snd p)) (combine l1 l2).

(** takahashi1990_caisson.py:118-225 *)
Definition calculate_significant_wave_height_Hs
    (Dn50 Tp hacc Bt rho_rock rho_water beta g : num) : M num :=
  let Delta := calculate_buoyant_density_Delta rho_rock rho_water in
  r <- check_usage_stabilitynumber None (Some Dn50) (Some Delta) (Some #1.8) ;;
  let Hs_start := fst r in
  Ns <- calculate_stability_number_Ns Hs_start Tp hacc Bt beta g ;;
  r <- check_usage_stabilitynumber None (Some Dn50) (Some Delta) (Some Ns) ;;
  let Hs_new := fst r in
  tab_in <- arange (nmin Hs_start Hs_new) (nmax Hs_start Hs_new) (Hs_start / #20) ;;
  tab_out <- table_out Dn50 Delta Tp hacc Bt beta g tab_in ;;
  ind <- argmin (absdiffs tab_in tab_out) ;;
  a1 <- py_index tab_in (Z.of_nat ind - 1) ;;
  b1 <- py_index tab_out (Z.of_nat ind - 1) ;;
  a2 <- py_index tab_in (Z.of_nat ind + 1) ;;
  b2 <- py_index tab_out (Z.of_nat ind + 1) ;;
  tab_in <- arange (nmin a1 b1) (nmax a2 b2) #0.0005 ;;
  tab_out <- table_out Dn50 Delta Tp hacc Bt beta g tab_in ;;
  ind <- argmin (absdiffs tab_in tab_out) ;;
  x <- py_index tab_in (Z.of_nat ind) ;;
  y <- py_index tab_out (Z.of_nat ind) ;;
  let absdiff := nabs (x - y) in
  when (negb (absdiff <? #0.001)) (warn (WText "Hs precision is not better than")) ;;
  ret y.

(** The loops of lines 295-302 and 317-324.  They have no bound: [fuel] exists
    in the model only.  The arrays collect the visited depths; the code uses
    their last element, which is the current depth. *)
Fixpoint hacc_loop (fuel : nat) (Ns Hs Tp Bt beta g dht : num) (firsteval : bool)
    (hacc_in Ns_out : num) : M num :=
  if Bool.eqb firsteval (Ns <? Ns_out) then
    match fuel with
    | O => raise OutOfFuel
    | S fuel =>
        let hacc_in := hacc_in + dht in
        Ns_out <- calculate_stability_number_Ns Hs Tp hacc_in Bt beta g ;;
        hacc_loop fuel Ns Hs Tp Bt beta g dht firsteval hacc_in Ns_out
    end
  else ret hacc_in.

(** takahashi1990_caisson.py:228-327.  Both searches get the same fuel.  The
    first test of each loop is always true (it compares a condition with
    itself), so the arrays are never empty at lines 304 and 325. *)
Definition calculate_significant_depth_above_toe_hacc (fuel : nat)
    (Dn50 Tp Hs Bt rho_rock rho_water beta g : num) : M num :=
  let Delta := calculate_buoyant_density_Delta rho_rock rho_water in
  r <- check_usage_stabilitynumber (Some Hs) (Some Dn50) (Some Delta) None ;;
  let Ns := fst r in
  let dht := Hs / #20 in
  let hacc_in := dht in
  Ns_out <- calculate_stability_number_Ns Hs Tp hacc_in Bt beta g ;;
  let firsteval := Ns <? Ns_out in
  hacc <- hacc_loop fuel Ns Hs Tp Bt beta g dht firsteval hacc_in Ns_out ;;
  if dht >? #0.001 then
    let hacc_in := hacc - dht in
    let dht := #0.001 in
    Ns_out <- calculate_stability_number_Ns Hs Tp hacc_in Bt beta g ;;
    let firsteval := Ns <? Ns_out in
    hacc_loop fuel Ns Hs Tp Bt beta g dht firsteval hacc_in Ns_out
  else ret hacc.
End Takahashi.
