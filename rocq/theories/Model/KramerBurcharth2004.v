(** Model of functions/structural/stability_rock_armour/kramerburcharth2004_lowcrested.py *)
From Coq Require Import Reals String List Bool.
From Verif.Lib Require Import Num Monad.
From Verif.Model Require Import CoreUtility CorePhysics.
Open Scope string_scope.
Open Scope num_scope.

(** kramerburcharth2004_lowcrested.py:9-37 *)
Definition check_validity_range (Rc Dn50 : num) : M unit :=
  when (provided Rc && provided Dn50)
    (check "Relative crest height Rc / Dn50" "Kramer & Burcharth, 2004" (Rc / Dn50) (- #3.1) #1.5).

(** The loops at kramerburcharth2004_lowcrested.py:79-91 and 189-201: [step] is
    the assignment in the body, [todo] is max_iter - n_iter. *)
Fixpoint iteration (step : num -> num) (tolerance : num) (todo : nat) (x prev diff : num) : num :=
  if diff >? tolerance then
    match todo with
    | O => x
    | S todo =>
        let x := step x in
        iteration step tolerance todo x x (nabs (x - prev))
    end
  else x.

(** kramerburcharth2004_lowcrested.py:40-97 *)
Definition calculate_nominal_rock_diameter_Dn50
    (Hs Rc rho_armour Ns_init : num) (max_iter : nat) (tolerance : num) : M num :=
  let Delta := calculate_buoyant_density_Delta rho_armour #1025 in
  let step Dn50 := (#1 / #1.36) * ((Hs / Delta) - Rc * (#0.06 * (Rc / Dn50) - #0.23)) in
  let Dn50 := iteration step tolerance max_iter (Hs / (Delta * Ns_init)) PInf PInf in
  check_validity_range Rc Dn50 ;;
  ret Dn50.

(** kramerburcharth2004_lowcrested.py:100-142 *)
Definition calculate_significant_wave_height_Hs (Rc rho_armour Dn50 M50 : num) : M num :=
  Dn50 <- check_usage_Dn50_or_M50 Dn50 M50 rho_armour ;;
  let Delta := calculate_buoyant_density_Delta rho_armour #1025 in
  let Hs := (#0.06 * npow (Rc / Dn50) #2 - #0.23 * Rc / Dn50 + #1.36) * Delta * Dn50 in
  check_validity_range Rc Dn50 ;;
  ret Hs.

(** kramerburcharth2004_lowcrested.py:145-207 *)
Definition calculate_crest_freeboard_Rc
    (Hs rho_armour Dn50 M50 Rc_Dn50_init : num) (max_iter : nat) (tolerance : num) : M num :=
  Dn50 <- check_usage_Dn50_or_M50 Dn50 M50 rho_armour ;;
  let Delta := calculate_buoyant_density_Delta rho_armour #1025 in
  let step Rc := ((Hs / Delta) - #1.36 * Dn50) / (#0.06 * (Rc / Dn50) - #0.23) in
  let Rc := iteration step tolerance max_iter (Rc_Dn50_init * Dn50) PInf PInf in
  check_validity_range Rc Dn50 ;;
  ret Rc.

(** Defaults, lines 44-46 and 150-152: Ns_init 2, Rc_Dn50_init -1, max_iter
    1000, tolerance 1e-5. *)
Definition Ns_init_default : num := #2.
Definition Rc_Dn50_init_default : num := - #1.
Definition max_iter_default : nat := 1000.
Definition tolerance_default : num := #0.00001.
