(** Model of functions/structural/stability_rock_rear/vangentpozueta2004.py
    for arrays with one axis *)
From Coq Require Import Reals String List Bool.
From Verif.Lib Require Import Num Monad Arr ArrLoop.
From Verif.Model Require Import CoreUtility ArrCore ArrVanGent2001 ArrVanGent2002Velocity ArrRearVanGent2007.
Open Scope string_scope.
Open Scope arr_scope.

(** vangentpozueta2004.py:13-134; NaN stands for an argument that is left out. *)
Definition check_validity_range
    (Rc Rc_rear cot_phi gamma_f Dn50 rho_rock rho_water Bc Hs Tmm10 z1p S N_waves : nums) : M unit :=
  when (given Hs && given Tmm10)
    (acheck "sm-1,0" "Van Gent & Pozueta (2004)" (calculate_wave_steepness_s Hs Tmm10 #9.81) #0.019 #0.036) ;;
  when (given N_waves) (acheck "N_waves" "Van Gent & Pozueta (2004)" N_waves #0 #4000) ;;
  when (given Rc && given Hs) (acheck "Rc/Hs" "Van Gent & Pozueta (2004)" (Rc / Hs) #0.3 #2) ;;
  when (given Rc_rear && given Hs)
    (acheck "Rc_rear/Hs" "Van Gent & Pozueta (2004)" (Rc_rear / Hs) #0.3 #6) ;;
  when (given Bc && given Hs) (acheck "B_c/Hs" "Van Gent & Pozueta (2004)" (Bc / Hs) #1.3 #1.6) ;;
  when (given Rc && given Hs && given z1p && given gamma_f)
    (acheck "(z1% - Rc)/(gamma_f*Hs)" "Van Gent & Pozueta (2004)" ((z1p - Rc) / (gamma_f * Hs)) #0 #1.4) ;;
  when (given Hs && given Dn50 && given rho_rock && given rho_water)
    (acheck "Hs/(Delta*Dn50_rear)" "Van Gent & Pozueta (2004)"
       (calculate_stability_number_Ns Hs Dn50 rho_rock rho_water) #5.5 #8.5) ;;
  when (given cot_phi) (acheck "cot phi" "Van Gent & Pozueta (2004)" cot_phi #2 #4) ;;
  when (given S) (acheck "S" "Van Gent & Pozueta (2004)" S #2 #50).

(** vangentpozueta2004.py:137-237; 1.45 and 5.1, 1.7, 0.1 and 9.81 are the defaults
    of vangent2001.py:13-14 and vangent2002_velocity.py:13-15 *)
Definition calculate_damage_number_S
    (cot_alpha cot_phi gamma_f gamma_f_Crest Hs Tmm10 Rc Rc_rear Bc N_waves Dn50 M50 rho_rock
     rho_water cs : nums) : M nums :=
  z1p <- calculate_wave_runup_height_z1p Hs Tmm10 gamma_f cot_alpha #1.45 #5.1 ;;
  u1p <- calculate_maximum_wave_overtopping_velocity_uXp Hs z1p Rc Bc gamma_f gamma_f_Crest
               #1.7 #0.1 #9.81 ;;
  Delta <- calculate_buoyant_density_Delta rho_rock rho_water ;;
  Dn50 <- check_usage_Dn50_or_M50 Dn50 M50 rho_rock ;;
  S <- cs * apow (u1p * Tmm10 / (asqrt Delta * Dn50)) #6 * apow cot_phi (- #2.5)
           * (#1 + #10 * aexp (- Rc_rear / Hs)) * asqrt N_waves ;;
  check_validity_range Rc Rc_rear cot_phi gamma_f Dn50 rho_rock rho_water Bc Hs Tmm10 z1p S N_waves ;;
  ret S.

(** vangentpozueta2004.py:240-335 *)
Definition calculate_nominal_rock_diameter_Dn50
    (cot_alpha cot_phi gamma_f gamma_f_Crest S Hs Tmm10 Rc Rc_rear Bc rho_rock N_waves
     rho_water cs : nums) : M nums :=
  z1p <- calculate_wave_runup_height_z1p Hs Tmm10 gamma_f cot_alpha #1.45 #5.1 ;;
  u1p <- calculate_maximum_wave_overtopping_velocity_uXp Hs z1p Rc Bc gamma_f gamma_f_Crest
               #1.7 #0.1 #9.81 ;;
  Delta <- calculate_buoyant_density_Delta rho_rock rho_water ;;
  Dn50 <- apow cs (#1 / #6) * apow (S / asqrt N_waves) (- (#1 / #6))
              * (u1p * Tmm10 / asqrt Delta) * apow cot_phi (- (#2.5 / #6))
              * apow (#1 + #10 * aexp (- Rc_rear / Hs)) (#1 / #6) ;;
  check_validity_range Rc Rc_rear cot_phi gamma_f Dn50 rho_rock rho_water Bc Hs Tmm10 z1p S N_waves ;;
  ret Dn50.

(** vangentpozueta2004.py:477-502, _invert_for_u1p *)
Definition invert_for_u1p (cot_phi S Hs Tmm10 Rc_rear N_waves Dn50 Delta cs : nums) : M nums :=
  apow ((#1 / cs) * (S / asqrt N_waves) * apow cot_phi #2.5
        * (#1 / (#1 + #10 * aexp (- Rc_rear / Hs)))) (#1 / #6)
  * asqrt Delta * Dn50 / Tmm10.

(** vangentpozueta2004.py:338-474; the tolerance is a float.  The loop at lines
    416-451 is that of vangent2007.py with another computation of z1p. *)
Definition calculate_maximum_significant_wave_height_Hs
    (cot_alpha cot_phi gamma_f gamma_f_Crest S Tmm10 Rc Rc_rear Bc N_waves Dn50 M50 rho_rock rho_water
     cs : nums) (tolerance : num) (max_iterations : nat) : M nums :=
  Delta <- calculate_buoyant_density_Delta rho_rock rho_water ;;
  Dn50 <- check_usage_Dn50_or_M50 Dn50 M50 rho_rock ;;
  Hs_i1 <- (Rc + #0.5) / (#2.552 * gamma_f) ;;
  Hs_i0 <- Hs_i1 + float PInf ;;
  found <- search (fun Hs_i0 =>
                u1p <- invert_for_u1p cot_phi S Hs_i0 Tmm10 Rc_rear N_waves Dn50 Delta cs ;;
                invert_for_zXp Hs_i0 u1p Rc Bc gamma_f gamma_f_Crest #1.7 #0.1 #9.81)
             (fun Hs_i0 z1p => invert_for_Hs Hs_i0 z1p Tmm10 gamma_f cot_alpha #1.45 #5.1)
             tolerance max_iterations Hs_i1 Hs_i0 None ;;
  let '(todo, Hs, z1p) := found in
  when (Nat.eqb todo 0) (warn (WText "Maximum number of iterations reached, convergence not achieved")) ;;
  z1p <- bound z1p ;;
  check_validity_range Rc Rc_rear cot_phi gamma_f Dn50 rho_rock rho_water Bc Hs Tmm10 z1p S N_waves ;;
  ret Hs.
