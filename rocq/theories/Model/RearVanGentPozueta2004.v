(** Model of functions/structural/stability_rock_rear/vangentpozueta2004.py *)
From Coq Require Import Reals String List Bool.
From Verif.Lib Require Import Num Monad.
From Verif.Model Require Import CoreUtility CorePhysics VanGent2001 VanGent2002Velocity RearVanGent2007.
Open Scope string_scope.
Open Scope num_scope.

(** vangentpozueta2004.py:13-134; NaN stands for an argument that is left out. *)
Definition check_validity_range
    (Rc Rc_rear cot_phi gamma_f Dn50 rho_rock rho_water Bc Hs Tmm10 z1p S N_waves : num) : M unit :=
  when (provided Hs && provided Tmm10)
    (check "sm-1,0" "Van Gent & Pozueta (2004)" (calculate_wave_steepness_s Hs Tmm10 g_default) #0.019 #0.036) ;;
  when (provided N_waves) (check "N_waves" "Van Gent & Pozueta (2004)" N_waves #0 #4000) ;;
  when (provided Rc && provided Hs) (check "Rc/Hs" "Van Gent & Pozueta (2004)" (Rc / Hs) #0.3 #2) ;;
  when (provided Rc_rear && provided Hs)
    (check "Rc_rear/Hs" "Van Gent & Pozueta (2004)" (Rc_rear / Hs) #0.3 #6) ;;
  when (provided Bc && provided Hs) (check "B_c/Hs" "Van Gent & Pozueta (2004)" (Bc / Hs) #1.3 #1.6) ;;
  when (provided Rc && provided Hs && provided z1p && provided gamma_f)
    (check "(z1% - Rc)/(gamma_f*Hs)" "Van Gent & Pozueta (2004)" ((z1p - Rc) / (gamma_f * Hs)) #0 #1.4) ;;
  when (provided Hs && provided Dn50 && provided rho_rock && provided rho_water)
    (check "Hs/(Delta*Dn50_rear)" "Van Gent & Pozueta (2004)"
       (calculate_stability_number_Ns Hs Dn50 rho_rock rho_water) #5.5 #8.5) ;;
  when (provided cot_phi) (check "cot phi" "Van Gent & Pozueta (2004)" cot_phi #2 #4) ;;
  when (provided S) (check "S" "Van Gent & Pozueta (2004)" S #2 #50).

(** vangentpozueta2004.py:137-237 *)
Definition calculate_damage_number_S
    (cot_alpha cot_phi gamma_f gamma_f_Crest Hs Tmm10 Rc Rc_rear Bc N_waves Dn50 M50 rho_rock
     rho_water cs : num) : M num :=
  let z1p := calculate_wave_runup_height_z1p Hs Tmm10 gamma_f cot_alpha z1p_c0 z1p_c1 in
  let u1p := calculate_maximum_wave_overtopping_velocity_uXp Hs z1p Rc Bc gamma_f gamma_f_Crest
               cu1_default cu2_default g_default in
  let Delta := calculate_buoyant_density_Delta rho_rock rho_water in
  Dn50 <- check_usage_Dn50_or_M50 Dn50 M50 rho_rock ;;
  let S := cs * npow (u1p * Tmm10 / (nsqrt Delta * Dn50)) #6 * npow cot_phi (- #2.5)
           * (#1 + #10 * nexp (- Rc_rear / Hs)) * nsqrt N_waves in
  check_validity_range Rc Rc_rear cot_phi gamma_f Dn50 rho_rock rho_water Bc Hs Tmm10 z1p S N_waves ;;
  ret S.

(** vangentpozueta2004.py:240-335 *)
Definition calculate_nominal_rock_diameter_Dn50
    (cot_alpha cot_phi gamma_f gamma_f_Crest S Hs Tmm10 Rc Rc_rear Bc rho_rock N_waves
     rho_water cs : num) : M num :=
  let z1p := calculate_wave_runup_height_z1p Hs Tmm10 gamma_f cot_alpha z1p_c0 z1p_c1 in
  let u1p := calculate_maximum_wave_overtopping_velocity_uXp Hs z1p Rc Bc gamma_f gamma_f_Crest
               cu1_default cu2_default g_default in
  let Delta := calculate_buoyant_density_Delta rho_rock rho_water in
  let Dn50 := npow cs (#1 / #6) * npow (S / nsqrt N_waves) (- (#1 / #6))
              * (u1p * Tmm10 / nsqrt Delta) * npow cot_phi (- (#2.5 / #6))
              * npow (#1 + #10 * nexp (- Rc_rear / Hs)) (#1 / #6) in
  check_validity_range Rc Rc_rear cot_phi gamma_f Dn50 rho_rock rho_water Bc Hs Tmm10 z1p S N_waves ;;
  ret Dn50.

(** vangentpozueta2004.py:477-502, _invert_for_u1p *)
Definition invert_for_u1p (cot_phi S Hs Tmm10 Rc_rear N_waves Dn50 Delta cs : num) : num :=
  npow ((#1 / cs) * (S / nsqrt N_waves) * npow cot_phi #2.5
        * (#1 / (#1 + #10 * nexp (- Rc_rear / Hs)))) (#1 / #6)
  * nsqrt Delta * Dn50 / Tmm10.

(** vangentpozueta2004.py:338-474.  The loop at lines 416-451 is that of
    vangent2007.py with another computation of z1p. *)
Definition calculate_maximum_significant_wave_height_Hs
    (cot_alpha cot_phi gamma_f gamma_f_Crest S Tmm10 Rc Rc_rear Bc N_waves Dn50 M50 rho_rock rho_water
     cs tolerance : num) (max_iterations : nat) : M num :=
  let Delta := calculate_buoyant_density_Delta rho_rock rho_water in
  Dn50 <- check_usage_Dn50_or_M50 Dn50 M50 rho_rock ;;
  let start := (Rc + #0.5) / (#2.552 * gamma_f) in
  let '(todo, Hs, z1p) :=
    search (fun Hs_i0 =>
              let u1p := invert_for_u1p cot_phi S Hs_i0 Tmm10 Rc_rear N_waves Dn50 Delta cs in
              invert_for_zXp Hs_i0 u1p Rc Bc gamma_f gamma_f_Crest cu1_default cu2_default g_default)
           (fun Hs_i0 z1p => invert_for_Hs Hs_i0 z1p Tmm10 gamma_f cot_alpha invert_c0 invert_c1)
           tolerance max_iterations start (start + PInf) None in
  when (Nat.eqb todo 0) (warn (WText "Maximum number of iterations reached, convergence not achieved")) ;;
  match z1p with
  | None => raise UnboundLocalError
  | Some z1p =>
      check_validity_range Rc Rc_rear cot_phi gamma_f Dn50 rho_rock rho_water Bc Hs Tmm10 z1p S N_waves ;;
      ret Hs
  end.

(** Default of cs, lines 152, 254, 353 and 486. *)
Definition cs_default : num := npow #0.008 #6.
