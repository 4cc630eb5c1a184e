(** Model of functions/structural/stability_rock_rear/vangent2007.py
    for arrays with one axis *)
From Coq Require Import Reals String List Bool.
From Verif.Lib Require Import Num Monad Arr ArrLoop.
From Verif.Model Require Import CoreUtility ArrCore ArrVanGent2001.
Open Scope string_scope.
Open Scope arr_scope.

(** vangent2007.py:12-136; NaN stands for an argument that is left out. *)
Definition check_validity_range
    (Rc Rc2_front Rc2_rear Gc Dn50 B_element h Hs Tmm10 z1p S N_waves : nums) : M unit :=
  when (given Hs && given Tmm10)
    (acheck "sm-1,0" "Van Gent (2007)" (calculate_wave_steepness_s Hs Tmm10 #9.81) #0.023 #0.054) ;;
  when (given h && given Hs) (acheck "h/Hs" "Van Gent (2007)" (h / Hs) #3.3 #11) ;;
  when (given N_waves) (acheck "N_waves" "Van Gent (2007)" N_waves #1000 #10000) ;;
  when (given Rc && given Hs) (acheck "Rc/Hs" "Van Gent (2007)" (Rc / Hs) #0.5 #1.9) ;;
  when (given Rc && given Dn50) (acheck "Rc/Dn50" "Van Gent (2007)" (Rc / Dn50) #7 #22) ;;
  when (given Rc && given Hs && given z1p)
    (acheck "(z1% - Rc)/Hs" "Van Gent (2007)" ((z1p - Rc) / Hs) #0.2 #1.3) ;;
  when (given Rc2_front && given Hs)
    (acheck "Rc2,front/Hs" "Van Gent (2007)" (Rc2_front / Hs) #0 #0.5) ;;
  when (given B_element && given Hs)
    (acheck "B_element/Hs" "Van Gent (2007)" (B_element / Hs) #0.5 #1.5) ;;
  when (given Gc && given Hs) (acheck "Gc/Hs" "Van Gent (2007)" (Gc / Hs) #0.5 #1.1) ;;
  when (given Dn50 && given Hs)
    (acheck "Stability number Ns" "Van Gent (2007)"
       (calculate_stability_number_Ns Hs Dn50 #2650 #1025) #4 #12) ;;
  when (given Rc2_rear && given Hs)
    (acheck "Rc2,rear/Hs" "Van Gent (2007)" (Rc2_rear / Hs) #0 #1.3) ;;
  when (given S) (acheck "S" "Van Gent (2007)" S #2 #100).

(** vangent2007.py:139-226; 1.45 and 5.1 are the defaults of c0 and c1
    (vangent2001.py:13-14) *)
Definition calculate_damage_number_S
    (cot_alpha cot_phi gamma Hs Tmm10 Rc Rc2_front Rc2_rear N_waves Dn50 M50 rho_rock : nums) : M nums :=
  z1p <- calculate_wave_runup_height_z1p Hs Tmm10 gamma cot_alpha #1.45 #5.1 ;;
  Dn50 <- check_usage_Dn50_or_M50 Dn50 M50 rho_rock ;;
  S <- #0.00025 * apow cot_phi #1.25 * apow ((z1p - Rc) / Dn50) #2 * apow (Rc / Dn50) #0.5
           * (#1 + #5 * Rc2_rear / (Rc - Rc2_rear)) * apow (#1 + Rc2_front / Hs) (- #1)
           * asqrt N_waves ;;
  check_validity_range Rc Rc2_front Rc2_rear anan Dn50 anan anan Hs anan z1p S N_waves ;;
  ret S.

(** vangent2007.py:229-303 *)
Definition calculate_nominal_rock_diameter_Dn50
    (cot_alpha cot_phi gamma S Hs Tmm10 Rc Rc2_front Rc2_rear N_waves : nums) : M nums :=
  z1p <- calculate_wave_runup_height_z1p Hs Tmm10 gamma cot_alpha #1.45 #5.1 ;;
  Dn50 <- #0.036 * apow cot_phi #0.5 * apow (z1p - Rc) #0.8 * apow Rc #0.2
              * apow (#1 + #5 * Rc2_rear / (Rc - Rc2_rear)) #0.4
              * apow (#1 + Rc2_front / Hs) (- #0.4) * apow (S / asqrt N_waves) (- #0.4) ;;
  check_validity_range Rc Rc2_front Rc2_rear anan Dn50 anan anan Hs anan z1p S N_waves ;;
  ret Dn50.

(** vangent2007.py:413-437, _invert_for_z1p *)
Definition invert_for_z1p (cot_phi S Dn50 Hs Rc Rc2_front Rc2_rear N_waves : nums) : M nums :=
  Dn50 * apow ((S / asqrt N_waves) * (#1 / #0.00025) * apow cot_phi (- #1.25)
               * apow (Rc / Dn50) (- #0.5)
               * apow (#1 + #5 * Rc2_rear / (Rc - Rc2_rear)) (- #1)
               * (#1 + Rc2_front / Hs)) #0.5
  + Rc.

(** The loop at vangent2007.py:372-392.  [z1p_of] and [Hs_of] are the two
    assignments of the body, [todo] is max_iterations - iteration.  The result
    is the final [todo], [Hs_i1] and the value of [z1p], None when the body was
    never executed. *)
Fixpoint search (z1p_of : nums -> M nums) (Hs_of : nums -> nums -> M nums) (tolerance : num) (todo : nat)
    (Hs_i1 Hs_i0 : nums) (z1p : option nums) : M (nat * nums * option nums) :=
  match todo with
  | O => ret (O, Hs_i1, z1p)
  | S todo' =>
      diff <- aabs (Hs_i1 - Hs_i0) ;;
      most <- greatest diff ;;
      if ngt most tolerance then
        z <- z1p_of Hs_i1 ;;
        Hs <- Hs_of Hs_i1 z ;;
        search z1p_of Hs_of tolerance todo' Hs Hs_i1 (Some z)
      else ret (todo, Hs_i1, z1p)
  end.

(** vangent2007.py:306-410; the tolerance is a float.  The defaults of c0 and c1
    are those of _invert_for_Hs (vangent2001.py:235-236). *)
Definition calculate_maximum_significant_wave_height_Hs
    (cot_alpha cot_phi gamma S Tmm10 Rc Rc2_front Rc2_rear N_waves Dn50 M50 rho_rock : nums) (tolerance : num)
    (max_iterations : nat) : M nums :=
  Dn50 <- check_usage_Dn50_or_M50 Dn50 M50 rho_rock ;;
  Hs_i0 <- Rc2_front + float PInf ;;
  found <- search (fun Hs_i0 => invert_for_z1p cot_phi S Dn50 Hs_i0 Rc Rc2_front Rc2_rear N_waves)
             (fun Hs_i0 z1p => invert_for_Hs Hs_i0 z1p Tmm10 gamma cot_alpha #1.45 #5.1)
             tolerance max_iterations Rc2_front Hs_i0 None ;;
  let '(todo, Hs, z1p) := found in
  when (Nat.eqb todo 0) (warn (WText "Maximum number of iterations reached, convergence not achieved")) ;;
  z1p <- bound z1p ;;
  check_validity_range Rc Rc2_front Rc2_rear anan Dn50 anan anan Hs anan z1p S N_waves ;;
  ret Hs.
