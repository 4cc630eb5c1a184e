(** Model of functions/structural/stability_rock_rear/vangent2007.py *)
From Coq Require Import Reals String List Bool.
From Verif.Lib Require Import Num Monad.
From Verif.Model Require Import CoreUtility CorePhysics VanGent2001.
Open Scope string_scope.
Open Scope num_scope.

(** vangent2007.py:12-136; NaN stands for an argument that is left out. *)
Definition check_validity_range
    (Rc Rc2_front Rc2_rear Gc Dn50 B_element h Hs Tmm10 z1p S N_waves : num) : M unit :=
  when (provided Hs && provided Tmm10)
    (check "sm-1,0" "Van Gent (2007)" (calculate_wave_steepness_s Hs Tmm10 g_default) #0.023 #0.054) ;;
  when (provided h && provided Hs) (check "h/Hs" "Van Gent (2007)" (h / Hs) #3.3 #11) ;;
  when (provided N_waves) (check "N_waves" "Van Gent (2007)" N_waves #1000 #10000) ;;
  when (provided Rc && provided Hs) (check "Rc/Hs" "Van Gent (2007)" (Rc / Hs) #0.5 #1.9) ;;
  when (provided Rc && provided Dn50) (check "Rc/Dn50" "Van Gent (2007)" (Rc / Dn50) #7 #22) ;;
  when (provided Rc && provided Hs && provided z1p)
    (check "(z1% - Rc)/Hs" "Van Gent (2007)" ((z1p - Rc) / Hs) #0.2 #1.3) ;;
  when (provided Rc2_front && provided Hs)
    (check "Rc2,front/Hs" "Van Gent (2007)" (Rc2_front / Hs) #0 #0.5) ;;
  when (provided B_element && provided Hs)
    (check "B_element/Hs" "Van Gent (2007)" (B_element / Hs) #0.5 #1.5) ;;
  when (provided Gc && provided Hs) (check "Gc/Hs" "Van Gent (2007)" (Gc / Hs) #0.5 #1.1) ;;
  when (provided Dn50 && provided Hs)
    (check "Stability number Ns" "Van Gent (2007)"
       (calculate_stability_number_Ns Hs Dn50 #2650 #1025) #4 #12) ;;
  when (provided Rc2_rear && provided Hs)
    (check "Rc2,rear/Hs" "Van Gent (2007)" (Rc2_rear / Hs) #0 #1.3) ;;
  when (provided S) (check "S" "Van Gent (2007)" S #2 #100).

(** vangent2007.py:139-226 *)
Definition calculate_damage_number_S
    (cot_alpha cot_phi gamma Hs Tmm10 Rc Rc2_front Rc2_rear N_waves Dn50 M50 rho_rock : num) : M num :=
  let z1p := calculate_wave_runup_height_z1p Hs Tmm10 gamma cot_alpha z1p_c0 z1p_c1 in
  Dn50 <- check_usage_Dn50_or_M50 Dn50 M50 rho_rock ;;
  let S := #0.00025 * npow cot_phi #1.25 * npow ((z1p - Rc) / Dn50) #2 * npow (Rc / Dn50) #0.5
           * (#1 + #5 * Rc2_rear / (Rc - Rc2_rear)) * npow (#1 + Rc2_front / Hs) (- #1)
           * nsqrt N_waves in
  check_validity_range Rc Rc2_front Rc2_rear NaN Dn50 NaN NaN Hs NaN z1p S N_waves ;;
  ret S.

(** vangent2007.py:229-303 *)
Definition calculate_nominal_rock_diameter_Dn50
    (cot_alpha cot_phi gamma S Hs Tmm10 Rc Rc2_front Rc2_rear N_waves : num) : M num :=
  let z1p := calculate_wave_runup_height_z1p Hs Tmm10 gamma cot_alpha z1p_c0 z1p_c1 in
  let Dn50 := #0.036 * npow cot_phi #0.5 * npow (z1p - Rc) #0.8 * npow Rc #0.2
              * npow (#1 + #5 * Rc2_rear / (Rc - Rc2_rear)) #0.4
              * npow (#1 + Rc2_front / Hs) (- #0.4) * npow (S / nsqrt N_waves) (- #0.4) in
  check_validity_range Rc Rc2_front Rc2_rear NaN Dn50 NaN NaN Hs NaN z1p S N_waves ;;
  ret Dn50.

(** vangent2007.py:413-437, _invert_for_z1p *)
Definition invert_for_z1p (cot_phi S Dn50 Hs Rc Rc2_front Rc2_rear N_waves : num) : num :=
  Dn50 * npow ((S / nsqrt N_waves) * (#1 / #0.00025) * npow cot_phi (- #1.25)
               * npow (Rc / Dn50) (- #0.5)
               * npow (#1 + #5 * Rc2_rear / (Rc - Rc2_rear)) (- #1)
               * (#1 + Rc2_front / Hs)) #0.5
  + Rc.

(** The loop at vangent2007.py:372-392.  [z1p_of] and [Hs_of] are the two
    assignments of the body, [todo] is max_iterations - iteration.  The result
    is the final [todo], [Hs_i1] and the value of [z1p], None when the body was
    never executed. *)
Fixpoint search (z1p_of : num -> num) (Hs_of : num -> num -> num) (tolerance : num) (todo : nat)
    (Hs_i1 Hs_i0 : num) (z1p : option num) : nat * num * option num :=
  match todo with
  | O => (O, Hs_i1, z1p)
  | S todo' =>
      if nabs (Hs_i1 - Hs_i0) >? tolerance then
        let z := z1p_of Hs_i1 in
        search z1p_of Hs_of tolerance todo' (Hs_of Hs_i1 z) Hs_i1 (Some z)
      else (todo, Hs_i1, z1p)
  end.

(** vangent2007.py:306-410 *)
Definition calculate_maximum_significant_wave_height_Hs
    (cot_alpha cot_phi gamma S Tmm10 Rc Rc2_front Rc2_rear N_waves Dn50 M50 rho_rock tolerance : num)
    (max_iterations : nat) : M num :=
  Dn50 <- check_usage_Dn50_or_M50 Dn50 M50 rho_rock ;;
  let '(todo, Hs, z1p) :=
    search (fun Hs_i0 => invert_for_z1p cot_phi S Dn50 Hs_i0 Rc Rc2_front Rc2_rear N_waves)
           (fun Hs_i0 z1p => invert_for_Hs Hs_i0 z1p Tmm10 gamma cot_alpha invert_c0 invert_c1)
           tolerance max_iterations Rc2_front (Rc2_front + PInf) None in
  when (Nat.eqb todo 0) (warn (WText "Maximum number of iterations reached, convergence not achieved")) ;;
  match z1p with
  | None => raise UnboundLocalError
  | Some z1p =>
      check_validity_range Rc Rc2_front Rc2_rear NaN Dn50 NaN NaN Hs NaN z1p S N_waves ;;
      ret Hs
  end.

(** Defaults, lines 319-320. *)
Definition tolerance_default : num := #0.0001.
Definition max_iterations_default : nat := 10000.
