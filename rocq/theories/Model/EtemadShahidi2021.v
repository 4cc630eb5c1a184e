(** Model of functions/structural/stability_toe_berm/etemadshahidi2021.py *)
From Coq Require Import Reals String List Bool.
From Verif.Lib Require Import Num Monad.
From Verif.Model Require Import CoreUtility CorePhysics.
Open Scope string_scope.
Open Scope num_scope.

Definition formula : string := "Etemad-Shahidi et al. (2021)".

(** etemadshahidi2021.py:9-161.  Line 65 calls calculate_wave_steepness_s with
    the keyword Tmm10, which that function does not have: python raises
    TypeError. *)
Definition check_validity
    (Hs Tmm10 h ht Bt Dn50 m Nod cot_alpha_armour_slope rho_armour rho_water : num) : M unit :=
  when (provided cot_alpha_armour_slope)
    (check "Armour slope cot_alpha_armour_slope" formula cot_alpha_armour_slope #1.5 #2) ;;
  when (provided Hs && provided Tmm10) (raise TypeError) ;;
  when (provided h && provided ht)
    (check "Relative water depth above the toe ht/h" formula (ht / h) #0.39 #0.88) ;;
  when (provided Hs && provided ht)
    (check "Relative water depth above the toe ht/Hs" formula (ht / Hs) #0.48 #2.58) ;;
  when (provided Dn50 && provided ht)
    (check "Relative water depth above the toe ht/Dn50" formula (ht / Dn50) #1.97 #23.40) ;;
  when (provided Hs && provided ht)
    (check "Relative toe width Bt/Hs" formula (Bt / Hs) #0.17 #1.92) ;;
  when (provided h && provided Hs)
    (check "Relative water depth h/Hs" formula (h / Hs) #1.22 #3) ;;
  when (provided Hs && provided Dn50)
    (let Ns := calculate_stability_number_Ns Hs Dn50 rho_armour rho_water in
     check "Stability number Ns" formula Ns #1.58 #10) ;;
  when (provided rho_armour)
    (let Delta := calculate_buoyant_density_Delta rho_armour rho_water in
     check "Buoyant density Delta" formula Delta #1.65 #1.75) ;;
  when (provided m)
    (check "Foreshore slope m" formula m #0.02 #0.10) ;;
  when (provided Nod)
    (check "Damage parameter Nod" formula Nod #0.5 #3.79).

(** check_validity(Hs=Hs, ht=ht), lines 251 and 341 *)
Definition check_validity_Hs_ht (Hs ht : num) : M unit :=
  check_validity Hs NaN NaN ht NaN NaN NaN NaN NaN NaN #1025.

(** etemadshahidi2021.py:164-253.  c1..c7 are the coefficients. *)
Definition calculate_damage_Nod
    (Hs Tmm10 h ht Bt m Dn50 rho_rock rho_water g c1 c2 c3 c4 c5 c6 c7 : num) : M num :=
  let smm10 := calculate_wave_steepness_s Hs Tmm10 g in
  let Ns := calculate_stability_number_Ns Hs Dn50 rho_rock rho_water in
  let Nod :=
    npow
      ((Ns - c1)
       * (#1 / c2)
       * npow (ht / h) (- c3)
       * npow smm10 (- c4)
       * npow (Bt / Hs) (- c6)
       * (#1 / (#1 - c7 * m)))
      (#1 / c5) in
  check_validity_Hs_ht Hs ht ;;
  ret Nod.

(** etemadshahidi2021.py:256-343 *)
Definition calculate_nominal_diameter_Dn50
    (Hs Tmm10 h ht Bt Nod m rho_rock rho_water g c1 c2 c3 c4 c5 c6 c7 : num) : M num :=
  let Delta := calculate_buoyant_density_Delta rho_rock rho_water in
  let smm10 := calculate_wave_steepness_s Hs Tmm10 g in
  let Dn50 :=
    (Hs / Delta)
    * npow
        (c1
         + c2
           * npow (ht / h) c3
           * npow smm10 c4
           * npow Nod c5
           * npow (Bt / Hs) c6
           * (#1 - c7 * m))
        (- #1) in
  check_validity_Hs_ht Hs ht ;;
  ret Dn50.

(** The while loop, etemadshahidi2021.py:433-452.  [n_iter] is never
    incremented, so the loop is bounded by [fuel] in the model only. *)
Fixpoint Hs_loop (fuel : nat)
    (Delta Dn50 h ht Bt Nod m Tmm10 g c1 c2 c3 c4 c5 c6 c7 : num)
    (n_iter max_iter : nat) (Hs Hs_prev Hs_diff smm10 : num) : res num :=
  if (Hs_diff >? #1e-3) && Nat.ltb n_iter max_iter then
    match fuel with
    | O => Err OutOfFuel
    | S fuel =>
        let Hs :=
          Delta
          * Dn50
          * (c1
             + c2
               * npow (ht / h) c3
               * npow smm10 c4
               * npow Nod c5
               * npow (Bt / Hs) c6
               * (#1 - c7 * m)) in
        let Hs_diff := nabs (Hs - Hs_prev) in
        let Hs_prev := Hs in
        let smm10 := calculate_wave_steepness_s Hs Tmm10 g in
        Hs_loop fuel Delta Dn50 h ht Bt Nod m Tmm10 g c1 c2 c3 c4 c5 c6 c7
          n_iter max_iter Hs Hs_prev Hs_diff smm10
    end
  else Ok Hs.

(** etemadshahidi2021.py:346-454 *)
Definition calculate_significant_wave_height_Hs (fuel : nat)
    (Tmm10 h ht Bt Nod m Dn50 rho_rock rho_water g c1 c2 c3 c4 c5 c6 c7 smm10_init : num)
    (max_iter : nat) : M num :=
  let Delta := calculate_buoyant_density_Delta rho_rock rho_water in
  let Hs_init := smm10_init * npow Tmm10 #2 * g / (#2 * npi) in
  (nil, Hs_loop fuel Delta Dn50 h ht Bt Nod m Tmm10 g c1 c2 c3 c4 c5 c6 c7
          0 max_iter Hs_init Hs_init PInf smm10_init).

(** Default coefficients, lines 175-181 (and 267-273, 357-363). *)
Definition c1_d : num := #1.2.
Definition c2_d : num := #11.2.
Definition c3_d : num := #7 / #4.
Definition c4_d : num := #1 / #6.
Definition c5_d : num := #2 / #5.
Definition c6_d : num := - #1 / #10.
Definition c7_d : num := #3.7.
