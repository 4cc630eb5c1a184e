(** Model of functions/structural/stability_toe_berm/etemadshahidi2021.py
    for arrays with one axis *)
From Coq Require Import Reals String List Bool.
From Verif.Lib Require Import Num Monad Arr ArrLoop.
From Verif.Model Require Import CoreUtility ArrCore.
Open Scope string_scope.
Open Scope arr_scope.

Definition formula : string := "Etemad-Shahidi et al. (2021)".

(** etemadshahidi2021.py:9-161.  Line 65 calls calculate_wave_steepness_s with
    the keyword Tmm10, which that function does not have: python raises
    TypeError. *)
Definition check_validity
    (Hs Tmm10 h ht Bt Dn50 m Nod cot_alpha_armour_slope rho_armour rho_water : nums) : M unit :=
  when (given cot_alpha_armour_slope)
    (acheck "Armour slope cot_alpha_armour_slope" formula cot_alpha_armour_slope #1.5 #2) ;;
  when (given Hs && given Tmm10) (raise TypeError) ;;
  when (given h && given ht)
    (acheck "Relative water depth above the toe ht/h" formula (ht / h) #0.39 #0.88) ;;
  when (given Hs && given ht)
    (acheck "Relative water depth above the toe ht/Hs" formula (ht / Hs) #0.48 #2.58) ;;
  when (given Dn50 && given ht)
    (acheck "Relative water depth above the toe ht/Dn50" formula (ht / Dn50) #1.97 #23.40) ;;
  when (given Hs && given ht)
    (acheck "Relative toe width Bt/Hs" formula (Bt / Hs) #0.17 #1.92) ;;
  when (given h && given Hs)
    (acheck "Relative water depth h/Hs" formula (h / Hs) #1.22 #3) ;;
  when (given Hs && given Dn50)
    (Ns <- calculate_stability_number_Ns Hs Dn50 rho_armour rho_water ;;
     acheck "Stability number Ns" formula Ns #1.58 #10) ;;
  when (given rho_armour)
    (Delta <- calculate_buoyant_density_Delta rho_armour rho_water ;;
     acheck "Buoyant density Delta" formula Delta #1.65 #1.75) ;;
  when (given m)
    (acheck "Foreshore slope m" formula m #0.02 #0.10) ;;
  when (given Nod)
    (acheck "Damage parameter Nod" formula Nod #0.5 #3.79).

(** check_validity(Hs=Hs, ht=ht), lines 251 and 341 *)
Definition check_validity_Hs_ht (Hs ht : nums) : M unit :=
  check_validity Hs anan anan ht anan anan anan anan anan anan #1025.

(** etemadshahidi2021.py:164-253.  c1..c7 are the coefficients. *)
Definition calculate_damage_Nod
    (Hs Tmm10 h ht Bt m Dn50 rho_rock rho_water g c1 c2 c3 c4 c5 c6 c7 : nums) : M nums :=
  smm10 <- calculate_wave_steepness_s Hs Tmm10 g ;;
  Ns <- calculate_stability_number_Ns Hs Dn50 rho_rock rho_water ;;
  Nod <-
    apow
      ((Ns - c1)
       * (#1 / c2)
       * apow (ht / h) (- c3)
       * apow smm10 (- c4)
       * apow (Bt / Hs) (- c6)
       * (#1 / (#1 - c7 * m)))
      (#1 / c5) ;;
  check_validity_Hs_ht Hs ht ;;
  ret Nod.

(** etemadshahidi2021.py:256-343 *)
Definition calculate_nominal_diameter_Dn50
    (Hs Tmm10 h ht Bt Nod m rho_rock rho_water g c1 c2 c3 c4 c5 c6 c7 : nums) : M nums :=
  Delta <- calculate_buoyant_density_Delta rho_rock rho_water ;;
  smm10 <- calculate_wave_steepness_s Hs Tmm10 g ;;
  Dn50 <-
    (Hs / Delta)
    * apow
        (c1
         + c2
           * apow (ht / h) c3
           * apow smm10 c4
           * apow Nod c5
           * apow (Bt / Hs) c6
           * (#1 - c7 * m))
        (- #1) ;;
  check_validity_Hs_ht Hs ht ;;
  ret Dn50.

(** The assignment of the loop, etemadshahidi2021.py:435-447; the coefficients
    are floats *)
Definition Hs_step (Delta Dn50 h ht Bt Nod m : nums) (c1 c2 c3 c4 c5 c6 c7 : num) (Hs smm10 : nums) : M nums :=
  Delta
  * Dn50
  * (float c1
     + float c2
       * apow (ht / h) (float c3)
       * apow smm10 (float c4)
       * apow Nod (float c5)
       * apow (Bt / Hs) (float c6)
       * (#1 - float c7 * m)).

(** The while loop, etemadshahidi2021.py:433-452, [step] as above and [steepness]
    line 452.  [n_iter] is never incremented, so the loop is bounded by [fuel] in
    the model only. *)
Fixpoint Hs_loop (fuel : nat) (step : nums -> nums -> M nums) (steepness : nums -> M nums)
    (n_iter max_iter : nat) (Hs Hs_prev Hs_diff smm10 : nums) : M nums :=
  most <- greatest Hs_diff ;;
  if andb (ngt most (Fin 1e-3)) (Nat.ltb n_iter max_iter) then
    match fuel with
    | O => raise OutOfFuel
    | S fuel =>
        Hs <- step Hs smm10 ;;
        Hs_diff <- aabs (Hs - Hs_prev) ;;
        smm10 <- steepness Hs ;;
        Hs_loop fuel step steepness n_iter max_iter Hs Hs Hs_diff smm10
    end
  else ret Hs.

(** etemadshahidi2021.py:346-454; g, the coefficients and the initial steepness are floats *)
Definition calculate_significant_wave_height_Hs (fuel : nat)
    (Tmm10 h ht Bt Nod m Dn50 rho_rock rho_water : nums) (g c1 c2 c3 c4 c5 c6 c7 smm10_init : num)
    (max_iter : nat) : M nums :=
  Delta <- calculate_buoyant_density_Delta rho_rock rho_water ;;
  Hs_init <- float smm10_init * apow Tmm10 #2 * float g / (#2 * api) ;;
  Hs_loop fuel (Hs_step Delta Dn50 h ht Bt Nod m c1 c2 c3 c4 c5 c6 c7)
    (fun Hs => calculate_wave_steepness_s Hs Tmm10 (float g))
    0 max_iter Hs_init Hs_init (Sc PInf) (Sc smm10_init).
