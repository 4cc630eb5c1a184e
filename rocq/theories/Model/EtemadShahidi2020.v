(** Model of functions/structural/stability_rock_armour/etemadshahidi2020.py *)
From Coq Require Import Reals String List Bool.
From Verif.Lib Require Import Num Monad.
From Verif.Model Require Import CoreUtility CorePhysics.
Open Scope string_scope.
Open Scope num_scope.

Definition es20 : string := "Etemad-Shahidi et al., 2020".

(** etemadshahidi2020.py:9-155.  Lines 110-112 compute an unused number. *)
Definition check_validity_range
    (Hs Tmm10 N_waves cot_alpha P S Dn50 Dn50_core rho_armour rho_water : num) : M unit :=
  when (provided Hs && provided Tmm10)
    (check "Wave steepness sm-1,0" es20 (calculate_wave_steepness_s Hs Tmm10 g_default) #0.003 #0.088) ;;
  when (provided Hs && provided Tmm10 && provided cot_alpha)
    (check "Iribarren number ksi_m-1,0" es20 (calculate_Iribarren_number_ksi Hs Tmm10 cot_alpha) #0.65 #8.18) ;;
  when (provided cot_alpha)
    (check "Cotangent of outer structure slope cot_alpha" es20 cot_alpha #1.5 #6) ;;
  when (provided N_waves) (check "Number of waves N_waves" es20 N_waves #500 #5000) ;;
  when (provided rho_armour)
    (check "Buoyant density Delta" es20 (calculate_buoyant_density_Delta rho_armour rho_water) #0.92 #2.05) ;;
  when (provided P) (check "Permeability P" es20 P #0.1 #0.6) ;;
  when (provided Dn50 && provided Dn50_core)
    (check "Relative core diameter Dn50_core / Dn50" es20 (Dn50_core / Dn50) #0 #1) ;;
  when (provided Hs && provided Dn50 && provided rho_armour)
    (check "Stability number Ns" es20 (calculate_stability_number_Ns Hs Dn50 rho_armour rho_water) #1 #4.3) ;;
  when (provided S) (check "Damage number S" es20 S #2 #12).

(** etemadshahidi2020.py:576-602 *)
Definition calculate_permeability_coefficient_Cp (Dn50 Dn50_core : num) : num :=
  npow (#1 + npow (Dn50_core / Dn50) (#3 / #10)) (#3 / #5).

(** etemadshahidi2020.py:222-228, repeated at 353-359 and 503-509 *)
Definition influence_depth (use_depth_limited_version : bool) (m : num) : M num :=
  if use_depth_limited_version then
    if isnan m then raise ValueError else ret (#1 - #3 * m)
  else ret #1.

(** etemadshahidi2020.py:158-281 *)
Definition calculate_damage_number_S
    (Hs Tmm10 N_waves cot_alpha rho_armour Dn50 M50 Dn50_core M50_core rho_core rho_water m : num)
    (use_depth_limited_version : bool) : M num :=
  influence_depth_limitation <- influence_depth use_depth_limited_version m ;;
  Dn50 <- check_usage_Dn50_or_M50 Dn50 M50 rho_armour ;;
  Dn50_core <- check_usage_Dn50_or_M50 Dn50_core M50_core rho_core ;;
  let ksi_mm10 := calculate_Iribarren_number_ksi Hs Tmm10 cot_alpha in
  let Ns := calculate_stability_number_Ns Hs Dn50 rho_armour rho_water in
  let Cp := calculate_permeability_coefficient_Cp Dn50 Dn50_core in
  let S_s :=
    npow (#1 / #3.9) #6 * npow Ns #6 * npow Cp (- #6) * npow N_waves #0.6
    * npow ksi_mm10 #2 * npow influence_depth_limitation (- #6) in
  let S_pl :=
    npow (#1 / #4.5) #6 * npow Ns #6 * npow Cp (- #6) * npow N_waves #0.6
    * npow ksi_mm10 (#7 / #2) * npow influence_depth_limitation (- #6) in
  let S := if ksi_mm10 >=? #1.8 then S_s else S_pl in
  check_validity_range Hs Tmm10 N_waves cot_alpha NaN S Dn50 Dn50_core rho_armour rho_water ;;
  ret S.

(** The loops at etemadshahidi2020.py:373-394 and 396-417; [formula] is the
    assignment to Dn50_s (Dn50_pl) as a function of Cp, [todo] is
    max_iter - n_iter, [cur] the local variable Dn50_s (None: not yet bound). *)
Fixpoint diameter_loop (formula : num -> num) (Dn50_core tolerance : num) (todo : nat)
    (prev diff Cp : num) (cur : option num) : option num :=
  if diff >? tolerance then
    match todo with
    | O => cur
    | S todo =>
        let Dn50 := formula Cp in
        let Cp := calculate_permeability_coefficient_Cp Dn50 Dn50_core in
        diameter_loop formula Dn50_core tolerance todo Dn50 (nabs (Dn50 - prev)) Cp (Some Dn50)
    end
  else cur.

Definition bound {A} (o : option A) : M A :=
  match o with Some a => ret a | None => raise UnboundLocalError end.

(** etemadshahidi2020.py:284-435 *)
Definition calculate_nominal_rock_diameter_Dn50
    (Hs Tmm10 N_waves cot_alpha rho_armour S Dn50_core M50_core rho_core m : num)
    (use_depth_limited_version : bool) (Cp_init : num) (max_iter : nat) (tolerance : num) : M num :=
  influence_depth_limitation <- influence_depth use_depth_limited_version m ;;
  Dn50_core <- check_usage_Dn50_or_M50 Dn50_core M50_core rho_core ;;
  let ksi_mm10 := calculate_Iribarren_number_ksi Hs Tmm10 cot_alpha in
  let Delta := calculate_buoyant_density_Delta rho_armour #1025 in
  let formula_s Cp :=
    (Hs / Delta) * (#1 / #3.9) * (#1 / Cp) * npow N_waves (#1 / #10) * npow S (- #1 / #6)
    * npow ksi_mm10 (#1 / #3) * npow influence_depth_limitation (- #1) in
  let formula_pl Cp :=
    (Hs / Delta) * (#1 / #4.5) * (#1 / Cp) * npow N_waves (#1 / #10) * npow S (- #1 / #6)
    * npow ksi_mm10 (#7 / #12) * npow influence_depth_limitation (- #1) in
  Dn50_s <- bound (diameter_loop formula_s Dn50_core tolerance max_iter PInf PInf Cp_init None) ;;
  Dn50_pl <- bound (diameter_loop formula_pl Dn50_core tolerance max_iter PInf PInf Cp_init None) ;;
  let Dn50 := if ksi_mm10 >=? #1.8 then Dn50_s else Dn50_pl in
  check_validity_range Hs Tmm10 N_waves cot_alpha NaN S Dn50 Dn50_core rho_armour #1025 ;;
  ret Dn50.

(** etemadshahidi2020.py:438-573 *)
Definition calculate_significant_wave_height_Hs
    (Tmm10 N_waves cot_alpha rho_armour S Dn50 M50 Dn50_core M50_core rho_core m : num)
    (use_depth_limited_version : bool) (g : num) : M num :=
  influence_depth_limitation <- influence_depth use_depth_limited_version m ;;
  Dn50 <- check_usage_Dn50_or_M50 Dn50 M50 rho_armour ;;
  Dn50_core <- check_usage_Dn50_or_M50 Dn50_core M50_core rho_core ;;
  let Delta := calculate_buoyant_density_Delta rho_armour #1025 in
  let Cp := calculate_permeability_coefficient_Cp Dn50 Dn50_core in
  let Hs_s :=
    npow
      (S * npow (#1 / #3.9) (- #6) * (#2 * npi / g) * npow Cp #6 * npow (Delta * Dn50) #6
       * npow Tmm10 (- #2) * npow cot_alpha #2 * npow N_waves (- #0.6)
       * npow influence_depth_limitation #6)
      (#1 / #5) in
  let Hs_pl :=
    npow
      (S * npow (#1 / #4.5) (- #6) * npow (#2 * npi / g) (#7 / #4) * npow Cp #6 * npow (Delta * Dn50) #6
       * npow Tmm10 (- #7 / #2) * npow cot_alpha (#7 / #2) * npow N_waves (- #0.6)
       * npow influence_depth_limitation #6)
      (#4 / #17) in
  let ksi_mm10_s := calculate_Iribarren_number_ksi Hs_s Tmm10 cot_alpha in
  let ksi_mm10_pl := calculate_Iribarren_number_ksi Hs_pl Tmm10 cot_alpha in
  let Hs := if (ksi_mm10_pl <? #1.8) && (ksi_mm10_s <? #1.8) then Hs_pl else Hs_s in
  check_validity_range Hs Tmm10 N_waves cot_alpha NaN S Dn50 Dn50_core rho_armour #1025 ;;
  ret Hs.
