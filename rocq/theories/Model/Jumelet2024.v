(** Model of functions/structural/stability_rock_armour/jumelet2024.py *)
From Coq Require Import Reals String List Bool.
From Verif.Lib Require Import Num Monad.
From Verif.Model Require Import CoreUtility CorePhysics.
Open Scope string_scope.
Open Scope num_scope.

Definition ju24 : string := "Jumelet et al., 2024".

(** jumelet2024.py:9-77 *)
Definition check_validity_range (Hs Tmm10 N_waves cot_alpha : num) : M unit :=
  when (provided Hs && provided Tmm10)
    (check "Wave steepness sm-1,0" ju24 (calculate_wave_steepness_s Hs Tmm10 g_default) #0.009 #0.057) ;;
  when (provided Hs && provided Tmm10 && provided cot_alpha)
    (check "Iribarren number ksi_m-1,0" ju24 (calculate_Iribarren_number_ksi Hs Tmm10 cot_alpha) #0.42 #1.66) ;;
  when (provided cot_alpha)
    (check "Cotangent of outer structure slope cot_alpha" ju24 cot_alpha #6 #10) ;;
  when (provided N_waves) (check "Number of waves N_waves" ju24 N_waves #250 #20000).

(** jumelet2024.py:319-341 *)
Definition calculate_fraction_plunging_waves_Fp (ksi_mm10 : num) : num :=
  - #1.7 * npow ksi_mm10 #2 + #3.2 * ksi_mm10 - #0.5.

(** jumelet2024.py:80-147 *)
Definition calculate_damage_number_S
    (Hs Tmm10 N_waves cot_alpha rho_armour Dn50 M50 c_pl rho_water : num) : M num :=
  Dn50 <- check_usage_Dn50_or_M50 Dn50 M50 rho_armour ;;
  let ksi_mm10 := calculate_Iribarren_number_ksi Hs Tmm10 cot_alpha in
  let Ns := calculate_stability_number_Ns Hs Dn50 rho_armour rho_water in
  let Fp := calculate_fraction_plunging_waves_Fp ksi_mm10 in
  let N_plunging := nround (Fp * N_waves) in
  let S := npow (Ns * ksi_mm10 * npow N_plunging #0.1 * (#1 / c_pl)) #5 in
  check_validity_range Hs Tmm10 N_waves cot_alpha ;;
  ret S.

(** jumelet2024.py:150-214 *)
Definition calculate_nominal_rock_diameter_Dn50
    (Hs Tmm10 N_waves cot_alpha rho_armour S c_pl : num) : M num :=
  let ksi_mm10 := calculate_Iribarren_number_ksi Hs Tmm10 cot_alpha in
  let Delta := calculate_buoyant_density_Delta rho_armour #1025 in
  let Fp := calculate_fraction_plunging_waves_Fp ksi_mm10 in
  let N_plunging := nround (Fp * N_waves) in
  let Dn50 := (Hs / Delta) * ksi_mm10 * npow N_plunging #0.1 * (#1 / c_pl) * npow S (- #0.2) in
  check_validity_range Hs Tmm10 N_waves cot_alpha ;;
  ret Dn50.

(** The loop at jumelet2024.py:282-308: [todo] is max_iter - n_iter, [cur] the
    variable Hs (None: not yet bound); [step ksi] is the body up to line 301. *)
Fixpoint wave_height_loop (step : num -> num) (Tmm10 cot_alpha tolerance : num) (todo : nat)
    (Hs_prev Hs_diff ksi_mm10 : num) (cur : option num) : option num :=
  if Hs_diff >? tolerance then
    match todo with
    | O => cur
    | S todo =>
        let Hs := step ksi_mm10 in
        wave_height_loop step Tmm10 cot_alpha tolerance todo Hs (nabs (Hs - Hs_prev))
          (calculate_Iribarren_number_ksi Hs Tmm10 cot_alpha) (Some Hs)
    end
  else cur.

(** jumelet2024.py:217-316 *)
Definition calculate_significant_wave_height_Hs
    (Tmm10 N_waves cot_alpha rho_armour S Dn50 M50 c_pl g smm10_init : num) (max_iter : nat) (tolerance : num) : M num :=
  Dn50 <- check_usage_Dn50_or_M50 Dn50 M50 rho_armour ;;
  let Hs_init := smm10_init * npow Tmm10 #2 * g / (#2 * npi) in
  let ksi_mm10 := calculate_Iribarren_number_ksi Hs_init Tmm10 cot_alpha in
  let Delta := calculate_buoyant_density_Delta rho_armour #1025 in
  let step ksi_mm10 :=
    let Fp := calculate_fraction_plunging_waves_Fp ksi_mm10 in
    let N_plunging := nround (Fp * N_waves) in
    npow
      (c_pl * npow S #0.2 * npow N_plunging (- #0.1) * cot_alpha
       * nsqrt ((#2 * npi / g) * npow Tmm10 (- #2)) * Delta * Dn50)
      #2 in
  Hs <- match wave_height_loop step Tmm10 cot_alpha tolerance max_iter Hs_init PInf ksi_mm10 None with
        | Some Hs => ret Hs
        | None => raise UnboundLocalError
        end ;;
  check_validity_range Hs Tmm10 N_waves cot_alpha ;;
  ret Hs.

(** Defaults, lines 88, 225-229 *)
Definition c_pl_default : num := #4.3.
Definition smm10_init_default : num := #0.03.
