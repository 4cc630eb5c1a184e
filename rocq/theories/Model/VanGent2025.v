(** Model of functions/hydraulic/wave_overtopping/vangent2025.py, for scalar
    arguments. *)
From Coq Require Import Reals String List Bool.
From Verif.Lib Require Import Num Monad.
From Verif.Model Require Import CoreUtility CorePhysics Numpy.
Open Scope string_scope.
Open Scope num_scope.

(** vangent2025.py:9-166.  The check named after Gc tests Rc/Hm0 (line 138), and
    the two checks of the berm are made when Rc is given (lines 143 and 152). *)
Definition check_validity_range (Hm0 Hm0_deep Tmm10 beta h cot_alpha Dn50 Rc Ac Gc B_berm db : num) : M unit :=
  when (provided cot_alpha)
    (check "Cotangent alpha slope" "Van Gent et al. (2025)" cot_alpha #1.5 #8) ;;
  when (provided Hm0 && provided Tmm10)
    (check "Wave steepness sm-1,0" "Van Gent et al. (2025)"
       (calculate_wave_steepness_s Hm0 Tmm10 g_default) #0.001 #0.042) ;;
  when (provided Hm0 && provided Tmm10 && provided cot_alpha)
    (check "Iribarren number ksi_m-1,0" "Van Gent et al. (2025)"
       (calculate_Iribarren_number_ksi Hm0 Tmm10 cot_alpha) #0.05 #6) ;;
  when (provided Hm0 && provided h)
    (check "Relative water depth h / Hm0" "Van Gent et al. (2025)" (h / Hm0) #0.6 #5) ;;
  when (provided Hm0_deep && provided h)
    (check "Ratio Hm0_deep / h" "Van Gent et al. (2025)" (Hm0_deep / h) #0 #1) ;;
  when (provided Hm0 && provided Rc)
    (check "Non-dimensional crest freeboard Rc / Hm0" "Van Gent et al. (2025)" (Rc / Hm0) #0.6 #5) ;;
  when (provided Hm0 && provided Dn50)
    (check "Non-dimensional stone diameter Dn50 / Hm0" "Van Gent et al. (2025)" (Dn50 / Hm0) #0.12 #0.9) ;;
  when (provided Hm0 && provided Rc && provided Ac)
    (check "Non-dimensional protruding part of crest wall (Rc - Ac) / Hm0" "Van Gent et al. (2025)"
       ((Rc - Ac) / Hm0) #0 #0.68) ;;
  when (provided Hm0 && provided Gc)
    (check "Non-dimensional armour width in front of crest wall Gc / Hm0" "Van Gent et al. (2025)"
       (Rc / Hm0) #0.6 #5) ;;
  when (provided Hm0 && provided Rc)
    (check "Non-dimensional Berm width B / Hm0" "Van Gent et al. (2025)" (B_berm / Hm0) #0.6 #5) ;;
  when (provided Hm0 && provided Rc)
    (check "Non-dimensional Berm height db / Hm0" "Van Gent et al. (2025)" (db / Hm0) (- #1.7) #0.5) ;;
  when (provided beta)
    (check "Incident wave angle beta" "Van Gent et al. (2025)" beta #0 #75).

(** vangent2025.py:480-523, default coefficients *)
Definition calculate_influence_friction_gamma_f (Dn50 Hm0 smm10 : num) : num :=
  let gamma_f1 := #1 - #0.70 * npow (Dn50 / Hm0) #0.05 in
  if smm10 >=? #0.012 then gamma_f1
  else gamma_f1 + #12 * (#0.012 - smm10) * (#1 - gamma_f1).

(** vangent2025.py:526-574, default coefficients *)
Definition calculate_influence_berm_gamma_b (Hm0 smm10 Ac B_berm BL : num) : num :=
  #1 - #18 * npow (smm10 * B_berm / Hm0) #1.3 * (#1 - #0.34 * npow (BL / (smm10 * Ac)) #0.2).

(** vangent2025.py:577-602, default coefficient *)
Definition calculate_influence_oblique_waves_gamma_beta (beta : num) : num :=
  (#1 - #0.35) * npow (ncos (deg2rad beta)) #2 + #0.35.

(** vangent2025.py:605-641, default coefficient *)
Definition calculate_influence_crest_wall_gamma_v (cot_alpha Rc Ac : num) : num :=
  if cot_alpha <=? #4 then #1 + #0.45 * (Rc - Ac) / Rc
  else #1 + #0.1125 * cot_alpha * (Rc - Ac) / Rc.

(** vangent2025.py:644-676, default coefficients *)
Definition calculate_influence_wind_gamma_w (Rc Ac Hm0 q_diml : num) : num :=
  let hc := Rc - Ac in
  #1 + #0.075 * (hc / Hm0) * npow q_diml (- #0.3).

(** vangent2025.py:409-477, default coefficients *)
Definition q_diml_max_equation
    (Hm0 Hm0_swell ksi_mm10 cot_alpha Rc gamma_f gamma_b gamma_v gamma_beta : num) : num :=
  #0.8 * npow cot_alpha (- #1)
  * nexp (- #2.5 * (Rc - #0.4 * Hm0_swell)
          / (gamma_f * gamma_b * gamma_v * gamma_beta * npow ksi_mm10 #0.24 * Hm0)).

(** Lines 334-355 and 851-872: the influence factors left out by the caller. *)
Definition factor_beta (beta gamma_beta : num) : num :=
  if isnan gamma_beta then calculate_influence_oblique_waves_gamma_beta beta else gamma_beta.
Definition factor_b (Hm0 Tmm10 Ac B_berm db gamma_b : num) : num :=
  if isnan gamma_b then
    calculate_influence_berm_gamma_b Hm0 (calculate_wave_steepness_s Hm0 Tmm10 g_default) Ac B_berm (Ac - db)
  else gamma_b.
Definition factor_f (Hm0 Tmm10 Dn50 gamma_f : num) : M num :=
  if isnan gamma_f then
    if isnan Dn50 then raise ValueError
    else ret (calculate_influence_friction_gamma_f Dn50 Hm0 (calculate_wave_steepness_s Hm0 Tmm10 g_default))
  else ret gamma_f.

(** vangent2025.py:262-406 *)
Definition calculate_dimensionless_overtopping_discharge_q
    (Hm0 Hm0_swell Tmm10 Rc Ac cot_alpha beta B_berm db Dn50 gamma_f gamma_b gamma_v gamma_beta : num)
    (design_calculation include_influence_wind : bool) : M (num * bool) :=
  let gamma_beta := factor_beta beta gamma_beta in
  let ksi_mm10 := calculate_Iribarren_number_ksi Hm0 Tmm10 cot_alpha in
  let gamma_b := factor_b Hm0 Tmm10 Ac B_berm db gamma_b in
  gamma_f <- factor_f Hm0 Tmm10 Dn50 gamma_f ;;
  let q_diml_eqB1 :=
    #6.8 * npow cot_alpha (- #1)
    * nexp (- #5 * (Rc - #0.4 * Hm0_swell) / (gamma_f * gamma_b * gamma_v * gamma_beta * ksi_mm10 * Hm0)) in
  let q_diml_max :=
    q_diml_max_equation Hm0 Hm0_swell ksi_mm10 cot_alpha Rc gamma_f gamma_b gamma_v gamma_beta in
  let q_diml := nmin q_diml_eqB1 q_diml_max in
  let max_reached := nmin q_diml_eqB1 q_diml_max =? q_diml_max in
  let q_diml :=
    if include_influence_wind then q_diml * calculate_influence_wind_gamma_w Rc Ac Hm0 q_diml else q_diml in
  let q_diml := if design_calculation then npow q_diml #0.857 else q_diml in
  check_validity_range Hm0 NaN Tmm10 beta NaN cot_alpha Dn50 Rc Ac NaN B_berm db ;;
  ret (q_diml, max_reached).

(** vangent2025.py:169-259 *)
Definition calculate_overtopping_discharge_q
    (Hm0 Hm0_swell Tmm10 Rc Ac cot_alpha beta B_berm db Dn50 gamma_f gamma_b gamma_v gamma_beta g : num)
    (design_calculation include_influence_wind : bool) : M (num * bool) :=
  '(q_diml, max_reached) <-
    calculate_dimensionless_overtopping_discharge_q Hm0 Hm0_swell Tmm10 Rc Ac cot_alpha beta B_berm db Dn50
      gamma_f gamma_b gamma_v gamma_beta design_calculation include_influence_wind ;;
  ret (q_diml * nsqrt (g * npow Hm0 #3), max_reached).

(** vangent2025.py:949-1014, default coefficients *)
Definition Rc_diml_max_equation
    (Hm0 Hm0_swell q cot_alpha ksi_mm10 gamma_f gamma_b gamma_v gamma_beta g : num) : num :=
  nlog (#1 / #0.8 * cot_alpha * q / nsqrt (g * npow Hm0 #3))
  * (#1 / - #2.5) * gamma_f * gamma_b * gamma_v * gamma_beta * npow ksi_mm10 #0.24
  + #0.4 * Hm0_swell / Hm0.

(** Lines 879-888 and 906-915 *)
Definition Rc_diml_equation
    (Hm0 Hm0_swell q_diml cot_alpha ksi_mm10 gamma_f gamma_b gamma_v gamma_beta : num) : num :=
  nlog (#1 / #6.8 * cot_alpha * q_diml)
  * (- #1 / #5) * gamma_f * gamma_b * gamma_v * gamma_beta * ksi_mm10
  + #0.4 * Hm0_swell / Hm0.

(** The loop of lines 890-917; [n] is the number of iterations left of
    max_iter. *)
Fixpoint wind_iterations (step : num -> num) (tolerance : num) (n : nat) (Rc_diml Rc_diff : num) : num :=
  if Rc_diff >? tolerance then
    match n with
    | O => Rc_diml
    | S n =>
        let Rc_diml_prev := Rc_diml in
        let Rc_diml := step Rc_diml_prev in
        wind_iterations step tolerance n Rc_diml (nabs (Rc_diml - Rc_diml_prev))
    end
  else Rc_diml.

(** vangent2025.py:770-946.  Line 919 does not pass [g] on to
    Rc_diml_max_equation, nor the discharge adjusted at line 877. *)
Definition calculate_dimensionless_crest_freeboard
    (Hm0 Hm0_swell Tmm10 q Ac cot_alpha beta B_berm db Dn50 gamma_f gamma_b gamma_v gamma_beta g : num)
    (design_calculation include_influence_wind : bool) (max_iter : nat) (tolerance : num) : M (num * bool) :=
  let gamma_beta := factor_beta beta gamma_beta in
  let ksi_mm10 := calculate_Iribarren_number_ksi Hm0 Tmm10 cot_alpha in
  let gamma_b := factor_b Hm0 Tmm10 Ac B_berm db gamma_b in
  gamma_f <- factor_f Hm0 Tmm10 Dn50 gamma_f ;;
  let q_diml := q / nsqrt (g * npow Hm0 #3) in
  let q_diml := if design_calculation then npow q_diml (#1 / #0.857) else q_diml in
  let Rc_diml :=
    Rc_diml_equation Hm0 Hm0_swell q_diml cot_alpha ksi_mm10 gamma_f gamma_b gamma_v gamma_beta in
  let Rc_diml :=
    if include_influence_wind then
      wind_iterations (fun Rc_diml =>
        let gamma_w := calculate_influence_wind_gamma_w (Rc_diml * Hm0) Ac Hm0 q_diml in
        let q_diml_iter := q_diml / gamma_w in
        Rc_diml_equation Hm0 Hm0_swell q_diml_iter cot_alpha ksi_mm10 gamma_f gamma_b gamma_v gamma_beta)
        tolerance max_iter Rc_diml PInf
    else Rc_diml in
  let Rc_diml_max :=
    Rc_diml_max_equation Hm0 Hm0_swell q cot_alpha ksi_mm10 gamma_f gamma_b gamma_v gamma_beta g_default in
  let Rc_diml := nmin Rc_diml Rc_diml_max in
  let max_reached := nmin Rc_diml Rc_diml_max =? Rc_diml_max in
  check_validity_range Hm0 NaN Tmm10 beta NaN cot_alpha Dn50 (Rc_diml * Hm0) Ac NaN B_berm db ;;
  ret (Rc_diml, max_reached).

(** Defaults of max_iter and tolerance (lines 788-789), which the next function
    relies on. *)
Definition max_iter_default : nat := 1000.
Definition tolerance_default : num := Fin (1 / 100000).

(** vangent2025.py:679-767 (no gravity among the arguments) *)
Definition calculate_crest_freeboard_Rc
    (Hm0 Hm0_swell Tmm10 q Ac cot_alpha beta B_berm db Dn50 gamma_f gamma_b gamma_v gamma_beta : num)
    (design_calculation include_influence_wind : bool) : M (num * bool) :=
  '(Rc_diml, max_reached) <-
    calculate_dimensionless_crest_freeboard Hm0 Hm0_swell Tmm10 q Ac cot_alpha beta B_berm db Dn50
      gamma_f gamma_b gamma_v gamma_beta g_default design_calculation include_influence_wind
      max_iter_default tolerance_default ;;
  ret (Rc_diml * Hm0, max_reached).

(** Defaults, lines 175-186, 268-278, 685-695 and 776-787. *)
Definition B_berm_default : num := #0.
Definition db_default : num := #0.
Definition gamma_v_default : num := NaN.
