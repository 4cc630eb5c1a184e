(** Model of functions/hydraulic/wave_overtopping/vangent2025.py for arrays with at
    most one axis.  Gravity, the tolerance and the switches are single values. *)
From Coq Require Import Reals String List Bool.
From Verif.Lib Require Import Num Monad Arr ArrFlags ArrLoop.
From Verif.Model Require Import ArrCore.
From Verif.Model Require VanGent2025.
Open Scope string_scope.
Open Scope arr_scope.

(** vangent2025.py:9-166 *)
Definition check_validity_range (Hm0 Hm0_deep Tmm10 beta h cot_alpha Dn50 Rc Ac Gc B_berm db : nums) : M unit :=
  when (given cot_alpha)
    (acheck "Cotangent alpha slope" "Van Gent et al. (2025)" cot_alpha #1.5 #8) ;;
  when (given Hm0 && given Tmm10)%bool
    (acheck "Wave steepness sm-1,0" "Van Gent et al. (2025)"
       (calculate_wave_steepness_s Hm0 Tmm10 g_default) #0.001 #0.042) ;;
  when (given Hm0 && given Tmm10 && given cot_alpha)%bool
    (acheck "Iribarren number ksi_m-1,0" "Van Gent et al. (2025)"
       (calculate_Iribarren_number_ksi Hm0 Tmm10 cot_alpha) #0.05 #6) ;;
  when (given Hm0 && given h)%bool
    (acheck "Relative water depth h / Hm0" "Van Gent et al. (2025)" (h / Hm0) #0.6 #5) ;;
  when (given Hm0_deep && given h)%bool
    (acheck "Ratio Hm0_deep / h" "Van Gent et al. (2025)" (Hm0_deep / h) #0 #1) ;;
  when (given Hm0 && given Rc)%bool
    (acheck "Non-dimensional crest freeboard Rc / Hm0" "Van Gent et al. (2025)" (Rc / Hm0) #0.6 #5) ;;
  when (given Hm0 && given Dn50)%bool
    (acheck "Non-dimensional stone diameter Dn50 / Hm0" "Van Gent et al. (2025)" (Dn50 / Hm0) #0.12 #0.9) ;;
  when (given Hm0 && given Rc && given Ac)%bool
    (acheck "Non-dimensional protruding part of crest wall (Rc - Ac) / Hm0" "Van Gent et al. (2025)"
       ((Rc - Ac) / Hm0) #0 #0.68) ;;
  when (given Hm0 && given Gc)%bool
    (acheck "Non-dimensional armour width in front of crest wall Gc / Hm0" "Van Gent et al. (2025)"
       (Rc / Hm0) #0.6 #5) ;;
  when (given Hm0 && given Rc)%bool
    (acheck "Non-dimensional Berm width B / Hm0" "Van Gent et al. (2025)" (B_berm / Hm0) #0.6 #5) ;;
  when (given Hm0 && given Rc)%bool
    (acheck "Non-dimensional Berm height db / Hm0" "Van Gent et al. (2025)" (db / Hm0) (- #1.7)%num #0.5) ;;
  when (given beta)
    (acheck "Incident wave angle beta" "Van Gent et al. (2025)" beta #0 #75).

(** vangent2025.py:480-523, default coefficients *)
Definition calculate_influence_friction_gamma_f (Dn50 Hm0 smm10 : nums) : M nums :=
  gamma_f1 <- #1 - #0.70 * apow (Dn50 / Hm0) #0.05 ;;
  where_ (smm10 >=? #0.012) gamma_f1 (gamma_f1 + #12 * (#0.012 - smm10) * (#1 - gamma_f1)).

(** vangent2025.py:526-574, default coefficients *)
Definition calculate_influence_berm_gamma_b (Hm0 smm10 Ac B_berm BL : nums) : M nums :=
  #1 - #18 * apow (smm10 * B_berm / Hm0) #1.3 * (#1 - #0.34 * apow (BL / (smm10 * Ac)) #0.2).

(** vangent2025.py:577-602, default coefficient *)
Definition calculate_influence_oblique_waves_gamma_beta (beta : nums) : M nums :=
  (#1 - #0.35) * apow (acos (adeg2rad beta)) #2 + #0.35.

(** vangent2025.py:605-641, default coefficient *)
Definition calculate_influence_crest_wall_gamma_v (cot_alpha Rc Ac : nums) : M nums :=
  where_ (cot_alpha <=? #4)
    (#1 + #0.45 * (Rc - Ac) / Rc)
    (#1 + #0.1125 * cot_alpha * (Rc - Ac) / Rc).

(** vangent2025.py:644-676, default coefficients *)
Definition calculate_influence_wind_gamma_w (Rc Ac Hm0 q_diml : nums) : M nums :=
  hc <- Rc - Ac ;;
  #1 + #0.075 * (hc / Hm0) * apow q_diml (- #0.3).

(** vangent2025.py:409-477, default coefficients *)
Definition q_diml_max_equation
    (Hm0 Hm0_swell ksi_mm10 cot_alpha Rc gamma_f gamma_b gamma_v gamma_beta : nums) : M nums :=
  #0.8 * apow cot_alpha (- #1)
  * aexp (- #2.5 * (Rc - #0.4 * Hm0_swell)
          / (gamma_f * gamma_b * gamma_v * gamma_beta * apow ksi_mm10 #0.24 * Hm0)).

(** Lines 334-335 and 851-852 *)
Definition factor_beta (beta gamma_beta : nums) : M nums :=
  missing <- is_nan gamma_beta ;;
  if missing : bool then calculate_influence_oblique_waves_gamma_beta beta else gamma_beta.

(** Lines 341-349 and 858-866 *)
Definition factor_b (Hm0 Tmm10 Ac B_berm db gamma_b : nums) : M nums :=
  missing <- is_nan gamma_b ;;
  if missing : bool then
    smm10 <- calculate_wave_steepness_s Hm0 Tmm10 g_default ;;
    BL <- Ac - db ;;
    calculate_influence_berm_gamma_b Hm0 smm10 Ac B_berm BL
  else gamma_b.

(** Lines 351-355 and 868-872 *)
Definition factor_f (Hm0 Tmm10 Dn50 gamma_f : nums) : M nums :=
  missing <- is_nan gamma_f ;;
  if missing : bool then
    unknown <- is_nan Dn50 ;;
    if unknown : bool then raise ValueError
    else
      smm10 <- calculate_wave_steepness_s Hm0 Tmm10 g_default ;;
      calculate_influence_friction_gamma_f Dn50 Hm0 smm10
  else gamma_f.

(** Lines 357-365 *)
Definition q_diml_equation
    (Hm0 Hm0_swell ksi_mm10 cot_alpha Rc gamma_f gamma_b gamma_v gamma_beta : nums) : M nums :=
  #6.8 * apow cot_alpha (- #1)
  * aexp (- #5 * (Rc - #0.4 * Hm0_swell) / (gamma_f * gamma_b * gamma_v * gamma_beta * ksi_mm10 * Hm0)).

(** Lines 382-392 *)
Definition after_minimum (Hm0 Rc Ac : nums) (design_calculation include_influence_wind : bool) (q_diml : nums) : M nums :=
  q_diml <-
    (if include_influence_wind then
       gamma_w <- calculate_influence_wind_gamma_w Rc Ac Hm0 q_diml ;;
       q_diml * gamma_w
     else q_diml) ;;
  if design_calculation then apow q_diml #0.857 else q_diml.

(** vangent2025.py:262-406 *)
Definition calculate_dimensionless_overtopping_discharge_q
    (Hm0 Hm0_swell Tmm10 Rc Ac cot_alpha beta B_berm db Dn50 gamma_f gamma_b gamma_v gamma_beta : nums)
    (design_calculation include_influence_wind : bool) : M (nums * arr bool) :=
  gamma_beta <- factor_beta beta gamma_beta ;;
  ksi_mm10 <- calculate_Iribarren_number_ksi Hm0 Tmm10 cot_alpha ;;
  gamma_b <- factor_b Hm0 Tmm10 Ac B_berm db gamma_b ;;
  gamma_f <- factor_f Hm0 Tmm10 Dn50 gamma_f ;;
  q_diml_eqB1 <- q_diml_equation Hm0 Hm0_swell ksi_mm10 cot_alpha Rc gamma_f gamma_b gamma_v gamma_beta ;;
  q_diml_max <- q_diml_max_equation Hm0 Hm0_swell ksi_mm10 cot_alpha Rc gamma_f gamma_b gamma_v gamma_beta ;;
  q_diml <- stacked_min q_diml_eqB1 q_diml_max ;;
  max_reached <- (stacked_min q_diml_eqB1 q_diml_max =? q_diml_max) ;;
  q_diml <- after_minimum Hm0 Rc Ac design_calculation include_influence_wind q_diml ;;
  check_validity_range Hm0 anan Tmm10 beta anan cot_alpha Dn50 Rc Ac anan B_berm db ;;
  ret (q_diml, max_reached).

(** vangent2025.py:169-259 *)
Definition calculate_overtopping_discharge_q
    (Hm0 Hm0_swell Tmm10 Rc Ac cot_alpha beta B_berm db Dn50 gamma_f gamma_b gamma_v gamma_beta : nums) (g : num)
    (design_calculation include_influence_wind : bool) : M (nums * arr bool) :=
  diml <- calculate_dimensionless_overtopping_discharge_q Hm0 Hm0_swell Tmm10 Rc Ac cot_alpha beta B_berm db Dn50
            gamma_f gamma_b gamma_v gamma_beta design_calculation include_influence_wind ;;
  q <- fst diml * asqrt (float g * apow Hm0 #3) ;;
  ret (q, snd diml).

(** vangent2025.py:949-1014, default coefficients *)
Definition Rc_diml_max_equation
    (Hm0 Hm0_swell q cot_alpha ksi_mm10 gamma_f gamma_b gamma_v gamma_beta g : nums) : M nums :=
  alog (#1 / #0.8 * cot_alpha * q / asqrt (g * apow Hm0 #3))
  * (#1 / - #2.5) * gamma_f * gamma_b * gamma_v * gamma_beta * apow ksi_mm10 #0.24
  + #0.4 * Hm0_swell / Hm0.

(** Lines 879-888 and 906-915 *)
Definition Rc_diml_equation
    (Hm0 Hm0_swell q_diml cot_alpha ksi_mm10 gamma_f gamma_b gamma_v gamma_beta : nums) : M nums :=
  alog (#1 / #6.8 * cot_alpha * q_diml)
  * (- #1 / #5) * gamma_f * gamma_b * gamma_v * gamma_beta * ksi_mm10
  + #0.4 * Hm0_swell / Hm0.

(** The body of the loop, lines 896-915 *)
Definition wind_step
    (Hm0 Hm0_swell q_diml Ac cot_alpha ksi_mm10 gamma_f gamma_b gamma_v gamma_beta Rc_diml : nums) : M nums :=
  Rc <- Rc_diml * Hm0 ;;
  gamma_w <- calculate_influence_wind_gamma_w Rc Ac Hm0 q_diml ;;
  q_diml_iter <- q_diml / gamma_w ;;
  Rc_diml_equation Hm0 Hm0_swell q_diml_iter cot_alpha ksi_mm10 gamma_f gamma_b gamma_v gamma_beta.

(** vangent2025.py:770-946; the loop of lines 890-917 iterates all places together. *)
Definition calculate_dimensionless_crest_freeboard
    (Hm0 Hm0_swell Tmm10 q Ac cot_alpha beta B_berm db Dn50 gamma_f gamma_b gamma_v gamma_beta : nums) (g : num)
    (design_calculation include_influence_wind : bool) (max_iter : nat) (tolerance : num) : M (nums * arr bool) :=
  gamma_beta <- factor_beta beta gamma_beta ;;
  ksi_mm10 <- calculate_Iribarren_number_ksi Hm0 Tmm10 cot_alpha ;;
  gamma_b <- factor_b Hm0 Tmm10 Ac B_berm db gamma_b ;;
  gamma_f <- factor_f Hm0 Tmm10 Dn50 gamma_f ;;
  q_diml <- q / asqrt (float g * apow Hm0 #3) ;;
  q_diml <- (if design_calculation then apow q_diml (#1 / #0.857) else q_diml) ;;
  Rc_diml <- Rc_diml_equation Hm0 Hm0_swell q_diml cot_alpha ksi_mm10 gamma_f gamma_b gamma_v gamma_beta ;;
  Rc_diml <-
    (if include_influence_wind then
       last <- until_settled
                 (wind_step Hm0 Hm0_swell q_diml Ac cot_alpha ksi_mm10 gamma_f gamma_b gamma_v gamma_beta)
                 value_of tolerance max_iter Rc_diml Rc_diml (float PInf) (Some Rc_diml) ;;
       bound last
     else Rc_diml) ;;
  Rc_diml_max <- Rc_diml_max_equation Hm0 Hm0_swell q cot_alpha ksi_mm10 gamma_f gamma_b gamma_v gamma_beta g_default ;;
  lowest <- stacked_min Rc_diml Rc_diml_max ;;
  max_reached <- (stacked_min lowest Rc_diml_max =? Rc_diml_max) ;;
  Rc <- lowest * Hm0 ;;
  check_validity_range Hm0 anan Tmm10 beta anan cot_alpha Dn50 Rc Ac anan B_berm db ;;
  ret (lowest, max_reached).

(** vangent2025.py:679-767; the defaults of lines 788-789 are those of the scalar model. *)
Definition calculate_crest_freeboard_Rc
    (Hm0 Hm0_swell Tmm10 q Ac cot_alpha beta B_berm db Dn50 gamma_f gamma_b gamma_v gamma_beta : nums)
    (design_calculation include_influence_wind : bool) : M (nums * arr bool) :=
  diml <- calculate_dimensionless_crest_freeboard Hm0 Hm0_swell Tmm10 q Ac cot_alpha beta B_berm db Dn50
            gamma_f gamma_b gamma_v gamma_beta #9.81 design_calculation include_influence_wind
            VanGent2025.max_iter_default VanGent2025.tolerance_default ;;
  Rc <- fst diml * Hm0 ;;
  ret (Rc, snd diml).
