(** Model of functions/hydraulic/wave_overtopping/taw2002.py for arrays with one
    axis.  The coefficients c2, c3, c_gamma_beta and max_angle are numbers, as in
    the signatures. *)
From Coq Require Import Reals String List Bool.
From Verif.Lib Require Import Num Monad Arr ArrFlags ArrLoop.
From Verif.Model Require RunupTAW2002 OvertoppingTAW2002.
From Verif.Model Require Import ArrCore ArrRunupTAW2002.
Import ListNotations.
Open Scope string_scope.
Open Scope arr_scope.

(** taw2002.py:12-130; a missing argument is NaN. *)
Definition check_validity_range
    (Hm0 Tmm10 beta cot_alpha cot_alpha_down cot_alpha_up gamma_f gamma_b gamma_beta gamma_v : nums) : M unit :=
  when (andb (given Hm0) (given Tmm10))
    (acheck "Wave steepness sm-1,0" "TAW (2002)" (calculate_wave_steepness_s Hm0 Tmm10 g_default) #0 #0.07) ;;
  when (andb (andb (given Hm0) (given Tmm10)) (given cot_alpha))
    (acheck "Iribarren number ksi_m-1,0" "TAW (2002)"
       (calculate_Iribarren_number_ksi Hm0 Tmm10 cot_alpha) #0 #7) ;;
  when (andb (andb (andb (given Hm0) (given Tmm10)) (given cot_alpha)) (given gamma_b))
    (acheck "gamma_b * ksi_m-1,0" "TAW (2002)"
       (gamma_b * calculate_Iribarren_number_ksi Hm0 Tmm10 cot_alpha) #0.5 #10) ;;
  when (given cot_alpha_down)
    (acheck "Cotangent alpha lower slope" "TAW (2002)" cot_alpha_down #1 #7) ;;
  when (given cot_alpha_up)
    (acheck "Cotangent alpha upper slope" "TAW (2002)" cot_alpha_up #1 #7) ;;
  when (given beta)
    (acheck "Incident wave angle beta" "TAW (2002)" beta #0 #90) ;;
  when (given gamma_b)
    (acheck "Influence factor berm gamma_b" "TAW (2002)" gamma_b #0.4 #1) ;;
  when (given gamma_f)
    (acheck "Influence factor roughness gamma_f" "TAW (2002)" gamma_f #0.4 #1) ;;
  when (given gamma_beta)
    (acheck "Influence factor oblique waves gamma_beta" "TAW (2002)" gamma_beta #0.4 #1) ;;
  when (given gamma_v)
    (acheck "Influence factor vertical wall gamma_v" "TAW (2002)" gamma_v #0.4 #1).

(** taw2002.py:400-444 *)
Definition q_diml_max_equation (Hm0 Rc gamma_beta gamma_f : nums) (c3 : num) (cor3 : nums) (c2 : num) : M nums :=
  float c2 * aexp (- #1 * (float c3 + cor3) * (Rc / Hm0) * (#1 / (gamma_f * gamma_beta))).

(** taw2002.py:447-476 *)
Definition calculate_influence_oblique_waves_gamma_beta (beta : nums) (c_gamma_beta max_angle : num) : M nums :=
  ArrRunupTAW2002.calculate_influence_oblique_waves_gamma_beta beta c_gamma_beta max_angle.

(** taw2002.py:479-499 *)
Definition calculate_influence_crest_wall_gamma_v (alpha_wall_deg : nums) : M nums :=
  where_ (alpha_wall_deg <=? #45) #1 (#1.35 - #0.0078 * alpha_wall_deg).

(** Lines 297-310 and 669-682: cor1 and cor3, or None where they stay unbound. *)
Definition corrections (sigma : nums) (use_best_fit : bool) : M (option (nums * nums)) :=
  zero <- holds (sigma =? #0) ;;
  if zero : bool then ret (Some (lit 0, lit 0))
  else if use_best_fit then cor1 <- #0.5 * sigma ;; cor3 <- #0.35 * sigma ;; ret (Some (cor1, cor3))
  else warn (WText OvertoppingTAW2002.sigma_warning) ;; ret None.

(** The slope, the Iribarren number and the influence factors *)
Record factors := { fac_gamma_beta : nums; fac_cot_alpha : nums; fac_ksi : nums; fac_gamma_b : nums; fac_gamma_f : nums }.

(** Lines 312-364 and 684-736, which are the same.  The iteration procedures get
    neither use_best_fit nor coefficients. *)
Definition influence_factors
    (Hm0 Tmm10 cot_alpha cot_alpha_down cot_alpha_up beta B_berm db gamma_beta gamma_b gamma_f : nums) : M factors :=
  calculate_gamma_beta <- check_calculate_gamma_beta beta gamma_beta ;;
  gamma_beta <-
    (if calculate_gamma_beta : bool
     then calculate_influence_oblique_waves_gamma_beta beta OvertoppingTAW2002.c_gamma_beta_default
            OvertoppingTAW2002.max_angle_default
     else gamma_beta) ;;
  composite <- check_composite_slope cot_alpha cot_alpha_down cot_alpha_up ;;
  cot_alpha <-
    (if composite : bool then
       z2p_for_slope <-
         iteration_procedure_z2p Hm0 Tmm10 cot_alpha_down cot_alpha_up B_berm db gamma_f gamma_beta
           RunupTAW2002.c1_default RunupTAW2002.c2_default RunupTAW2002.c3_default RunupTAW2002.c4_default false
           RunupTAW2002.tolerance_default RunupTAW2002.max_iter_default ;;
       determine_average_slope Hm0 z2p_for_slope cot_alpha_down cot_alpha_up B_berm db
     else cot_alpha) ;;
  ksi_mm10 <- calculate_Iribarren_number_ksi Hm0 Tmm10 cot_alpha ;;
  missing <- is_nan gamma_b ;;
  gamma_b <-
    (if missing : bool then
       L_berm <- calculate_berm_length Hm0 B_berm cot_alpha cot_alpha_down cot_alpha_up ;;
       iteration_procedure_gamma_b Hm0 Tmm10 cot_alpha B_berm L_berm db gamma_beta
         RunupTAW2002.c1_default RunupTAW2002.c2_default RunupTAW2002.c3_default RunupTAW2002.c4_default false gamma_f
     else gamma_b) ;;
  gamma_f_adj <- calculate_adjusted_influence_roughness_gamma_f gamma_f gamma_b ksi_mm10 ;;
  ret {| fac_gamma_beta := gamma_beta; fac_cot_alpha := cot_alpha; fac_ksi := ksi_mm10;
         fac_gamma_b := gamma_b; fac_gamma_f := gamma_f_adj |}.

(** Lines 366-379 *)
Definition q_diml_equations (Hm0 Rc cot_alpha ksi_mm10 gamma_b gamma_f_adj gamma_beta gamma_v cor1 cor3 : nums) (c1 c3 : num)
    : M (nums * nums) :=
  q_diml_eq24 <-
    (#0.067 / asqrt (#1 / cot_alpha)) * ksi_mm10 * gamma_b
    * aexp (- #1 * (float c1 + cor1) * (Rc / Hm0)
            * (#1 / (ksi_mm10 * gamma_b * gamma_f_adj * gamma_beta * gamma_v))) ;;
  q_diml_max <- q_diml_max_equation Hm0 Rc gamma_beta gamma_f_adj c3 cor3 OvertoppingTAW2002.c2_default ;;
  ret (q_diml_eq24, q_diml_max).

(** taw2002.py:224-397 *)
Definition calculate_dimensionless_overtopping_discharge_q
    (Hm0 Tmm10 Rc cot_alpha cot_alpha_down cot_alpha_up beta B_berm db gamma_beta gamma_b gamma_f gamma_v sigma : nums)
    (use_best_fit : bool) : M (nums * arr bool) :=
  let '(c1, c3) := OvertoppingTAW2002.coefficients use_best_fit in
  cor <- corrections sigma use_best_fit ;;
  fac <- influence_factors Hm0 Tmm10 cot_alpha cot_alpha_down cot_alpha_up beta B_berm db gamma_beta gamma_b gamma_f ;;
  match cor with
  | None => raise UnboundLocalError
  | Some (cor1, cor3) =>
      qs <- q_diml_equations Hm0 Rc (fac_cot_alpha fac) (fac_ksi fac) (fac_gamma_b fac) (fac_gamma_f fac)
              (fac_gamma_beta fac) gamma_v cor1 cor3 c1 c3 ;;
      let q_diml_eq24 : nums := fst qs in let q_diml_max : nums := snd qs in
      q_diml <- stacked_min q_diml_eq24 q_diml_max ;;
      max_reached <- (stacked_min q_diml_eq24 q_diml_max =? q_diml_max) ;;
      check_validity_range Hm0 Tmm10 beta (fac_cot_alpha fac) cot_alpha_down cot_alpha_up gamma_f (fac_gamma_b fac)
        (fac_gamma_beta fac) gamma_v ;;
      ret (q_diml, max_reached)
  end.

(** taw2002.py:133-221 *)
Definition calculate_overtopping_discharge_q
    (Hm0 Tmm10 Rc cot_alpha cot_alpha_down cot_alpha_up beta B_berm db gamma_beta gamma_b gamma_f gamma_v sigma g : nums)
    (use_best_fit : bool) : M (nums * arr bool) :=
  diml <-
    calculate_dimensionless_overtopping_discharge_q Hm0 Tmm10 Rc cot_alpha cot_alpha_down cot_alpha_up
      beta B_berm db gamma_beta gamma_b gamma_f gamma_v sigma use_best_fit ;;
  q <- fst diml * asqrt (g * apow Hm0 #3) ;;
  ret (q, snd diml).

(** taw2002.py:778-828 *)
Definition Rc_diml_max_equation (Hm0 q gamma_beta gamma_f : nums) (c3 : num) (cor3 : nums) (c2 : num) (g : nums) : M nums :=
  alog ((#1 / float c2) * q / asqrt (g * apow Hm0 #3)) * (- #1 / (float c3 + cor3)) * gamma_f * gamma_beta.

(** Lines 738-757.  Line 755 does not pass [g] on to Rc_diml_max_equation. *)
Definition Rc_diml_equations (Hm0 q cot_alpha ksi_mm10 gamma_b gamma_f_adj gamma_beta gamma_v cor1 cor3 g : nums) (c1 c3 : num)
    : M (nums * nums) :=
  Rc_diml_eq24 <-
    alog ((#1 / #0.067) * asqrt (#1 / cot_alpha) * (#1 / gamma_b) * (#1 / ksi_mm10) * q
          / asqrt (g * apow Hm0 #3))
    * (- #1 / (float c1 + cor1)) * ksi_mm10 * gamma_b * gamma_f_adj * gamma_beta * gamma_v ;;
  Rc_diml_max <- Rc_diml_max_equation Hm0 q gamma_beta gamma_f_adj c3 cor3 OvertoppingTAW2002.c2_default g_default ;;
  ret (Rc_diml_eq24, Rc_diml_max).

(** taw2002.py:594-775 *)
Definition calculate_dimensionless_crest_freeboard
    (Hm0 Tmm10 q cot_alpha cot_alpha_down cot_alpha_up beta B_berm db gamma_beta gamma_b gamma_f gamma_v sigma g : nums)
    (use_best_fit : bool) : M (nums * arr bool) :=
  let '(c1, c3) := OvertoppingTAW2002.coefficients use_best_fit in
  cor <- corrections sigma use_best_fit ;;
  fac <- influence_factors Hm0 Tmm10 cot_alpha cot_alpha_down cot_alpha_up beta B_berm db gamma_beta gamma_b gamma_f ;;
  match cor with
  | None => raise UnboundLocalError
  | Some (cor1, cor3) =>
      Rcs <- Rc_diml_equations Hm0 q (fac_cot_alpha fac) (fac_ksi fac) (fac_gamma_b fac) (fac_gamma_f fac)
               (fac_gamma_beta fac) gamma_v cor1 cor3 g c1 c3 ;;
      let Rc_diml_eq24 : nums := fst Rcs in let Rc_diml_max : nums := snd Rcs in
      Rc_diml <- stacked_min Rc_diml_eq24 Rc_diml_max ;;
      max_reached <- (stacked_min Rc_diml_eq24 Rc_diml_max =? Rc_diml_max) ;;
      check_validity_range Hm0 Tmm10 beta (fac_cot_alpha fac) cot_alpha_down cot_alpha_up gamma_f (fac_gamma_b fac)
        (fac_gamma_beta fac) gamma_v ;;
      ret (Rc_diml, max_reached)
  end.

(** taw2002.py:502-591 *)
Definition calculate_crest_freeboard_Rc
    (Hm0 Tmm10 q cot_alpha cot_alpha_down cot_alpha_up beta B_berm db gamma_beta gamma_b gamma_f gamma_v sigma g : nums)
    (use_best_fit : bool) : M (nums * arr bool) :=
  diml <-
    calculate_dimensionless_crest_freeboard Hm0 Tmm10 q cot_alpha cot_alpha_down cot_alpha_up
      beta B_berm db gamma_beta gamma_b gamma_f gamma_v sigma g use_best_fit ;;
  Rc <- fst diml * Hm0 ;;
  ret (Rc, snd diml).
