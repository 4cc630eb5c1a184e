(** Model of functions/hydraulic/wave_overtopping/taw2002.py, for scalar
    arguments. *)
From Coq Require Import Reals String List Bool.
From Verif.Lib Require Import Num Monad.
From Verif.Model Require Import CoreUtility CorePhysics RunupTAW2002.
Import ListNotations.
Open Scope string_scope.
Open Scope num_scope.

(** taw2002.py:12-130; a missing argument is NaN. *)
Definition check_validity_range
    (Hm0 Tmm10 beta cot_alpha cot_alpha_down cot_alpha_up gamma_f gamma_b gamma_beta gamma_v : num) : M unit :=
  when (provided Hm0 && provided Tmm10)
    (check "Wave steepness sm-1,0" "TAW (2002)" (calculate_wave_steepness_s Hm0 Tmm10 g_default) #0 #0.07) ;;
  when (provided Hm0 && provided Tmm10 && provided cot_alpha)
    (check "Iribarren number ksi_m-1,0" "TAW (2002)"
       (calculate_Iribarren_number_ksi Hm0 Tmm10 cot_alpha) #0 #7) ;;
  when (provided Hm0 && provided Tmm10 && provided cot_alpha && provided gamma_b)
    (check "gamma_b * ksi_m-1,0" "TAW (2002)"
       (gamma_b * calculate_Iribarren_number_ksi Hm0 Tmm10 cot_alpha) #0.5 #10) ;;
  when (provided cot_alpha_down)
    (check "Cotangent alpha lower slope" "TAW (2002)" cot_alpha_down #1 #7) ;;
  when (provided cot_alpha_up)
    (check "Cotangent alpha upper slope" "TAW (2002)" cot_alpha_up #1 #7) ;;
  when (provided beta)
    (check "Incident wave angle beta" "TAW (2002)" beta #0 #90) ;;
  when (provided gamma_b)
    (check "Influence factor berm gamma_b" "TAW (2002)" gamma_b #0.4 #1) ;;
  when (provided gamma_f)
    (check "Influence factor roughness gamma_f" "TAW (2002)" gamma_f #0.4 #1) ;;
  when (provided gamma_beta)
    (check "Influence factor oblique waves gamma_beta" "TAW (2002)" gamma_beta #0.4 #1) ;;
  when (provided gamma_v)
    (check "Influence factor vertical wall gamma_v" "TAW (2002)" gamma_v #0.4 #1).

(** taw2002.py:400-444 *)
Definition q_diml_max_equation (Hm0 Rc gamma_beta gamma_f c3 cor3 c2 : num) : num :=
  c2 * nexp (- #1 * (c3 + cor3) * (Rc / Hm0) * (#1 / (gamma_f * gamma_beta))).
(** Defaults of cor3 and c2, lines 406-407 and 784-785. *)
Definition cor3_default : num := #0.
Definition c2_default : num := #0.2.

(** taw2002.py:447-476 *)
Definition calculate_influence_oblique_waves_gamma_beta (beta c_gamma_beta max_angle : num) : num :=
  RunupTAW2002.calculate_influence_oblique_waves_gamma_beta beta c_gamma_beta max_angle.
(** Defaults of c_gamma_beta and max_angle, lines 449-450. *)
Definition c_gamma_beta_default : num := #0.0033.
Definition max_angle_default : num := #80.

(** taw2002.py:479-499 *)
Definition calculate_influence_crest_wall_gamma_v (alpha_wall_deg : num) : num :=
  if alpha_wall_deg <=? #45 then #1 else #1.35 - #0.0078 * alpha_wall_deg.

(** Lines 290-295 and 662-667 *)
Definition coefficients (use_best_fit : bool) : num * num :=
  if use_best_fit then (#4.75, #2.6) else (#4.3, #2.3).

Definition sigma_warning : string :=
  "Sigma is only applicable to the best fit coefficients! The design values of the coefficients alreaddy account for uncertainty with conservative coefficient values.".

(** Lines 297-310 and 669-682: cor1 and cor3, or None where they stay unbound. *)
Definition corrections (sigma : num) (use_best_fit : bool) : M (option (num * num)) :=
  if sigma =? #0 then ret (Some (#0, #0))
  else if use_best_fit then ret (Some (#0.5 * sigma, #0.35 * sigma))
  else warn (WText sigma_warning) ;; ret None.

(** Lines 312-364 and 684-736, which are the same: the influence factor of
    oblique waves, the slope, the Iribarren number, the influence factor of the
    berm and that of the roughness.  The iteration procedures get neither
    use_best_fit nor coefficients. *)
Definition influence_factors
    (Hm0 Tmm10 cot_alpha cot_alpha_down cot_alpha_up beta B_berm db gamma_beta gamma_b gamma_f : num)
    : M (num * num * num * num * num) :=
  calculate_gamma_beta <- check_calculate_gamma_beta beta gamma_beta ;;
  let gamma_beta :=
    if calculate_gamma_beta
    then calculate_influence_oblique_waves_gamma_beta beta c_gamma_beta_default max_angle_default
    else gamma_beta in
  composite <- check_composite_slope cot_alpha cot_alpha_down cot_alpha_up ;;
  cot_alpha <-
    (if composite then
       z2p_for_slope <-
         iteration_procedure_z2p Hm0 Tmm10 cot_alpha_down cot_alpha_up B_berm db gamma_f gamma_beta
           c1_default RunupTAW2002.c2_default c3_default c4_default false tolerance_default max_iter_default ;;
       ret (determine_average_slope Hm0 z2p_for_slope cot_alpha_down cot_alpha_up B_berm db)
     else ret cot_alpha) ;;
  let ksi_mm10 := calculate_Iribarren_number_ksi Hm0 Tmm10 cot_alpha in
  gamma_b <-
    (if isnan gamma_b then
       L_berm <- calculate_berm_length Hm0 B_berm cot_alpha cot_alpha_down cot_alpha_up ;;
       iteration_procedure_gamma_b Hm0 Tmm10 cot_alpha B_berm L_berm db gamma_beta
         c1_default RunupTAW2002.c2_default c3_default c4_default false gamma_f
     else ret gamma_b) ;;
  let gamma_f_adj := calculate_adjusted_influence_roughness_gamma_f gamma_f gamma_b ksi_mm10 in
  ret (gamma_beta, cot_alpha, ksi_mm10, gamma_b, gamma_f_adj).

(** taw2002.py:224-397 *)
Definition calculate_dimensionless_overtopping_discharge_q
    (Hm0 Tmm10 Rc cot_alpha cot_alpha_down cot_alpha_up beta B_berm db gamma_beta gamma_b gamma_f gamma_v sigma : num)
    (use_best_fit : bool) : M (num * bool) :=
  let '(c1, c3) := coefficients use_best_fit in
  cor <- corrections sigma use_best_fit ;;
  '(gamma_beta, cot_alpha, ksi_mm10, gamma_b, gamma_f_adj) <-
    influence_factors Hm0 Tmm10 cot_alpha cot_alpha_down cot_alpha_up beta B_berm db gamma_beta gamma_b gamma_f ;;
  match cor with
  | None => raise UnboundLocalError
  | Some (cor1, cor3) =>
      let q_diml_eq24 :=
        (#0.067 / nsqrt (#1 / cot_alpha)) * ksi_mm10 * gamma_b
        * nexp (- #1 * (c1 + cor1) * (Rc / Hm0)
                * (#1 / (ksi_mm10 * gamma_b * gamma_f_adj * gamma_beta * gamma_v))) in
      let q_diml_max := q_diml_max_equation Hm0 Rc gamma_beta gamma_f_adj c3 cor3 c2_default in
      let q_diml := nmin q_diml_eq24 q_diml_max in
      let max_reached := nmin q_diml_eq24 q_diml_max =? q_diml_max in
      check_validity_range Hm0 Tmm10 beta cot_alpha cot_alpha_down cot_alpha_up gamma_f gamma_b gamma_beta gamma_v ;;
      ret (q_diml, max_reached)
  end.

(** taw2002.py:133-221 *)
Definition calculate_overtopping_discharge_q
    (Hm0 Tmm10 Rc cot_alpha cot_alpha_down cot_alpha_up beta B_berm db gamma_beta gamma_b gamma_f gamma_v sigma g : num)
    (use_best_fit : bool) : M (num * bool) :=
  '(q_diml, max_reached) <-
    calculate_dimensionless_overtopping_discharge_q Hm0 Tmm10 Rc cot_alpha cot_alpha_down cot_alpha_up
      beta B_berm db gamma_beta gamma_b gamma_f gamma_v sigma use_best_fit ;;
  ret (q_diml * nsqrt (g * npow Hm0 #3), max_reached).

(** taw2002.py:778-828 *)
Definition Rc_diml_max_equation (Hm0 q gamma_beta gamma_f c3 cor3 c2 g : num) : num :=
  nlog ((#1 / c2) * q / nsqrt (g * npow Hm0 #3)) * (- #1 / (c3 + cor3)) * gamma_f * gamma_beta.

(** taw2002.py:594-775.  Line 755 does not pass [g] on to Rc_diml_max_equation. *)
Definition calculate_dimensionless_crest_freeboard
    (Hm0 Tmm10 q cot_alpha cot_alpha_down cot_alpha_up beta B_berm db gamma_beta gamma_b gamma_f gamma_v sigma g : num)
    (use_best_fit : bool) : M (num * bool) :=
  let '(c1, c3) := coefficients use_best_fit in
  cor <- corrections sigma use_best_fit ;;
  '(gamma_beta, cot_alpha, ksi_mm10, gamma_b, gamma_f_adj) <-
    influence_factors Hm0 Tmm10 cot_alpha cot_alpha_down cot_alpha_up beta B_berm db gamma_beta gamma_b gamma_f ;;
  match cor with
  | None => raise UnboundLocalError
  | Some (cor1, cor3) =>
      let Rc_diml_eq24 :=
        nlog ((#1 / #0.067) * nsqrt (#1 / cot_alpha) * (#1 / gamma_b) * (#1 / ksi_mm10) * q
              / nsqrt (g * npow Hm0 #3))
        * (- #1 / (c1 + cor1)) * ksi_mm10 * gamma_b * gamma_f_adj * gamma_beta * gamma_v in
      let Rc_diml_max := Rc_diml_max_equation Hm0 q gamma_beta gamma_f_adj c3 cor3 c2_default g_default in
      let Rc_diml := nmin Rc_diml_eq24 Rc_diml_max in
      let max_reached := nmin Rc_diml_eq24 Rc_diml_max =? Rc_diml_max in
      check_validity_range Hm0 Tmm10 beta cot_alpha cot_alpha_down cot_alpha_up gamma_f gamma_b gamma_beta gamma_v ;;
      ret (Rc_diml, max_reached)
  end.

(** taw2002.py:502-591 *)
Definition calculate_crest_freeboard_Rc
    (Hm0 Tmm10 q cot_alpha cot_alpha_down cot_alpha_up beta B_berm db gamma_beta gamma_b gamma_f gamma_v sigma g : num)
    (use_best_fit : bool) : M (num * bool) :=
  '(Rc_diml, max_reached) <-
    calculate_dimensionless_crest_freeboard Hm0 Tmm10 q cot_alpha cot_alpha_down cot_alpha_up
      beta B_berm db gamma_beta gamma_b gamma_f gamma_v sigma g use_best_fit ;;
  ret (Rc_diml * Hm0, max_reached).
