(** Model of functions/hydraulic/wave_runup/taw2002.py for arrays with one axis.
    The coefficients c1 to c4, c_gamma_beta and max_angle are numbers, as in the
    signatures.  [runup] has the same meaning as in RunupTAW2002.v. *)
From Coq Require Import Reals String List Bool.
From Verif.Lib Require Import Num Monad Arr ArrFlags ArrLoop.
From Verif.Model Require RunupTAW2002.
From Verif.Model Require Import ArrCore.
Import ListNotations.
Open Scope string_scope.
Open Scope arr_scope.

(** taw2002.py:9-87; a missing argument is NaN. *)
Definition check_validity_range (Hm0 Tmm10 gamma_f gamma_b gamma_beta cot_alpha : nums) : M unit :=
  when (given gamma_b)
    (acheck "Influence factor for a berm gamma_b" "TAW (2002)" gamma_b #0.6 #1) ;;
  when (given gamma_beta)
    (acheck "Influence factor for oblique wave incidence gamma_beta" "TAW (2002)" gamma_beta #0.7 #1) ;;
  when (given gamma_f)
    (acheck "Influence factor for surface roughness gamma_f" "TAW (2002)" gamma_f #0.5 #1) ;;
  when (andb (given Hm0) (given Tmm10))
    (acheck "Wave steepness smm10" "TAW (2002)" (calculate_wave_steepness_s Hm0 Tmm10 g_default) #0.001 #0.07) ;;
  when (andb (given Hm0) (andb (given Tmm10) (given cot_alpha)))
    (acheck "Iribarren number ksi_mm10" "TAW (2002)"
       (calculate_Iribarren_number_ksi Hm0 Tmm10 cot_alpha) #0.4 #20).

(** taw2002.py:346-386 *)
Definition determine_average_slope (Hm0 z2p cot_alpha_down cot_alpha_up B_berm db : nums) : M nums :=
  L_slope <- (#1.5 * Hm0 - db) * cot_alpha_down + B_berm + (z2p + db) * cot_alpha_up ;;
  tan_alpha_average <- (#1.5 * Hm0 + z2p) / (L_slope - B_berm) ;;
  #1 / tan_alpha_average.

(** taw2002.py:543-583: the slopes are looked for in the whole arrays. *)
Definition check_composite_slope (cot_alpha cot_alpha_down cot_alpha_up : nums) : M bool :=
  if andb (all_nan cot_alpha) (all_nan cot_alpha_down) then raise ValueError
  else if andb (negb (all_nan cot_alpha_down)) (negb (all_nan cot_alpha_up)) then ret true
  else ret false.

(** taw2002.py:501-540 *)
Definition calculate_berm_length (Hm0 B_berm cot_alpha cot_alpha_down cot_alpha_up : nums) : M nums :=
  composite <- check_composite_slope cot_alpha cot_alpha_down cot_alpha_up ;;
  let down : nums := if composite : bool then cot_alpha_down else cot_alpha in
  let up : nums := if composite : bool then cot_alpha_up else cot_alpha in
  #1 * Hm0 * down + B_berm + #1 * Hm0 * up.

(** taw2002.py:586-625 *)
Definition check_calculate_gamma_beta (beta gamma_beta : nums) : M bool :=
  if andb (all_nan beta) (all_nan gamma_beta) then raise ValueError
  else if all_nan gamma_beta then ret true else ret false.

(** taw2002.py:724-765; line 764 puts the factor in a list with a number. *)
Definition calculate_influence_berm_gamma_b (Hm0 z2p db B_berm L_berm : nums) : M nums :=
  x <- where_ (db <? #0) z2p (#2 * Hm0) ;;
  rdh <- where_ ((db >? #2 * Hm0) || (db <? - z2p)) #1 (#0.5 - #0.5 * acos (api * db / x)) ;;
  rB <- B_berm / L_berm ;;
  max_with (min_with (#1 - rB * (#1 - rdh)) #1) #0.6.

(** taw2002.py:768-799 *)
Definition calculate_influence_oblique_waves_gamma_beta (beta : nums) (c_gamma_beta max_angle : num) : M nums :=
  beta_calc <- where_ (beta <? #0) (aabs beta) beta ;;
  beta_calc <- where_ (beta_calc >? float max_angle) (float max_angle) beta_calc ;;
  #1 - float c_gamma_beta * beta_calc.

(** taw2002.py:802-833 *)
Definition calculate_adjusted_influence_roughness_gamma_f (gamma_f gamma_b ksi_mm10 : nums) : M nums :=
  where_ ((gamma_b * ksi_mm10 >=? #1.8) && (gamma_b * ksi_mm10 <=? #10))
    (((ksi_mm10 - #1.8) * (#1 - gamma_f) / (#10 - #1.8)) + gamma_f)
    gamma_f.

Section Recursion.
Variable runup : forall (Hm0 Tmm10 gamma_beta gamma_b gamma_f cot_alpha : nums) (c1 c2 c3 c4 : num) (use_best_fit : bool),
  M (nums * arr bool).

(** The loop of lines 454-494; [n] is the number of iterations left. *)
Fixpoint z2p_iterations
    (Hm0 Tmm10 cot_alpha_down cot_alpha_up B_berm db gamma_f gamma_beta : nums) (c1 c2 c3 c4 : num) (use_best_fit : bool)
    (tolerance : num) (n : nat) (z2p_estimate_i1 z2p_estimate_i0 : nums) : M nums :=
  match n with
  | O => ret z2p_estimate_i1
  | S n =>
      change <- aabs (z2p_estimate_i1 - z2p_estimate_i0) ;;
      change <- greatest change ;;
      if ngt change tolerance then
        let z2p_estimate_i0 := z2p_estimate_i1 in
        L_berm <- calculate_berm_length Hm0 B_berm anan cot_alpha_down cot_alpha_up ;;
        gamma_b <- calculate_influence_berm_gamma_b Hm0 z2p_estimate_i0 db B_berm L_berm ;;
        cot_alpha_average <- determine_average_slope Hm0 z2p_estimate_i0 cot_alpha_down cot_alpha_up B_berm db ;;
        z2p <- runup Hm0 Tmm10 gamma_beta gamma_b gamma_f cot_alpha_average c1 c2 c3 c4 use_best_fit ;;
        z2p_iterations Hm0 Tmm10 cot_alpha_down cot_alpha_up B_berm db gamma_f gamma_beta c1 c2 c3 c4
          use_best_fit tolerance n (fst z2p) z2p_estimate_i0
      else ret z2p_estimate_i1
  end.

(** taw2002.py:389-498.  The loop runs while n_iter <= max_iter. *)
Definition iteration_procedure_z2p_body
    (Hm0 Tmm10 cot_alpha_down cot_alpha_up B_berm db gamma_f gamma_beta : nums) (c1 c2 c3 c4 : num) (use_best_fit : bool)
    (tolerance : num) (max_iter : nat) : M nums :=
  z2p_estimate_i1 <- #1.5 * Hm0 ;;
  z2p_estimate_i0 <- z2p_estimate_i1 + #2 * float tolerance ;;
  z2p_iterations Hm0 Tmm10 cot_alpha_down cot_alpha_up B_berm db gamma_f gamma_beta c1 c2 c3 c4 use_best_fit
    tolerance (S max_iter) z2p_estimate_i1 z2p_estimate_i0.

(** taw2002.py:628-721; [or] looks at L_berm only when B_berm is not 0. *)
Definition iteration_procedure_gamma_b_body
    (Hm0 Tmm10 cot_alpha_average B_berm L_berm db gamma_beta : nums) (c1 c2 c3 c4 : num) (use_best_fit : bool)
    (gamma_f : nums) : M nums :=
  no_berm <- (b <- holds (B_berm =? #0) ;; if b : bool then ret true else holds (L_berm =? #0)) ;;
  if no_berm : bool then #1
  else
    z2p_i1 <- runup Hm0 Tmm10 gamma_beta #1 gamma_f cot_alpha_average c1 c2 c3 c4 use_best_fit ;;
    gamma_b_runup <- calculate_influence_berm_gamma_b Hm0 (fst z2p_i1) db B_berm L_berm ;;
    z2p_i2 <- runup Hm0 Tmm10 gamma_beta gamma_b_runup gamma_f cot_alpha_average c1 c2 c3 c4 use_best_fit ;;
    calculate_influence_berm_gamma_b Hm0 (fst z2p_i2) db B_berm L_berm.

(** taw2002.py:328-343, once the slope and the influence factors are known. *)
Definition dimensionless_runup (Hm0 Tmm10 gamma_beta gamma_b gamma_f cot_alpha ksi_mm10 : nums) (c1 c2 c3 c4 : num)
    : M (nums * arr bool) :=
  gamma_f_adj <- calculate_adjusted_influence_roughness_gamma_f gamma_f gamma_b ksi_mm10 ;;
  z2p_diml_eq3a <- float c1 * gamma_b * gamma_f_adj * gamma_beta * ksi_mm10 ;;
  z2p_diml_eq3b <- float c4 * gamma_f_adj * gamma_beta * (float c2 - float c3 / asqrt ksi_mm10) ;;
  z2p_diml <- stacked_min z2p_diml_eq3a z2p_diml_eq3b ;;
  max_reached <- (stacked_min z2p_diml_eq3a z2p_diml_eq3b =? z2p_diml_eq3b) ;;
  check_validity_range Hm0 Tmm10 gamma_f gamma_b gamma_beta cot_alpha ;;
  ret (z2p_diml, max_reached).

(** taw2002.py:186-343.  The slope is not passed on to calculate_berm_length at
    line 301. *)
Definition dimensionless_body
    (Hm0 Tmm10 beta gamma_beta gamma_b gamma_f B_berm db cot_alpha cot_alpha_down cot_alpha_up : nums) (c1 c2 c3 c4 : num)
    (use_best_fit : bool) : M (nums * arr bool) :=
  let '(c1, c2, c3, c4) := RunupTAW2002.best_fit_coefficients use_best_fit c1 c2 c3 c4 in
  calculate_gamma_beta <- check_calculate_gamma_beta beta gamma_beta ;;
  gamma_beta <-
    (if calculate_gamma_beta : bool
     then calculate_influence_oblique_waves_gamma_beta beta RunupTAW2002.c_gamma_beta_default RunupTAW2002.max_angle_default
     else gamma_beta) ;;
  composite <- check_composite_slope cot_alpha cot_alpha_down cot_alpha_up ;;
  cot_alpha <-
    (if composite : bool then
       z2p_for_slope <-
         iteration_procedure_z2p_body Hm0 Tmm10 cot_alpha_down cot_alpha_up B_berm db gamma_f gamma_beta
           c1 c2 c3 c4 use_best_fit RunupTAW2002.tolerance_default RunupTAW2002.max_iter_default ;;
       determine_average_slope Hm0 z2p_for_slope cot_alpha_down cot_alpha_up B_berm db
     else cot_alpha) ;;
  ksi_mm10 <- calculate_Iribarren_number_ksi Hm0 Tmm10 cot_alpha ;;
  missing <- is_nan gamma_b ;;
  gamma_b <-
    (if missing : bool then
       L_berm <- calculate_berm_length Hm0 B_berm anan cot_alpha_down cot_alpha_up ;;
       iteration_procedure_gamma_b_body Hm0 Tmm10 cot_alpha B_berm L_berm db gamma_beta c1 c2 c3 c4
         use_best_fit gamma_f
     else gamma_b) ;;
  dimensionless_runup Hm0 Tmm10 gamma_beta gamma_b gamma_f cot_alpha ksi_mm10 c1 c2 c3 c4.
End Recursion.

(** taw2002.py:90-183, with [depth] nested calls left before python gives up. *)
Fixpoint calculate_wave_runup_height_z2p_upto (depth : nat)
    (Hm0 Tmm10 beta gamma_beta gamma_b gamma_f B_berm db cot_alpha cot_alpha_down cot_alpha_up : nums) (c1 c2 c3 c4 : num)
    (use_best_fit : bool) {struct depth} : M (nums * arr bool) :=
  match depth with
  | O => raise RecursionError
  | S depth =>
      diml <-
        dimensionless_body
          (fun Hm0 Tmm10 gamma_beta gamma_b gamma_f cot_alpha c1 c2 c3 c4 use_best_fit =>
             calculate_wave_runup_height_z2p_upto depth Hm0 Tmm10 anan gamma_beta gamma_b gamma_f #0 #0
               cot_alpha anan anan c1 c2 c3 c4 use_best_fit)
          Hm0 Tmm10 beta gamma_beta gamma_b gamma_f B_berm db cot_alpha cot_alpha_down cot_alpha_up
          c1 c2 c3 c4 use_best_fit ;;
      z2p <- fst diml * Hm0 ;;
      ret (z2p, snd diml)
  end.

(** The calls of the iteration procedures, [depth] deep. *)
Definition runup_upto (depth : nat)
    (Hm0 Tmm10 gamma_beta gamma_b gamma_f cot_alpha : nums) (c1 c2 c3 c4 : num) (use_best_fit : bool) : M (nums * arr bool) :=
  calculate_wave_runup_height_z2p_upto depth Hm0 Tmm10 anan gamma_beta gamma_b gamma_f #0 #0
    cot_alpha anan anan c1 c2 c3 c4 use_best_fit.

(** The functions as called from outside. *)
Definition calculate_wave_runup_height_z2p := calculate_wave_runup_height_z2p_upto RunupTAW2002.depth_limit.
Definition calculate_dimensionless_wave_runup_height_z2p := dimensionless_body (runup_upto RunupTAW2002.depth_limit).
Definition iteration_procedure_z2p := iteration_procedure_z2p_body (runup_upto RunupTAW2002.depth_limit).
Definition iteration_procedure_gamma_b := iteration_procedure_gamma_b_body (runup_upto RunupTAW2002.depth_limit).
