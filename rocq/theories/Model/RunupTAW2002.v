(** Model of functions/hydraulic/wave_runup/taw2002.py, for scalar arguments.

    The run-up functions and the two iteration procedures call one another.  The
    calls made by the procedures (lines 480-492, 686-698 and 704-716) leave out
    beta, B_berm, db, cot_alpha_down and cot_alpha_up; [runup] stands for the
    run-up function with these defaults until the recursion is closed at the end
    of the file. *)
From Coq Require Import Reals String List Bool.
From Verif.Lib Require Import Num Monad.
From Verif.Model Require Import CoreUtility CorePhysics.
Import ListNotations.
Open Scope string_scope.
Open Scope num_scope.

(** taw2002.py:9-87; a missing argument is NaN. *)
Definition check_validity_range (Hm0 Tmm10 gamma_f gamma_b gamma_beta cot_alpha : num) : M unit :=
  when (provided gamma_b)
    (check "Influence factor for a berm gamma_b" "TAW (2002)" gamma_b #0.6 #1) ;;
  when (provided gamma_beta)
    (check "Influence factor for oblique wave incidence gamma_beta" "TAW (2002)" gamma_beta #0.7 #1) ;;
  when (provided gamma_f)
    (check "Influence factor for surface roughness gamma_f" "TAW (2002)" gamma_f #0.5 #1) ;;
  when (provided Hm0 && provided Tmm10)
    (check "Wave steepness smm10" "TAW (2002)" (calculate_wave_steepness_s Hm0 Tmm10 g_default) #0.001 #0.07) ;;
  when (provided Hm0 && provided Tmm10 && provided cot_alpha)
    (check "Iribarren number ksi_mm10" "TAW (2002)"
       (calculate_Iribarren_number_ksi Hm0 Tmm10 cot_alpha) #0.4 #20).

(** taw2002.py:346-386 *)
Definition determine_average_slope (Hm0 z2p cot_alpha_down cot_alpha_up B_berm db : num) : num :=
  let L_slope := (#1.5 * Hm0 - db) * cot_alpha_down + B_berm + (z2p + db) * cot_alpha_up in
  let tan_alpha_average := (#1.5 * Hm0 + z2p) / (L_slope - B_berm) in
  #1 / tan_alpha_average.

(** taw2002.py:543-583 *)
Definition check_composite_slope (cot_alpha cot_alpha_down cot_alpha_up : num) : M bool :=
  if isnan cot_alpha && isnan cot_alpha_down then raise ValueError
  else if negb (isnan cot_alpha_down) && negb (isnan cot_alpha_up) then ret true
  else ret false.

(** taw2002.py:501-540 *)
Definition calculate_berm_length (Hm0 B_berm cot_alpha cot_alpha_down cot_alpha_up : num) : M num :=
  composite <- check_composite_slope cot_alpha cot_alpha_down cot_alpha_up ;;
  let cot_alpha_down := if composite then cot_alpha_down else cot_alpha in
  let cot_alpha_up := if composite then cot_alpha_up else cot_alpha in
  ret (#1 * Hm0 * cot_alpha_down + B_berm + #1 * Hm0 * cot_alpha_up).

(** taw2002.py:586-625 *)
Definition check_calculate_gamma_beta (beta gamma_beta : num) : M bool :=
  if isnan beta && isnan gamma_beta then raise ValueError
  else if isnan gamma_beta then ret true else ret false.

(** taw2002.py:724-765 *)
Definition calculate_influence_berm_gamma_b (Hm0 z2p db B_berm L_berm : num) : num :=
  let x := if db <? #0 then z2p else #2 * Hm0 in
  let rdh := if (db >? #2 * Hm0) || (db <? - z2p) then #1 else #0.5 - #0.5 * ncos (npi * db / x) in
  let rB := B_berm / L_berm in
  nmax (nmin (#1 - rB * (#1 - rdh)) #1) #0.6.

(** taw2002.py:768-799 *)
Definition calculate_influence_oblique_waves_gamma_beta (beta c_gamma_beta max_angle : num) : num :=
  let beta_calc := if beta <? #0 then nabs beta else beta in
  let beta_calc := if beta_calc >? max_angle then max_angle else beta_calc in
  #1 - c_gamma_beta * beta_calc.
(** Defaults of c_gamma_beta and max_angle, lines 770-771. *)
Definition c_gamma_beta_default : num := #0.0022.
Definition max_angle_default : num := #80.

(** taw2002.py:802-833 *)
Definition calculate_adjusted_influence_roughness_gamma_f (gamma_f gamma_b ksi_mm10 : num) : num :=
  if (gamma_b * ksi_mm10 >=? #1.8) && (gamma_b * ksi_mm10 <=? #10)
  then ((ksi_mm10 - #1.8) * (#1 - gamma_f) / (#10 - #1.8)) + gamma_f
  else gamma_f.

(** Lines 259-263 *)
Definition best_fit_coefficients (use_best_fit : bool) (c1 c2 c3 c4 : num) : num * num * num * num :=
  if use_best_fit then (#1.65, #4, #1.5, #1) else (c1, c2, c3, c4).
(** Defaults of c1 to c4, lines 102-105, 198-201, 398-401 and 636-639. *)
Definition c1_default : num := #1.75.
Definition c2_default : num := #4.3.
Definition c3_default : num := #1.6.
Definition c4_default : num := #1.

Section Recursion.
Variable runup : forall (Hm0 Tmm10 gamma_beta gamma_b gamma_f cot_alpha c1 c2 c3 c4 : num) (use_best_fit : bool),
  M (num * bool).

(** The loop of lines 454-494; [n] is the number of iterations left. *)
Fixpoint z2p_iterations
    (Hm0 Tmm10 cot_alpha_down cot_alpha_up B_berm db gamma_f gamma_beta c1 c2 c3 c4 : num) (use_best_fit : bool)
    (tolerance : num) (n : nat) (z2p_estimate_i1 z2p_estimate_i0 : num) : M num :=
  match n with
  | O => ret z2p_estimate_i1
  | S n =>
      if nabs (z2p_estimate_i1 - z2p_estimate_i0) >? tolerance then
        let z2p_estimate_i0 := z2p_estimate_i1 in
        L_berm <- calculate_berm_length Hm0 B_berm NaN cot_alpha_down cot_alpha_up ;;
        let gamma_b := calculate_influence_berm_gamma_b Hm0 z2p_estimate_i0 db B_berm L_berm in
        let cot_alpha_average :=
          determine_average_slope Hm0 z2p_estimate_i0 cot_alpha_down cot_alpha_up B_berm db in
        '(z2p_estimate_i1, _) <-
          runup Hm0 Tmm10 gamma_beta gamma_b gamma_f cot_alpha_average c1 c2 c3 c4 use_best_fit ;;
        z2p_iterations Hm0 Tmm10 cot_alpha_down cot_alpha_up B_berm db gamma_f gamma_beta c1 c2 c3 c4
          use_best_fit tolerance n z2p_estimate_i1 z2p_estimate_i0
      else ret z2p_estimate_i1
  end.

(** taw2002.py:389-498.  The loop runs while n_iter <= max_iter. *)
Definition iteration_procedure_z2p_body
    (Hm0 Tmm10 cot_alpha_down cot_alpha_up B_berm db gamma_f gamma_beta c1 c2 c3 c4 : num) (use_best_fit : bool)
    (tolerance : num) (max_iter : nat) : M num :=
  let z2p_estimate_i1 := #1.5 * Hm0 in
  let z2p_estimate_i0 := z2p_estimate_i1 + #2 * tolerance in
  z2p_iterations Hm0 Tmm10 cot_alpha_down cot_alpha_up B_berm db gamma_f gamma_beta c1 c2 c3 c4 use_best_fit
    tolerance (S max_iter) z2p_estimate_i1 z2p_estimate_i0.

(** taw2002.py:628-721 *)
Definition iteration_procedure_gamma_b_body
    (Hm0 Tmm10 cot_alpha_average B_berm L_berm db gamma_beta c1 c2 c3 c4 : num) (use_best_fit : bool)
    (gamma_f : num) : M num :=
  if (B_berm =? #0) || (L_berm =? #0) then ret #1
  else
    '(z2p_i1, _) <- runup Hm0 Tmm10 gamma_beta #1 gamma_f cot_alpha_average c1 c2 c3 c4 use_best_fit ;;
    let gamma_b_runup := calculate_influence_berm_gamma_b Hm0 z2p_i1 db B_berm L_berm in
    '(z2p_i2, _) <- runup Hm0 Tmm10 gamma_beta gamma_b_runup gamma_f cot_alpha_average c1 c2 c3 c4 use_best_fit ;;
    ret (calculate_influence_berm_gamma_b Hm0 z2p_i2 db B_berm L_berm).

(** Defaults of tolerance and max_iter, lines 403-404. *)
Definition tolerance_default : num := #0.0001.
Definition max_iter_default : nat := 1000.

(** taw2002.py:186-343.  The slope is not passed on to calculate_berm_length at
    line 301. *)
Definition dimensionless_body
    (Hm0 Tmm10 beta gamma_beta gamma_b gamma_f B_berm db cot_alpha cot_alpha_down cot_alpha_up c1 c2 c3 c4 : num)
    (use_best_fit : bool) : M (num * bool) :=
  let '(c1, c2, c3, c4) := best_fit_coefficients use_best_fit c1 c2 c3 c4 in
  calculate_gamma_beta <- check_calculate_gamma_beta beta gamma_beta ;;
  let gamma_beta :=
    if calculate_gamma_beta
    then calculate_influence_oblique_waves_gamma_beta beta c_gamma_beta_default max_angle_default
    else gamma_beta in
  composite <- check_composite_slope cot_alpha cot_alpha_down cot_alpha_up ;;
  cot_alpha <-
    (if composite then
       z2p_for_slope <-
         iteration_procedure_z2p_body Hm0 Tmm10 cot_alpha_down cot_alpha_up B_berm db gamma_f gamma_beta
           c1 c2 c3 c4 use_best_fit tolerance_default max_iter_default ;;
       ret (determine_average_slope Hm0 z2p_for_slope cot_alpha_down cot_alpha_up B_berm db)
     else ret cot_alpha) ;;
  let ksi_mm10 := calculate_Iribarren_number_ksi Hm0 Tmm10 cot_alpha in
  gamma_b <-
    (if isnan gamma_b then
       L_berm <- calculate_berm_length Hm0 B_berm NaN cot_alpha_down cot_alpha_up ;;
       iteration_procedure_gamma_b_body Hm0 Tmm10 cot_alpha B_berm L_berm db gamma_beta c1 c2 c3 c4
         use_best_fit gamma_f
     else ret gamma_b) ;;
  let gamma_f_adj := calculate_adjusted_influence_roughness_gamma_f gamma_f gamma_b ksi_mm10 in
  let z2p_diml_eq3a := c1 * gamma_b * gamma_f_adj * gamma_beta * ksi_mm10 in
  let z2p_diml_eq3b := c4 * gamma_f_adj * gamma_beta * (c2 - c3 / nsqrt ksi_mm10) in
  let z2p_diml := nmin z2p_diml_eq3a z2p_diml_eq3b in
  let max_reached := nmin z2p_diml_eq3a z2p_diml_eq3b =? z2p_diml_eq3b in
  check_validity_range Hm0 Tmm10 gamma_f gamma_b gamma_beta cot_alpha ;;
  ret (z2p_diml, max_reached).
End Recursion.

(** taw2002.py:90-183, with [depth] nested calls left before python gives up. *)
Fixpoint calculate_wave_runup_height_z2p_upto (depth : nat)
    (Hm0 Tmm10 beta gamma_beta gamma_b gamma_f B_berm db cot_alpha cot_alpha_down cot_alpha_up c1 c2 c3 c4 : num)
    (use_best_fit : bool) {struct depth} : M (num * bool) :=
  match depth with
  | O => raise RecursionError
  | S depth =>
      '(z2p_diml, max_reached) <-
        dimensionless_body
          (fun Hm0 Tmm10 gamma_beta gamma_b gamma_f cot_alpha c1 c2 c3 c4 use_best_fit =>
             calculate_wave_runup_height_z2p_upto depth Hm0 Tmm10 NaN gamma_beta gamma_b gamma_f #0 #0
               cot_alpha NaN NaN c1 c2 c3 c4 use_best_fit)
          Hm0 Tmm10 beta gamma_beta gamma_b gamma_f B_berm db cot_alpha cot_alpha_down cot_alpha_up
          c1 c2 c3 c4 use_best_fit ;;
      ret (z2p_diml * Hm0, max_reached)
  end.

(** The calls of the iteration procedures, [depth] deep. *)
Definition runup_upto (depth : nat)
    (Hm0 Tmm10 gamma_beta gamma_b gamma_f cot_alpha c1 c2 c3 c4 : num) (use_best_fit : bool) : M (num * bool) :=
  calculate_wave_runup_height_z2p_upto depth Hm0 Tmm10 NaN gamma_beta gamma_b gamma_f #0 #0
    cot_alpha NaN NaN c1 c2 c3 c4 use_best_fit.

(** The default limit of python, in nested run-up calls of at most three frames
    each. *)
Definition depth_limit : nat := 300.

(** The functions as called from outside. *)
Definition calculate_wave_runup_height_z2p := calculate_wave_runup_height_z2p_upto depth_limit.
Definition calculate_dimensionless_wave_runup_height_z2p := dimensionless_body (runup_upto depth_limit).
Definition iteration_procedure_z2p := iteration_procedure_z2p_body (runup_upto depth_limit).
Definition iteration_procedure_gamma_b := iteration_procedure_gamma_b_body (runup_upto depth_limit).
