(** Model of functions/hydraulic/wave_transmission/dangremond1996.py *)
From Coq Require Import Reals String List Bool.
From Verif.Lib Require Import Num Monad.
From Verif.Model Require Import CoreUtility CorePhysics.
Open Scope string_scope.
Open Scope num_scope.

(** dangremond1996.py:9-66 *)
Definition check_validity (Kt s0p Hsi_over_h Rc_over_Hsi : num) : M unit :=
  when (provided Kt)
    (check "Transmission coefficient Kt" "D'Angremond et al. (1996)" Kt #0.075 #0.8) ;;
  when (provided s0p)
    (check "Wave steepness s0p (dataset limit)" "D'Angremond et al. (1996)" s0p #0 #0.06) ;;
  when (provided Hsi_over_h)
    (check "Relative water depth Hsi/h (dataset limit)" "D'Angremond et al. (1996)" Hsi_over_h #0 #0.54) ;;
  when (provided Rc_over_Hsi)
    (check "Relative crest level Rc/Hsi (dataset limit)" "D'Angremond et al. (1996)" Rc_over_Hsi (- #2.5) #2.5).

(** dangremond1996.py:69-120 *)
Definition calculate_wave_transmission_Kt_permeable
    (Hsi Tpi h Rc B cot_alpha C1 : num) (do_validity_check : bool) : M num :=
  let ksi_0p := calculate_Iribarren_number_ksi Hsi Tpi cot_alpha in
  let s0p := calculate_wave_steepness_s Hsi Tpi g_default in
  let Kt := - #0.4 * (Rc / Hsi)
            + npow (B / Hsi) (- #0.31) * (#1 - nexp (- #0.5 * ksi_0p)) * C1 in
  when do_validity_check (check_validity Kt s0p (Hsi / h) (Rc / Hsi)) ;;
  let Kt := nmin #0.8 Kt in
  let Kt := nmax #0.075 Kt in
  ret Kt.
(** Default of C1, line 76. *)
Definition C1_permeable : num := #0.64.

(** dangremond1996.py:123-167 *)
Definition calculate_wave_transmission_Kt_impermeable
    (Hsi Tpi h Rc B cot_alpha C1 : num) : M num :=
  calculate_wave_transmission_Kt_permeable Hsi Tpi h Rc B cot_alpha C1 true.
(** Default of C1, line 130. *)
Definition C1_impermeable : num := #0.80.
