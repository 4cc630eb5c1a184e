(** Model of functions/hydraulic/wave_transmission/dangremond1996.py
    for arrays with one axis *)
From Coq Require Import Reals String List Bool.
From Verif.Lib Require Import Num Monad Arr.
From Verif.Model Require Import CoreUtility ArrCore.
Open Scope string_scope.
Open Scope arr_scope.

(** dangremond1996.py:9-66 *)
Definition check_validity (Kt s0p Hsi_over_h Rc_over_Hsi : nums) : M unit :=
  when (given Kt)
    (acheck "Transmission coefficient Kt" "D'Angremond et al. (1996)" Kt #0.075 #0.8) ;;
  when (given s0p)
    (acheck "Wave steepness s0p (dataset limit)" "D'Angremond et al. (1996)" s0p #0 #0.06) ;;
  when (given Hsi_over_h)
    (acheck "Relative water depth Hsi/h (dataset limit)" "D'Angremond et al. (1996)" Hsi_over_h #0 #0.54) ;;
  when (given Rc_over_Hsi)
    (acheck "Relative crest level Rc/Hsi (dataset limit)" "D'Angremond et al. (1996)" Rc_over_Hsi (- #2.5) #2.5).

(** dangremond1996.py:69-120 *)
Definition calculate_wave_transmission_Kt_permeable
    (Hsi Tpi h Rc B cot_alpha C1 : nums) (do_validity_check : bool) : M nums :=
  ksi_0p <- calculate_Iribarren_number_ksi Hsi Tpi cot_alpha ;;
  s0p <- calculate_wave_steepness_s Hsi Tpi g_default ;;
  Kt <- - #0.4 * (Rc / Hsi)
            + apow (B / Hsi) (- #0.31) * (#1 - aexp (- #0.5 * ksi_0p)) * C1 ;;
  when do_validity_check
    (Hsi_over_h <- Hsi / h ;;
     Rc_over_Hsi <- Rc / Hsi ;;
     check_validity Kt s0p Hsi_over_h Rc_over_Hsi) ;;
  Kt <- amin #0.8 Kt ;;
  Kt <- amax #0.075 Kt ;;
  ret Kt.

(** dangremond1996.py:123-167 *)
Definition calculate_wave_transmission_Kt_impermeable
    (Hsi Tpi h Rc B cot_alpha C1 : nums) : M nums :=
  calculate_wave_transmission_Kt_permeable Hsi Tpi h Rc B cot_alpha C1 true.
