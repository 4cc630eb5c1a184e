(** Model of functions/hydraulic/wave_transmission/briganti2003.py *)
From Coq Require Import Reals String List Bool.
From Verif.Lib Require Import Num Monad.
From Verif.Model Require Import CoreUtility CorePhysics Numpy DAngremond1996.
Open Scope string_scope.
Open Scope num_scope.

(** briganti2003.py:10-42 *)
Definition check_validity (s0p ksi_0p : num) : M unit :=
  when (provided s0p)
    (check "Wave steepness s0p" "Briganti (2003)" s0p #0.005 #0.07) ;;
  when (provided ksi_0p)
    (check "Surf similarity parameter ksi_0p" "Briganti (2003)" ksi_0p #0.5 #10).

(** briganti2003.py:87-115, the branch for scalars *)
Definition calculate_wave_transmission_Kt (Hsi Tpi Rc B cot_alpha : num) : M num :=
  let B_over_Hsi := B / Hsi in
  let ksi_0p := calculate_Iribarren_number_ksi Hsi Tpi cot_alpha in
  let s0p := calculate_wave_steepness_s Hsi Tpi g_default in
  Kt <- (if B_over_Hsi <? #10 then
           DAngremond1996.calculate_wave_transmission_Kt_permeable
             Hsi Tpi NaN Rc B cot_alpha DAngremond1996.C1_permeable false
         else
           ret (- #0.35 * (Rc / Hsi)
                + (#0.51 * npow (B / Hsi) (- #0.65)) * (#1 - nexp (- #0.41 * ksi_0p)))) ;;
  let Ktu := - #0.006 * (B / Hsi) + #0.93 in
  let Kt := nmin Kt Ktu in
  let Kt := nmax #0.05 Kt in
  check_validity s0p ksi_0p ;;
  ret Kt.

(** briganti2003.py:116-119, the branch taken when B or Hsi is an array; the
    five arguments are given as one list of tuples (already broadcast). *)
Definition calculate_wave_transmission_Kt_array (l : list (num * num * num * num * num))
  : M (list num) :=
  vectorize (fun '(Hsi, Tpi, Rc, B, cot_alpha) =>
    Kt <- calculate_wave_transmission_Kt Hsi Tpi Rc B cot_alpha ;; ret (PyFloat Kt)) l.
