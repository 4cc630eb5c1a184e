(** Model of functions/hydraulic/wave_runup/vangent2001.py
    for arrays with one axis *)
From Coq Require Import Reals String List Bool.
From Verif.Lib Require Import Num Monad Arr.
From Verif.Model Require Import ArrCore.
Open Scope arr_scope.

(** vangent2001.py:173-226 *)
Definition calculate_wave_runup_height_zXp (H Tmm10 gamma cot_alpha c0 c1 : nums) : M nums :=
  ksi_mm10 <- calculate_Iribarren_number_ksi H Tmm10 cot_alpha ;;
  p <- #0.5 * c1 / c0 ;;
  zXp_a <- c0 * ksi_mm10 * gamma * H ;;
  c2 <- #0.25 * apow c1 #2 / c0 ;;
  zXp_b <- (c1 - c2 / ksi_mm10) * gamma * H ;;
  where_ (ksi_mm10 <? p) zXp_a zXp_b.

(** vangent2001.py:8-52 *)
Definition calculate_wave_runup_height_z1p (Hs Tmm10 gamma cot_alpha c0 c1 : nums) : M nums :=
  calculate_wave_runup_height_zXp Hs Tmm10 gamma cot_alpha c0 c1.

(** vangent2001.py:55-123; NaN is the default of Hm0 and Hs.  Lines 107 and 110 take
    the truth values of [np.isnan], evaluated from left to right. *)
Definition isnan_truth (x : nums) : M bool := truth (amap isnan x).
Definition calculate_wave_runup_height_z2p (Tmm10 gamma cot_alpha Hm0 Hs c0 c1 : nums) : M nums :=
  neither <- (b <- isnan_truth Hm0 ;; if b : bool then isnan_truth Hs else ret false) ;;
  both <- (if neither : bool then ret true
           else b <- isnan_truth Hs ;;
                if b : bool then ret false else b <- isnan_truth Hm0 ;; ret (negb b)) ;;
  if both : bool then raise ValueError
  else
    only_Hm0 <- (b <- isnan_truth Hs ;; if b : bool then b <- isnan_truth Hm0 ;; ret (negb b) else ret false) ;;
    if only_Hm0 : bool then calculate_wave_runup_height_zXp Hm0 Tmm10 gamma cot_alpha #1.45 #3.8
    else calculate_wave_runup_height_zXp Hs Tmm10 gamma cot_alpha c0 c1.

(** vangent2001.py:126-170 *)
Definition calculate_wave_runup_height_z10p (Hs Tmm10 gamma cot_alpha c0 c1 : nums) : M nums :=
  calculate_wave_runup_height_zXp Hs Tmm10 gamma cot_alpha c0 c1.

(** vangent2001.py:229-252, _invert_for_Hs *)
Definition invert_for_Hs (Hs_i0 z1p Tmm10 gamma cot_alpha c0 c1 : nums) : M nums :=
  ksi_mm10 <- calculate_Iribarren_number_ksi Hs_i0 Tmm10 cot_alpha ;;
  p <- #0.5 * c1 / c0 ;;
  H_a <- z1p / (c0 * ksi_mm10 * gamma) ;;
  c2 <- #0.25 * apow c1 #2 / c0 ;;
  H_b <- z1p / ((c1 - c2 / ksi_mm10) * gamma) ;;
  where_ (ksi_mm10 <? p) H_a H_b.
