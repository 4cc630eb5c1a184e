(** Model of functions/structural/forces_caisson/goda1985.py for arrays with at most
    one axis, without the dictionaries (see Goda1985.v).  Numbers are python floats,
    gravity is one number. *)
From Coq Require Import Reals String List Bool.
From Verif.Lib Require Import Num Monad Arr ArrFlags ArrLoop.
From Verif.Model Require Import ArrCore.
From Verif.Model Require CorePhysics Goda1985.
Import ListNotations.
Open Scope string_scope.
Open Scope arr_scope.

(** goda1985.py:9-80 *)
Definition check_validity_range (beta cota_seabed Tmax tup Bup h_s B1 : nums) : M unit :=
  when (given beta)
    (acheck "Angle of wave incidence" "Goda (2000)" beta #0 #90) ;;
  when (given cota_seabed)
    (acheck "Seabed slope" "Goda (2000)" cota_seabed #10 #100) ;;
  when (given Tmax)
    (acheck "Wave period" "Goda (2000)" Tmax #0 #30) ;;
  when (given tup && given Bup)%bool
    (acheck "Centre of gravity inside of caisson" "Goda (2000)" (tup / Bup) #0 #1) ;;
  when (given h_s)
    (acheck "Water depth at site" "Goda (2000)" h_s #0 PInf) ;;
  when (given B1)
    (acheck "Width of toe berm" "Goda (2000)" B1 #0 PInf) ;;
  when (given Bup)
    (acheck "Width of caisson upright section" "Goda (2000)" Bup #0 PInf).

(** [any(l)] for a list of np.isnan(x) (lines 133 and 157): python asks for the truth
    values in turn until one of them is True *)
Fixpoint any_is_nan (l : list nums) : M bool :=
  match l with
  | [] => ret false
  | x :: l => missing <- is_nan x ;; if missing : bool then ret true else any_is_nan l
  end.

(** [c1 and c2 and ...] (lines 134-140 and 158-164): in turn until one is False *)
Fixpoint all_hold (l : list (M (arr bool))) : M bool :=
  match l with
  | [] => ret true
  | c :: l => b <- holds c ;; if b : bool then all_hold l else ret false
  end.

(** goda1985.py:83-170 *)
Definition check_impulsive_breaking
    (beta B1 L cota_seabed offshore_wave_steepness Rc Hsi d h_s : nums) : M bool :=
  missing <- any_is_nan [beta; B1; L; cota_seabed; offshore_wave_steepness; Rc; Hsi] ;;
  first <-
    (if missing : bool then ret false
     else all_hold [beta <? #20; B1 / L <? #0.02; cota_seabed <? #50;
                    offshore_wave_steepness <? #0.03; Rc / Hsi >? #0.3]) ;;
  if first : bool then Goda1985.check_true "Impulsive breaking condition 1" ;; ret true
  else
    missing <- any_is_nan [beta; B1; L; d; h_s; Rc; Hsi] ;;
    second <-
      (if missing : bool then ret false
       else all_hold [beta <? #20; #0.02 <? B1 / L; B1 / L <? #0.3; d / h_s <? #0.6; Rc / Hsi >? #0.3]) ;;
    if second : bool then Goda1985.check_true "Impulsive breaking condition 2" ;; ret true
    else ret false.

(** The tuple returned at lines 604-622, in order *)
Definition pressures : Type :=
  (nums * nums * nums * nums * nums * nums * nums * nums * nums * nums * nums * nums * nums * nums * nums * nums * bool)%type.

Section Goda.
Variable disper : num -> num -> num -> num.

(** core_physics.py:374-410 for arrays, modelled in CorePhysics.v *)
Definition py (a : nums) : CoreUtility.pyval := match a with Sc x => CoreUtility.PyFloat x | Ar l => CoreUtility.PyArr l end.
Definition of_py (a : CoreUtility.pyval) : nums :=
  match a with CoreUtility.PyInt x | CoreUtility.PyFloat x => Sc x | CoreUtility.PyArr l => Ar l end.
Definition calculate_local_wavelength (T h : nums) (g : num) : M nums :=
  L <- CorePhysics.calculate_local_wavelength disper (py T) (py h) g ;;
  ret (of_py L).

(** goda1985.py:540-601 *)
Definition calculate_pressures_and_forces
    (HD Hsi Tmax beta h_s d B1 cota_seabed rho_water hacc Rc Bup offshore_wave_steepness : nums) (g : num) : M pressures :=
  beta <- aabs beta ;;
  wide <- holds (beta >=? #15) ;;
  beta_use <-
    (if wide : bool then beta - #15
     else
       narrow <- holds (beta <? #15) ;;
       if narrow : bool then value_of #0 else raise UnboundLocalError) ;;
  cos_beta <- acos (adeg2rad beta_use) ;;
  h_5Hs <- h_s + (Hsi * #5) / cota_seabed ;;
  etastar <- #0.75 * (#1 + cos_beta) * HD ;;
  L <- calculate_local_wavelength Tmax h_s g ;;
  alpha_1 <- #0.6 + #0.5 * apow ((#4 * api * h_s / L) / asinh (#4 * api * h_s / L)) #2 ;;
  alpha_21 <- ((h_5Hs - d) / (#3 * h_5Hs)) * apow (HD / d) #2 ;;
  alpha_22 <- (#2 * d) / HD ;;
  alpha_2 <- amin alpha_21 alpha_22 ;;
  alpha_3 <- #1 - (hacc / h_s) * (#1 - (#1 / acosh (#2 * api * h_s / L))) ;;
  p1 <- #0.5 * (#1 + cos_beta) * (alpha_1 + alpha_2 * apow cos_beta #2) * rho_water * float g * HD ;;
  p2 <- p1 / acosh (#2 * api * h_s / L) ;;
  p3 <- alpha_3 * p1 ;;
  overtopped <- holds (etastar >? Rc) ;;
  p4 <- (if overtopped : bool then p1 * (#1 - (Rc / etastar)) else #0) ;;
  hstar_c <- amin etastar Rc ;;
  pu <- #0.5 * (#1 + cos_beta) * alpha_1 * alpha_3 * rho_water * float g * HD ;;
  FH <- #0.5 * (p1 + p3) * hacc + #0.5 * (p1 + p4) * hstar_c ;;
  MH <- (#1 / #6) * (#2 * p1 + p3) * apow hacc #2
        + #0.5 * (p1 + p4) * hacc * hstar_c
        + (#1 / #6) * (p1 + #2 * p4) * apow hstar_c #2 ;;
  FU <- #0.5 * pu * Bup ;;
  MU <- (#2 / #3) * FU * Bup ;;
  impulsive_breaking <-
    check_impulsive_breaking beta B1 L cota_seabed offshore_wave_steepness Rc Hsi d h_s ;;
  ret (FH, FU, MH, MU, p1, p2, p3, p4, hstar_c, pu, h_5Hs, etastar, L, alpha_1, alpha_2, alpha_3,
       impulsive_breaking).

(** goda1985.py:660-696 *)
Definition calculate_Wup (hacc Rc Bup rho_fill_below_SWL rho_water rho_fill_above_SWL g : nums) : M nums :=
  (hacc * (rho_fill_below_SWL - rho_water) + Rc * rho_fill_above_SWL) * Bup * g.

(** goda1985.py:699-750 *)
Definition calculate_safety_factors (FU FH Wup muf tup MH MU : nums) : M (nums * nums) :=
  SF_sliding <- muf * (Wup - FU) / FH ;;
  SF_overturning <- ((Wup * tup) - MU) / MH ;;
  ret (SF_sliding, SF_overturning).

(** goda1985.py:753-815 *)
Definition calculate_bearing_pressures (Wup tup MH MU FU Bup : nums) : M (nums * nums * nums * nums) :=
  Me <- Wup * tup - MU - MH ;;
  We <- Wup - FU ;;
  te <- Me / We ;;
  narrow <- holds (te <=? #1 / #3 * Bup) ;;
  pe <- (if narrow : bool then (#2 * We) / (#3 * te)
         else (#2 * We / Bup) * (#2 - #3 * (te / Bup))) ;;
  ret (pe, Me, We, te).

(** The tuple returned at lines 355-366, in order *)
Definition reactions : Type := (nums * nums * nums * nums * nums * nums * nums * bool * nums * nums)%type.

(** goda1985.py:173-366 *)
Definition calculate_forces_and_reactions
    (HD Hsi Tmax beta h_s d B1 cota_seabed rho_water hacc Rc Bup
     rho_fill_above_SWL rho_fill_below_SWL offshore_wave_steepness muf tup_over_Bup : nums) (g : num) : M reactions :=
  '(FH, FU, MH, MU, p1, p2, p3, p4, hstar_c, pu, h_5Hs, etastar, L, alpha_1, alpha_2, alpha_3,
    impulsive_breaking) <-
    calculate_pressures_and_forces HD Hsi Tmax beta h_s d B1 cota_seabed rho_water hacc Rc Bup
      offshore_wave_steepness g ;;
  tup <- tup_over_Bup * Bup ;;
  Wup <- calculate_Wup hacc Rc Bup rho_fill_below_SWL rho_water rho_fill_above_SWL (float g) ;;
  '(pe, Me, We, te) <- calculate_bearing_pressures Wup tup MH MU FU Bup ;;
  '(SF_sliding, SF_overturning) <- calculate_safety_factors FU FH Wup muf tup MH MU ;;
  check_validity_range beta cota_seabed Tmax tup Bup h_s anan ;;
  ret (FH, FU, MH, MU, p1, pe, pu, impulsive_breaking, SF_sliding, SF_overturning).
End Goda.
