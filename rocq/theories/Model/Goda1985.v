(** Model of functions/structural/forces_caisson/goda1985.py, for scalar
    arguments.  Every function that needs a wave length takes the external
    routine [disper] (see CorePhysics.v). *)
From Coq Require Import Reals String List Bool ZArith.
From Verif.Lib Require Import Num Monad.
From Verif.Model Require Import CoreUtility CorePhysics Numpy.
Import ListNotations.
Open Scope string_scope.
Open Scope num_scope.

(** goda1985.py:9-80 *)
Definition check_validity_range (beta cota_seabed Tmax tup Bup h_s B1 : num) : M unit :=
  when (provided beta)
    (check "Angle of wave incidence" "Goda (2000)" beta #0 #90) ;;
  when (provided cota_seabed)
    (check "Seabed slope" "Goda (2000)" cota_seabed #10 #100) ;;
  when (provided Tmax)
    (check "Wave period" "Goda (2000)" Tmax #0 #30) ;;
  when (provided tup && provided Bup)
    (check "Centre of gravity inside of caisson" "Goda (2000)" (tup / Bup) #0 #1) ;;
  when (provided h_s)
    (check "Water depth at site" "Goda (2000)" h_s #0 PInf) ;;
  when (provided B1)
    (check "Width of toe berm" "Goda (2000)" B1 #0 PInf) ;;
  when (provided Bup)
    (check "Width of caisson upright section" "Goda (2000)" Bup #0 PInf).

(** check_variable_validity_range(name, "Goda (2000)", True, False, False), lines
    142-144 and 165-167: True and False compare as 1 and 0. *)
Definition check_true (name : string) : M unit := check name "Goda (2000)" #1 #0 #0.

(** goda1985.py:83-170 *)
Definition check_impulsive_breaking
    (beta B1 L cota_seabed offshore_wave_steepness Rc Hsi d h_s : num) : M bool :=
  if negb (existsb isnan [beta; B1; L; cota_seabed; offshore_wave_steepness; Rc; Hsi])
     && ((beta <? #20) && (B1 / L <? #0.02) && (cota_seabed <? #50)
         && (offshore_wave_steepness <? #0.03) && (Rc / Hsi >? #0.3))
  then check_true "Impulsive breaking condition 1" ;; ret true
  else if negb (existsb isnan [beta; B1; L; d; h_s; Rc; Hsi])
     && ((beta <? #20) && (#0.02 <? B1 / L) && (B1 / L <? #0.3)
         && (d / h_s <? #0.6) && (Rc / Hsi >? #0.3))
  then check_true "Impulsive breaking condition 2" ;; ret true
  else ret false.

(** The values of a dictionary of results. *)
Inductive entry : Type := ENum (x : num) | EBool (b : bool) | ENone.

(** The tuple returned at lines 604-622, in order. *)
Definition pressures : Type :=
  (num * num * num * num * num * num * num * num * num * num * num * num * num * num * num * num * bool)%type.

(** The same values before they are returned, and the dictionary of lines
    625-655. *)
Definition dict : Type := list (string * entry).

Section Goda.
Variable disper : num -> num -> num -> num.

(** goda1985.py:540-601.  A NaN fails both tests of lines 541 and 543 and
    leaves beta_use unbound. *)
Definition calculate_pressures_and_forces
    (HD Hsi Tmax beta h_s d B1 cota_seabed rho_water hacc Rc Bup offshore_wave_steepness g : num)
    : M (pressures * dict) :=
  let beta := nabs beta in
  beta_use <- (if beta >=? #15 then ret (beta - #15)
               else if beta <? #15 then ret #0
               else raise UnboundLocalError) ;;
  let cos_beta := ncos (deg2rad beta_use) in
  let h_5Hs := h_s + (Hsi * #5) / cota_seabed in
  let etastar := #0.75 * (#1 + cos_beta) * HD in
  let L := local_wavelength disper Tmax h_s g in
  let alpha_1 :=
    #0.6 + #0.5 * npow ((#4 * npi * h_s / L) / nsinh (#4 * npi * h_s / L)) #2 in
  let alpha_21 := ((h_5Hs - d) / (#3 * h_5Hs)) * npow (HD / d) #2 in
  let alpha_22 := (#2 * d) / HD in
  let alpha_2 := nmin alpha_21 alpha_22 in
  let alpha_3 := #1 - (hacc / h_s) * (#1 - (#1 / ncosh (#2 * npi * h_s / L))) in
  let p1 := #0.5 * (#1 + cos_beta) * (alpha_1 + alpha_2 * npow cos_beta #2) * rho_water * g * HD in
  let p2 := p1 / ncosh (#2 * npi * h_s / L) in
  let p3 := alpha_3 * p1 in
  let p4 := if etastar >? Rc then p1 * (#1 - (Rc / etastar)) else #0 in
  let hstar_c := nmin etastar Rc in
  let pu := #0.5 * (#1 + cos_beta) * alpha_1 * alpha_3 * rho_water * g * HD in
  let FH := #0.5 * (p1 + p3) * hacc + #0.5 * (p1 + p4) * hstar_c in
  let MH := (#1 / #6) * (#2 * p1 + p3) * npow hacc #2
            + #0.5 * (p1 + p4) * hacc * hstar_c
            + (#1 / #6) * (p1 + #2 * p4) * npow hstar_c #2 in
  let FU := #0.5 * pu * Bup in
  let MU := (#2 / #3) * FU * Bup in
  impulsive_breaking <-
    check_impulsive_breaking beta B1 L cota_seabed offshore_wave_steepness Rc Hsi d h_s ;;
  ret ((FH, FU, MH, MU, p1, p2, p3, p4, hstar_c, pu, h_5Hs, etastar, L, alpha_1, alpha_2, alpha_3,
        impulsive_breaking),
       [("FH", ENum FH); ("MH", ENum MH); ("FU", ENum FU); ("MU", ENum MU);
        ("hstar_c", ENum hstar_c); ("h_5Hs", ENum h_5Hs);
        ("p1", ENum p1); ("p2", ENum p2); ("p3", ENum p3); ("p4", ENum p4); ("pu", ENum pu);
        ("etastar", ENum etastar);
        ("alpha1", ENum alpha_1); ("alpha2", ENum alpha_2); ("alpha3", ENum alpha_3);
        ("HD", ENum HD); ("Hsi", ENum Hsi); ("Tmax", ENum Tmax); ("beta", ENum beta);
        ("h_s", ENum h_s); ("d", ENum d); ("L", ENum L); ("cota_seabed", ENum cota_seabed);
        ("rho_water", ENum rho_water); ("hacc", ENum hacc); ("Rc", ENum Rc); ("Bup", ENum Bup);
        ("g", ENum g); ("impulsive_breaking", EBool impulsive_breaking)]).

(** Lines 603-622: return_dict is False. *)
Definition calculate_pressures_and_forces_tuple
    (HD Hsi Tmax beta h_s d B1 cota_seabed rho_water hacc Rc Bup offshore_wave_steepness g : num) : M pressures :=
  r <- calculate_pressures_and_forces HD Hsi Tmax beta h_s d B1 cota_seabed rho_water hacc Rc Bup
         offshore_wave_steepness g ;;
  ret (fst r).

(** Lines 623-657: return_dict is True. *)
Definition calculate_pressures_and_forces_dict
    (HD Hsi Tmax beta h_s d B1 cota_seabed rho_water hacc Rc Bup offshore_wave_steepness g : num) : M dict :=
  r <- calculate_pressures_and_forces HD Hsi Tmax beta h_s d B1 cota_seabed rho_water hacc Rc Bup
         offshore_wave_steepness g ;;
  ret (snd r).

(** goda1985.py:660-696 *)
Definition calculate_Wup (hacc Rc Bup rho_fill_below_SWL rho_water rho_fill_above_SWL g : num) : num :=
  (hacc * (rho_fill_below_SWL - rho_water) + Rc * rho_fill_above_SWL) * Bup * g.

(** goda1985.py:699-750 *)
Definition calculate_safety_factors (FU FH Wup muf tup MH MU : num) : num * num :=
  (muf * (Wup - FU) / FH, ((Wup * tup) - MU) / MH).

(** goda1985.py:753-815 *)
Definition calculate_bearing_pressures (Wup tup MH MU FU Bup : num) : num * num * num * num :=
  let Me := Wup * tup - MU - MH in
  let We := Wup - FU in
  let te := Me / We in
  let pe := if te <=? #1 / #3 * Bup
            then (#2 * We) / (#3 * te)
            else (#2 * We / Bup) * (#2 - #3 * (te / Bup)) in
  (pe, Me, We, te).

(** The tuple returned at lines 355-366, in order. *)
Definition reactions : Type := (num * num * num * num * num * num * num * bool * num * num)%type.

(** goda1985.py:173-407.  Line 350 stores what check_validity_range returns,
    which is None, and does not pass B1 on to it. *)
Definition calculate_forces_and_reactions
    (HD Hsi Tmax beta h_s d B1 cota_seabed rho_water hacc Rc Bup
     rho_fill_above_SWL rho_fill_below_SWL offshore_wave_steepness muf tup_over_Bup g : num)
    : M (reactions * dict) :=
  '(FH, FU, MH, MU, p1, p2, p3, p4, hstar_c, pu, h_5Hs, etastar, L, alpha_1, alpha_2, alpha_3,
    impulsive_breaking) <-
    calculate_pressures_and_forces_tuple HD Hsi Tmax beta h_s d B1 cota_seabed rho_water hacc Rc Bup
      offshore_wave_steepness g ;;
  let tup := tup_over_Bup * Bup in
  let Wup := calculate_Wup hacc Rc Bup rho_fill_below_SWL rho_water rho_fill_above_SWL g in
  let '(pe, Me, We, te) := calculate_bearing_pressures Wup tup MH MU FU Bup in
  let '(SF_sliding, SF_overturning) := calculate_safety_factors FU FH Wup muf tup MH MU in
  check_validity_range beta cota_seabed Tmax tup Bup h_s NaN ;;
  ret ((FH, FU, MH, MU, p1, pe, pu, impulsive_breaking, SF_sliding, SF_overturning),
       [("SF_overturning", ENum SF_overturning); ("SF_sliding", ENum SF_sliding);
        ("tup", ENum tup); ("Wup", ENum Wup); ("te", ENum te); ("We", ENum We); ("Me", ENum Me);
        ("pe", ENum pe); ("FH", ENum FH); ("MH", ENum MH); ("FU", ENum FU); ("MU", ENum MU);
        ("hstar_c", ENum hstar_c); ("h_5Hs", ENum h_5Hs);
        ("p1", ENum p1); ("p2", ENum p2); ("p3", ENum p3); ("p4", ENum p4); ("pu", ENum pu);
        ("etastar", ENum etastar);
        ("alpha1", ENum alpha_1); ("alpha2", ENum alpha_2); ("alpha3", ENum alpha_3);
        ("HD", ENum HD); ("Hsi", ENum Hsi); ("Tmax", ENum Tmax); ("beta", ENum beta);
        ("h_s", ENum h_s); ("d", ENum d); ("L", ENum L); ("cota_seabed", ENum cota_seabed);
        ("rho_water", ENum rho_water); ("hacc", ENum hacc); ("Rc", ENum Rc); ("B_up", ENum Bup);
        ("g", ENum g); ("impulsive_breaking", EBool impulsive_breaking); ("is_valid", ENone)]).

(** Lines 354-366 and 367-409. *)
Definition calculate_forces_and_reactions_tuple
    (HD Hsi Tmax beta h_s d B1 cota_seabed rho_water hacc Rc Bup
     rho_fill_above_SWL rho_fill_below_SWL offshore_wave_steepness muf tup_over_Bup g : num) : M reactions :=
  r <- calculate_forces_and_reactions HD Hsi Tmax beta h_s d B1 cota_seabed rho_water hacc Rc Bup
         rho_fill_above_SWL rho_fill_below_SWL offshore_wave_steepness muf tup_over_Bup g ;;
  ret (fst r).
Definition calculate_forces_and_reactions_dict
    (HD Hsi Tmax beta h_s d B1 cota_seabed rho_water hacc Rc Bup
     rho_fill_above_SWL rho_fill_below_SWL offshore_wave_steepness muf tup_over_Bup g : num) : M dict :=
  r <- calculate_forces_and_reactions HD Hsi Tmax beta h_s d B1 cota_seabed rho_water hacc Rc Bup
         rho_fill_above_SWL rho_fill_below_SWL offshore_wave_steepness muf tup_over_Bup g ;;
  ret (snd r).
End Goda.

(** Defaults, lines 186-191. *)
Definition rho_fill_above_SWL_default : num := #2400.
Definition rho_fill_below_SWL_default : num := #2100.
Definition muf_default : num := #0.6.
Definition tup_over_Bup_default : num := #0.5.
