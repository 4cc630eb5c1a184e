(** Model of functions/hydraulic/wave_transmission/vangent2024_setup.py
    for arrays with one axis *)
From Coq Require Import Reals String List Bool.
From Verif.Lib Require Import Num Monad Arr.
From Verif.Model Require Import CoreUtility ArrCore.
From Verif.Model Require VanGent2024Setup.
Notation structure := VanGent2024Setup.structure (only parsing).
Notation impermeable := VanGent2024Setup.impermeable (only parsing).
Notation permeable := VanGent2024Setup.permeable (only parsing).
Open Scope string_scope.
Open Scope arr_scope.

(** vangent2024_setup.py:9-110.  Line 88 tests [hc] where the quantity checked
    is [B / Hm0]. *)
Definition check_validity_range (Hm0 Tmm10 Rc B hc Dn50 : nums) (s : structure) : M unit :=
  when (given Hm0 && given Tmm10)
    (smm10 <- calculate_wave_steepness_s Hm0 Tmm10 g_default ;;
     match s with
     | impermeable => acheck "Wave steepness sm-1,0" "Van Gent (2024)" smm10 #0.01 #0.04
     | permeable => acheck "Wave steepness sm-1,0" "Van Gent (2024)" smm10 #0.008 #0.04
     end) ;;
  when (given Hm0 && given Rc)
    match s with
    | impermeable => acheck "Dimensionless freeboard Rc/Hm0" "Van Gent (2024)" (Rc / Hm0) (- #1) #0
    | permeable => acheck "Dimensionless freeboard Rc/Hm0" "Van Gent (2024)" (Rc / Hm0) (- #0.8) #0
    end ;;
  when (given Hm0 && given hc)
    match s with
    | impermeable => ret tt
    | permeable =>
        acheck "Dimensionless submerged structure height hc/Hm0" "Van Gent (2024)" (hc / Hm0) #1.5 #3
    end ;;
  when (given Hm0 && given hc)
    match s with
    | impermeable => ret tt
    | permeable =>
        acheck "Dimensionless submerged structure crest width B/Hm0" "Van Gent (2024)" (B / Hm0) #0.94 #2.35
    end ;;
  when (given Hm0 && given Dn50)
    match s with
    | impermeable => ret tt
    | permeable =>
        acheck "Dimensionless median stone diameter Dn50/Hm0" "Van Gent (2024)" (Dn50 / Hm0) #0.19 #0.47
    end.

(** vangent2024_setup.py:148-186 *)
Definition calculate_dimensionless_structure_induced_setup_impermeable (Hm0 Tmm10 Rc : nums) : M nums :=
  smm10 <- calculate_wave_steepness_s Hm0 Tmm10 g_default ;;
  delta_diml <- #0.34 * apow smm10 #0.4 * apow (Rc / Hm0 + #1.6) #3.5 ;;
  check_validity_range Hm0 Tmm10 Rc anan anan anan impermeable ;;
  ret delta_diml.

(** vangent2024_setup.py:113-145 *)
Definition calculate_structure_induced_setup_delta_impermeable (Hm0 Tmm10 Rc : nums) : M nums :=
  delta_diml <- calculate_dimensionless_structure_induced_setup_impermeable Hm0 Tmm10 Rc ;;
  delta_diml * Hm0.

(** vangent2024_setup.py:227-274 *)
Definition calculate_dimensionless_structure_induced_setup_permeable (Hm0 Tmm10 Rc hc : nums) : M nums :=
  smm10 <- calculate_wave_steepness_s Hm0 Tmm10 g_default ;;
  delta_diml <-
    #0.22 * apow smm10 #0.2 * apow (hc / Hm0) (- #0.7) * apow (Rc / Hm0 + #1.5) #1.5 ;;
  check_validity_range Hm0 Tmm10 Rc anan hc anan permeable ;;
  ret delta_diml.

(** vangent2024_setup.py:189-224 *)
Definition calculate_structure_induced_setup_delta_permeable (Hm0 Tmm10 Rc hc : nums) : M nums :=
  delta_diml <- calculate_dimensionless_structure_induced_setup_permeable Hm0 Tmm10 Rc hc ;;
  delta_diml * Hm0.
