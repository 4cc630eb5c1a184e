(** Model of functions/hydraulic/wave_transmission/vangent2024_setup.py *)
From Coq Require Import Reals String List Bool.
From Verif.Lib Require Import Num Monad.
From Verif.Model Require Import CoreUtility CorePhysics.
Open Scope string_scope.
Open Scope num_scope.

(** The two structure types the module distinguishes: every [match] of
    check_validity_range has the cases "impermeable" and "permeable" only. *)
Inductive structure : Type := impermeable | permeable.

(** vangent2024_setup.py:9-110.  Line 88 tests [hc] where the quantity checked
    is [B / Hm0]. *)
Definition check_validity_range (Hm0 Tmm10 Rc B hc Dn50 : num) (s : structure) : M unit :=
  when (provided Hm0 && provided Tmm10)
    (let smm10 := calculate_wave_steepness_s Hm0 Tmm10 g_default in
     match s with
     | impermeable => check "Wave steepness sm-1,0" "Van Gent (2024)" smm10 #0.01 #0.04
     | permeable => check "Wave steepness sm-1,0" "Van Gent (2024)" smm10 #0.008 #0.04
     end) ;;
  when (provided Hm0 && provided Rc)
    match s with
    | impermeable => check "Dimensionless freeboard Rc/Hm0" "Van Gent (2024)" (Rc / Hm0) (- #1) #0
    | permeable => check "Dimensionless freeboard Rc/Hm0" "Van Gent (2024)" (Rc / Hm0) (- #0.8) #0
    end ;;
  when (provided Hm0 && provided hc)
    match s with
    | impermeable => ret tt
    | permeable =>
        check "Dimensionless submerged structure height hc/Hm0" "Van Gent (2024)" (hc / Hm0) #1.5 #3
    end ;;
  when (provided Hm0 && provided hc)
    match s with
    | impermeable => ret tt
    | permeable =>
        check "Dimensionless submerged structure crest width B/Hm0" "Van Gent (2024)" (B / Hm0) #0.94 #2.35
    end ;;
  when (provided Hm0 && provided Dn50)
    match s with
    | impermeable => ret tt
    | permeable =>
        check "Dimensionless median stone diameter Dn50/Hm0" "Van Gent (2024)" (Dn50 / Hm0) #0.19 #0.47
    end.

(** vangent2024_setup.py:148-186 *)
Definition calculate_dimensionless_structure_induced_setup_impermeable (Hm0 Tmm10 Rc : num) : M num :=
  let smm10 := calculate_wave_steepness_s Hm0 Tmm10 g_default in
  let delta_diml := #0.34 * npow smm10 #0.4 * npow (Rc / Hm0 + #1.6) #3.5 in
  check_validity_range Hm0 Tmm10 Rc NaN NaN NaN impermeable ;;
  ret delta_diml.

(** vangent2024_setup.py:113-145 *)
Definition calculate_structure_induced_setup_delta_impermeable (Hm0 Tmm10 Rc : num) : M num :=
  delta_diml <- calculate_dimensionless_structure_induced_setup_impermeable Hm0 Tmm10 Rc ;;
  ret (delta_diml * Hm0).

(** vangent2024_setup.py:227-274 *)
Definition calculate_dimensionless_structure_induced_setup_permeable (Hm0 Tmm10 Rc hc : num) : M num :=
  let smm10 := calculate_wave_steepness_s Hm0 Tmm10 g_default in
  let delta_diml :=
    #0.22 * npow smm10 #0.2 * npow (hc / Hm0) (- #0.7) * npow (Rc / Hm0 + #1.5) #1.5 in
  check_validity_range Hm0 Tmm10 Rc NaN hc NaN permeable ;;
  ret delta_diml.

(** vangent2024_setup.py:189-224 *)
Definition calculate_structure_induced_setup_delta_permeable (Hm0 Tmm10 Rc hc : num) : M num :=
  delta_diml <- calculate_dimensionless_structure_induced_setup_permeable Hm0 Tmm10 Rc hc ;;
  ret (delta_diml * Hm0).
