(** Model of functions/hydraulic/wave_transmission/vangent2023.py *)
From Coq Require Import Reals String List Bool.
From Verif.Lib Require Import Num Monad.
From Verif.Model Require Import CoreUtility CorePhysics.
Open Scope string_scope.
Open Scope num_scope.

Section Transmission.
(** The external wave-number solver, see CorePhysics. *)
Variable disper : num -> num -> num -> num.

(** Wavelength for the depth 1e100 of lines 56 and 160. *)
Definition very_deep : num := Fin (10 ^ 100)%R.
Definition deep_wavelength (T : num) : num := local_wavelength disper T very_deep g_default.

(** vangent2023.py:9-74; not called by the function below *)
Definition check_validity_range (Hm0 Tmm10 Rc B : num) (structure_type : string) : M unit :=
  when (provided Hm0 && provided Rc)
    (if structure_type =? "permeable"
     then check "Dimensionless crest height Rc / Hm0" "Van Gent et al. (2023)" (Rc / Hm0)%num (- #2.5)%num #2.5
     else check "Dimensionless crest height Rc / Hm0" "Van Gent et al. (2023)" (Rc / Hm0)%num (- #2.5)%num #0)%string ;;
  when (provided B && provided Tmm10)
    (let Lmm10 := deep_wavelength Tmm10 in
     check "Dimensionless crest width B / Lm-1,0" "Van Gent et al. (2023)" (B / Lmm10) #0.017 #0.27) ;;
  when (provided Hm0 && provided B)
    (check "Dimensionless crest width B / Hm0" "Van Gent et al. (2023)" (B / Hm0) #0.9 #10.6).

(** The coefficients of vangent2023.py:121-157 *)
Definition coefficients (structure_type : string) : M (num * num * num * num * num) :=
  if (structure_type =? "impermeable")%string then ret (#0.47, #3.1, #0.75, #0, #0.5)
  else if (structure_type =? "permeable")%string then ret (#0.43, #3.1, #0.75, - #0.25, #0.5)
  else if (structure_type =? "perforated")%string then ret (#0.13, #3.1, #0.75, - #0.15, #0.82)
  else if (structure_type =? "perforated_with_screen")%string then
    ret (#0.40, #3.1, #0.75, - #0.15, #0.5)
  else if (structure_type =? "perforated_with_perforated_screen")%string then
    ret (#0.17, #3.1, #0.75, - #0.15, #0.76)
  else raise ValueError.

(** vangent2023.py:77-164 *)
Definition calculate_wave_transmission_Kt
    (Hm0 Tmm10 Rc B : num) (structure_type : string) : M num :=
  '(c1, c2, c3, c4, c5) <- coefficients structure_type ;;
  let Lmm10 := deep_wavelength Tmm10 in
  ret (c1 * ntanh (- ((Rc / Hm0) + c2 * npow (B / Lmm10) c3 + c4)) + c5).
End Transmission.
