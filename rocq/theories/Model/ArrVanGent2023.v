(** Model of functions/hydraulic/wave_transmission/vangent2023.py for arrays with
    one axis *)
From Coq Require Import Reals String List Bool.
From Verif.Lib Require Import Num Monad Arr.
From Verif.Model Require Import CorePhysics ArrCore.
From Verif.Model Require VanGent2023.
Open Scope arr_scope.

Section Transmission.
(** The external wave-number solver, see CorePhysics. *)
Variable disper : num -> num -> num -> num.

(** core_physics.py:374-410 for the scalar depth 1e100 of vangent2023.py:160: line
    398 keeps entry 0 of what the solver returns for all periods.  (That an empty
    array of periods gives an empty answer, so an IndexError, is an assumption
    on the solver.) *)
Definition deep_wavelength (T : nums) : M nums :=
  match entries T with
  | (t :: _)%list => ret (Sc (VanGent2023.deep_wavelength disper t))
  | nil => raise IndexError
  end.

(** The coefficients of vangent2023.py:121-157 *)
Definition coefficient (x : num) : nums := Sc x.

(** vangent2023.py:77-164 *)
Definition calculate_wave_transmission_Kt (Hm0 Tmm10 Rc B : nums) (structure_type : string) : M nums :=
  '(c1, c2, c3, c4, c5) <- VanGent2023.coefficients structure_type ;;
  Lmm10 <- deep_wavelength Tmm10 ;;
  coefficient c1 * atanh (- ((Rc / Hm0) + coefficient c2 * apow (B / Lmm10) (coefficient c3) + coefficient c4)) + coefficient c5.
End Transmission.
