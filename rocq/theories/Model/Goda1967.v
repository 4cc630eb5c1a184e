(** Model of functions/hydraulic/wave_transmission/goda1967_caisson.py *)
From Coq Require Import Reals String List Bool.
From Verif.Lib Require Import Num Monad.
From Verif.Model Require Import CoreUtility Numpy.
Open Scope num_scope.

(** goda1967_caisson.py:49-58, the branch for scalars.  Line 54 returns the
    python integer 1, the others floats. *)
Definition calculate_wave_transmission_Kt (Hsi Rc alpha_1 beta_1 : num) : pyval :=
  let Rc_over_Hsi := Rc / Hsi in
  if Rc_over_Hsi <=? - #1 * alpha_1 - beta_1 then PyInt #1
  else if Rc_over_Hsi <=? alpha_1 - beta_1 then
    PyFloat (#0.5 * (#1 - nsin ((npi / #2) * ((Rc_over_Hsi + beta_1) / alpha_1))))
  else PyFloat #0.03.

(** goda1967_caisson.py:60-63, the branch taken when Rc or Hsi is an array; the
    two are given as one list of pairs (already broadcast). *)
Definition calculate_wave_transmission_Kt_array (l : list (num * num)) (alpha_1 beta_1 : num)
  : M (list num) :=
  vectorize (fun '(Hsi, Rc) => ret (calculate_wave_transmission_Kt Hsi Rc alpha_1 beta_1)) l.

(** Defaults, lines 14-15. *)
Definition alpha_1_default : num := #2.2.
Definition beta_1_default : num := #0.4.
