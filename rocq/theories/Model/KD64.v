(** Model of get_KD_breaking_trunk_from_seabed_slope in double precision:
    functions/structural/stability_concrete_armour/{accropode,accropode2,
    core_loc}_hudson1959.py, for one number.  Unlike in Model/HudsonUnits.v every
    operation rounds its result.  The validity check, which does not bear on the
    result, is left out.  Not modelled: fused multiply-add, by which a compiler
    of numpy may round once instead of twice. *)
From Coq Require Import Reals List.
From Verif.Lib Require Import Num Binary64.
Import ListNotations.
Open Scope R_scope.

(** A decimal literal in the program and the operations on doubles. *)
Definition literal (q : R) : R := round64 q.
Definition add64 (a b : R) : R := round64 (a + b).
Definition sub64 (a b : R) : R := round64 (a - b).
Definition mul64 (a b : R) : R := round64 (a * b).
Definition div64 (a b : R) : R := round64 (a / b).

(** np.interp(x, xp, fp), numpy/_core/src/multiarray/compiled_base.c: within a
    stretch slope * (x - x0) + f0 with slope = (f1 - f0) / (x1 - x0).  (There
    x = x0 is a case of its own, with the same result.) *)
Fixpoint interp64_from (x x0 f0 : R) (l : list (R * R)) : R :=
  match l with
  | [] => f0
  | (x1, f1) :: l =>
      if Rltb x x1 then add64 (mul64 (div64 (sub64 f1 f0) (sub64 x1 x0)) (sub64 x x0)) f0
      else interp64_from x x1 f1 l
  end.
Definition interp64 (x x0 f0 : R) (l : list (R * R)) : R :=
  if Rltb x x0 then f0 else interp64_from x x0 f0 l.

(** accropode_hudson1959.py:216-220 *)
Definition accropode_KD64 (seabed_slope_perc : R) : R :=
  let kd := interp64 seabed_slope_perc 0 15 [(1, 15); (5, literal 9.7); (10, 8)] in
  mul64 (Rfloor (div64 kd (literal 0.1))) (literal 0.1).
(** accropode2_hudson1959.py:216-220 *)
Definition accropode2_KD64 (seabed_slope_perc : R) : R :=
  let kd := interp64 seabed_slope_perc 0 16 [(1, 16); (5, literal 10.66); (10, 9)] in
  mul64 (Rfloor (div64 kd (literal 0.1))) (literal 0.1).
(** core_loc_hudson1959.py:206-210 *)
Definition core_loc_KD64 (seabed_slope_perc : R) : R :=
  let kd := interp64 seabed_slope_perc 0 16 [(1, 16); (5, literal 10.66); (10, 9)] in
  mul64 (Rfloor (div64 kd (literal 0.1))) (literal 0.1).
