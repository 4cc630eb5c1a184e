(** numpy table functions on scalars. *)
From Coq Require Import Reals List Bool.
From Verif.Lib Require Import Num Monad.
Import ListNotations.
Open Scope num_scope.

(** np.searchsorted(a, v, "right") on a sorted array: the number of entries
    before the first entry above v; NaN is sorted after everything. *)
Fixpoint searchsorted_right (a : list num) (v : num) : nat :=
  match a with
  | [] => O
  | x :: a => if v <? x then O else S (searchsorted_right a v)
  end.

(** a[i] for a non-negative index *)
Definition index (a : list num) (i : nat) : M num :=
  match nth_error a i with Some x => ret x | None => raise IndexError end.

(** np.interp(x, xp, fp) for increasing xp: constant beyond the ends, linear in
    between; NaN for NaN. *)
Fixpoint interp_from (x x0 f0 : num) (l : list (num * num)) : num :=
  match l with
  | [] => f0
  | (x1, f1) :: l =>
      if x <? x1 then (f1 - f0) / (x1 - x0) * (x - x0) + f0
      else interp_from x x1 f1 l
  end.
Definition interp (x : num) (l : list (num * num)) : num :=
  match l with
  | [] => NaN
  | (x0, f0) :: l => if isnan x then NaN else if x <? x0 then f0 else interp_from x x0 f0 l
  end.
