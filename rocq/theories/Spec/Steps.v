(** Where the answer of a function changes little with its argument, and where it
    makes a step. *)
From Coq Require Import Reals.
From Verif.Lib Require Import Num Monad.
Open Scope R_scope.

(** [f] gives a number at [x], and numbers as near to it as one likes near [x]. *)
Definition steady (f : R -> num) (x : R) : Prop :=
  exists v, f x = Fin v
    /\ forall e, 0 < e -> exists d, 0 < d
       /\ forall y, Rabs (y - x) < d -> exists w, f y = Fin w /\ Rabs (w - v) < e.

(** The answers for arguments just above and just below [x] come as near to [l] as one likes. *)
Definition just_above (f : R -> num) (x l : R) : Prop :=
  forall e, 0 < e -> exists d, 0 < d /\ forall y, x < y < x + d -> exists w, f y = Fin w /\ Rabs (w - l) < e.
Definition just_below (f : R -> num) (x l : R) : Prop :=
  forall e, 0 < e -> exists d, 0 < d /\ forall y, x - d < y < x -> exists w, f y = Fin w /\ Rabs (w - l) < e.

(** A step at [x]: [below] just below it, [here] at it and [above] just above it. *)
Definition step (f : R -> num) (x below here above : R) : Prop :=
  just_below f x below /\ f x = Fin here /\ just_above f x above /\ below <> above.

(** The number a call answers with; a call that raises an exception answers with none. *)
Definition answer (m : M num) : num := match value m with Ok v => v | _ => NaN end.
