(** What answers come to for ever larger arguments. *)
From Coq Require Import Reals.
From Verif.Lib Require Import Num Monad.
Open Scope R_scope.

(** From some argument on the answers are numbers within any margin of [l]. *)
Definition comes_to (f : R -> num) (l : R) : Prop :=
  forall e, 0 < e -> exists from, forall x, from < x -> exists w, f x = Fin w /\ Rabs (w - l) < e.
(** From some argument on the answers are numbers above any bound. *)
Definition passes_all_bounds (f : R -> num) : Prop :=
  forall bound, exists from, forall x, from < x -> exists w, f x = Fin w /\ bound < w.

(** The number of a call with one answer, and with an answer and a flag; none
    after an exception. *)
Definition number (m : M num) : num := match value m with Ok v => v | _ => NaN end.
Definition number_of_two (m : M (num * bool)) : num := match value m with Ok (v, _) => v | _ => NaN end.
