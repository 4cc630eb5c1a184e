(** Missing values.  Among the arguments of a call a missing number is NaN; the
    answer to a call with a missing number should not be a number. *)
From Coq Require Import List.
From Verif.Lib Require Import Num Monad.
Import ListNotations.

(** The answer of a function that only computes. *)
Class answer (A : Type) : Type := { no_number : A -> Prop }.

(** An answer NaN is no number, whatever comes with it. *)
#[global] Instance answer_num : answer num := {| no_number x := x = NaN |}.
#[global] Instance answer_flagged {B} : answer (num * B) := {| no_number x := fst x = NaN |}.
(** A call that returns returns no number. *)
#[global] Instance answer_call {A} `{answer A} : answer (M A) :=
  {| no_number m := forall x, value m = Ok x -> no_number x |}.

(** One of the numbers is missing. *)
Definition missing (l : list num) : Prop := In NaN l.
