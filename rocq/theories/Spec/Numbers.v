(** Answers that are numbers. *)
From Coq Require Import Reals List.
From Verif.Lib Require Import Num Monad.
Open Scope R_scope.

(** The answer is a finite number with a property. *)
Class numeric (A : Type) : Type := { number_with : (R -> Prop) -> A -> Prop }.
#[global] Instance numeric_num : numeric num := {| number_with P x := exists r, x = Fin r /\ P r |}.
#[global] Instance numeric_flagged {B} : numeric (num * B) := {| number_with P x := exists r, fst x = Fin r /\ P r |}.
(** A call returns, and returns such a number. *)
#[global] Instance numeric_call {A} `{numeric A} : numeric (M A) :=
  {| number_with P m := exists x, value m = Ok x /\ number_with P x |}.

Definition positive (r : R) : Prop := 0 < r.
Definition not_negative (r : R) : Prop := 0 <= r.
Definition any (r : R) : Prop := True.

(** Every number of a list is positive. *)
Definition positives (l : list R) : Prop := Forall positive l.
