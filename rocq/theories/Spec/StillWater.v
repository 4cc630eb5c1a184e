(** The answer of a call in still water. *)
From Verif.Lib Require Import Num Monad.

(** The first component of the answer is the given number, infinity or NaN. *)
Class answering (A : Type) : Type := { answer_is : num -> A -> Prop }.
#[global] Instance answering_num : answering num := {| answer_is r x := x = r |}.
#[global] Instance answering_flagged {B} : answering (num * B) := {| answer_is r x := fst x = r |}.
(** A call returns, with that answer. *)
#[global] Instance answering_call {A} `{answering A} : answering (M A) :=
  {| answer_is r m := exists x, value m = Ok x /\ answer_is r x |}.
