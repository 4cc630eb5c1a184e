(** What calls with arrays report, also when not all arguments bear on the shape of the
    result. *)
From Coq Require Import List.
From Verif.Lib Require Import Num Monad Arr.
From Verif.Spec Require Import Arrays ArrayWarnings.

(** The arguments [args] go together to a shape to which those that are [beside] them
    stretch as well, and those that are [checked] are each given everywhere or nowhere.
    Then the call issues the warnings that the scalar function issues at some place, and
    no other. *)
Definition warned {A B} (args beside checked : list nums) (call : M A) (scalar : (nums -> num) -> M B) : Prop :=
  forall sh, common args sh -> Forall (fun a => stretches (shape a) sh) beside -> sh <> Some 0 -> Forall all_or_none checked ->
  forall w, In w (warns call) <-> exists i, inside sh i /\ In w (warns (scalar (place i))).

(** The call issues no warning. *)
Definition silent {A} (call : M A) : Prop := warns call = nil.
