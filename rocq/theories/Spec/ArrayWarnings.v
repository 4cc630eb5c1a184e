(** What validity checks with arrays report. *)
From Coq Require Import List.
From Verif.Lib Require Import Num Monad Arr.
From Verif.Spec Require Import Arrays.

(** The argument is given at every place or at no place. *)
Definition all_or_none (a : nums) : Prop := filled a \/ missing a.

(** When arguments that go together are each given everywhere or nowhere, the check
    issues the warnings that the scalar check issues at some place, and no other, and
    ends as the scalar check does at every place. *)
Definition reports_places (args : list nums) (call : M unit) (scalar : (nums -> num) -> M unit) : Prop :=
  forall sh, common args sh -> sh <> Some 0 -> Forall all_or_none args ->
  (forall i, inside sh i -> value (scalar (place i)) = value call)
  /\ forall w, In w (warns call) <-> exists i, inside sh i /\ In w (warns (scalar (place i))).
