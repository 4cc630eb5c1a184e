(** How calls with arrays end and what they report. *)
From Coq Require Import List.
From Verif.Lib Require Import Num Monad Arr.
From Verif.Spec Require Import Arrays ArrayWarnings.

(** What a scalar calculation gives, NaN if it raises. *)
Definition outcome (m : M num) : num := match value m with Ok x => x | Err _ => NaN end.

(** The quantity is a number at every place or at no place. *)
Definition throughout (sh : option nat) (quantity : (nums -> num) -> num) : Prop :=
  (forall i, inside sh i -> isnan (quantity (place i)) = true) \/ (forall i, inside sh i -> isnan (quantity (place i)) = false).

(** When the arguments go together, those that are [checked] are each given everywhere or
    nowhere, and so are the quantities [computed] from the arguments and then checked, the
    call ends as the scalar function does at every place, with the same exception or with
    its result at that place, and issues the warnings that the scalar function issues at
    some place and no other. *)
Definition reports_call (args checked : list nums) (computed : list ((nums -> num) -> num))
    (call : M nums) (scalar : (nums -> num) -> M num) : Prop :=
  forall sh, common args sh -> sh <> Some 0 -> Forall all_or_none checked -> Forall (throughout sh) computed ->
  (forall e, value call = Err e -> forall i, inside sh i -> value (scalar (place i)) = Err e)
  /\ (forall r, value call = Ok r -> forall i, inside sh i -> value (scalar (place i)) = Ok (place i r))
  /\ forall w, In w (warns call) <-> exists i, inside sh i /\ In w (warns (scalar (place i))).
