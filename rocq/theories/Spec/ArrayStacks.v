(** Calls with arrays that put two results of their own on top of each other. *)
From Coq Require Import Reals List.
From Verif.Lib Require Import Num Monad Arr.
From Verif.Spec Require Import Arrays ArrayFlags.
Import ListNotations.

(** The call works place by place; arguments that do not broadcast together are a
    ValueError. *)
Definition place_by_place (args : list nums) (call : M nums) (scalar : (nums -> num) -> res num) : Prop :=
  (forall sh, common args sh ->
     exists r, value call = Ok r /\ shape r = sh /\ forall i, inside sh i -> scalar (place i) = Ok (place i r))
  /\ (~ compatible args -> value call = Err ValueError).

(** The call works place by place when both lists of arguments broadcast to one and
    the same shape; otherwise, also when all arguments together would broadcast, it
    is a ValueError. *)
Definition flagged_both (args args' : list nums) (call : M (nums * arr bool)) (scalar : (nums -> num) -> res (num * bool)) : Prop :=
  (forall sh, common args sh -> common args' sh -> answers sh call scalar)
  /\ (~ (exists sh, common args sh /\ common args' sh) -> value call = Err ValueError).

(** Oblique waves enter through the influence factor; the angle counts when no factor
    is given, and then the roughness, on which the coefficient depends, is one
    number. *)
Definition oblique_with (beta gamma_beta gamma_f ob : nums) : Prop :=
  (filled gamma_beta /\ ob = gamma_beta)
  \/ (missing gamma_beta /\ filled beta /\ ob = beta /\ exists x, one_number gamma_f x).
