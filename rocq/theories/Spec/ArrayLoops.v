(** Iterations that all places of an array go through together. *)
From Coq Require Import Reals List Arith.
From Verif.Lib Require Import Num Monad Arr.
From Verif.Spec Require Import Arrays.
Import ListNotations.

(** How far two results are apart: np.abs(x - y). *)
Definition apart (x y : res num) : num :=
  match x, y with Ok x, Ok y => nabs (nsub x y) | _, _ => NaN end.

(** [x i m] is the result for place i after m iterations, [before i] what the
    result of the first iteration is compared with.  The iterations go on while
    all changes are numbers and one of them exceeds the tolerance. *)
Definition change (before : nat -> num) (x : nat -> nat -> res num) (i m : nat) : num :=
  match m with
  | O => PInf
  | S O => apart (x i 1%nat) (Ok (before i))
  | S m' => apart (x i m) (x i m')
  end.
Definition goes_on (sh : option nat) (tolerance : num) (before : nat -> num) (x : nat -> nat -> res num) (m : nat) : Prop :=
  (forall i, inside sh i -> isnan (change before x i m) = false)
  /\ exists i, inside sh i /\ ngt (change before x i m) tolerance = true.

(** The number of iterations: the first number at which they do not go on, or max_iter. *)
Definition settles (sh : option nat) (max_iter : nat) (tolerance : num) (before : nat -> num)
    (x : nat -> nat -> res num) (n : nat) : Prop :=
  (1 <= n <= max_iter)%nat
  /\ (forall m, (m < n)%nat -> goes_on sh tolerance before x m)
  /\ (n = max_iter \/ ~ goes_on sh tolerance before x n).

(** The call iterates all places together: there is one number n of iterations,
    and each entry of the result is the scalar result after n iterations. *)
Definition together (sh : option nat) (max_iter : nat) (tolerance : num) (before : nat -> num)
    (call : M nums) (x : nat -> nat -> res num) : Prop :=
  exists n r, settles sh max_iter tolerance before x n /\ value call = Ok r /\ shape r = sh
  /\ forall i, inside sh i -> x i n = Ok (place i r).

(** A negative tolerance never counts as settled: the scalar function called with it
    makes as many iterations as max_iter says. *)
Definition no_tolerance : num := Fin (-1).
