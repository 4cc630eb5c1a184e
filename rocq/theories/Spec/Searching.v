(** What the limit and the tolerance of an iterative search mean for its caller.
    A search is seen as a call with a limit on the number of steps and a
    tolerance; nothing is said of how it is carried out. *)
From Coq Require Import Reals List Bool Arith.
From Verif.Lib Require Import Num Monad.
Import ListNotations.

(** No difference is smaller than a negative tolerance: the call with this
    tolerance makes as many steps as it may. *)
Definition never : num := Fin (-1).

(** Nothing is left to do after an answer a that followed the answer b: they
    differ by no more than the tolerance (a difference that is not a number does
    not count as more), or there is no answer. *)
Definition over (tolerance : num) (a b : res num) : Prop :=
  match a, b with
  | Ok a, Ok b => ngt (nabs (nsub a b)) tolerance = false
  | _, _ => True
  end.

(** [after call start first k]: the answer after k steps; [first] is the limit
    with which the call makes one step. *)
Definition after (call : nat -> num -> M num) (start : num) (first k : nat) : res num :=
  match k with O => Ok start | S k => value (call (first + k)%nat never) end.

(** The search makes k steps: the first k after which nothing is left to do, or
    as many as the limit allows. *)
Definition steps (call : nat -> num -> M num) (start : num) (first limit : nat) (tolerance : num) (k : nat) : Prop :=
  (1 <= k /\ first + k <= S limit)%nat
  /\ ((first + k)%nat = S limit \/ over tolerance (after call start first k) (after call start first (k - 1)))
  /\ forall j, (1 <= j < k)%nat -> ~ over tolerance (after call start first j) (after call start first (j - 1)).

(** A silent search: what it answers, and the warnings it issues, are those of
    the last step made, whether it has settled or was cut off. *)
Definition silent_search (call : nat -> num -> M num) (start : num) (first : nat) (tolerance : num) : Prop :=
  forall limit, (first <= limit)%nat ->
  exists k, steps call start first limit tolerance k /\ call limit tolerance = call (first + (k - 1))%nat never.

(** A search that tells: it issues one warning more when it has used up its
    limit, and only then. *)
Definition telling_search (told : warning) (call : nat -> num -> M num) (start tolerance : num) : Prop :=
  forall limit, (1 <= limit)%nat ->
  exists k before later r, steps call start 1 limit tolerance k
  /\ ~ In told before /\ ~ In told later
  /\ call k never = (before ++ told :: later, Ok r)
  /\ call limit tolerance = (before ++ (if Nat.eqb k limit then [told] else []) ++ later, Ok r).

(** What a caller can rely on, with the tolerances that are [allowed]: when one
    step more does not change the answer, no number of steps more does; and a
    coarser tolerance gives an answer that the finer one gives with a lower
    limit. *)
Definition dependable (allowed : R -> Prop) (call : nat -> num -> M num) (first : nat) : Prop :=
  (forall t n, allowed t -> (0 <= t)%R -> (first <= n)%nat -> value (call n (Fin t)) = value (call (S n) (Fin t)) ->
     forall m, (n <= m)%nat -> value (call m (Fin t)) = value (call n (Fin t)))
  /\ forall t t' n, allowed t -> allowed t' -> (t' <= t)%R -> (first <= n)%nat ->
     exists m, (first <= m <= n)%nat /\ value (call n (Fin t)) = value (call m (Fin t')).
