(** Iterations over arrays that go on until no entry changes any more. *)
From Coq Require Import Reals List Bool Arith.
From Verif.Lib Require Import Num Monad Arr.
Import ListNotations.
Open Scope arr_scope.

(** [while np.max(diff) > tolerance and n_iter < max_iter:] where the body computes
    [y] from the [state], the [state] from [y], [diff = np.abs(y - prev)] and
    [prev = y].  [todo] is max_iter - n_iter, [cur] the variable y (None as long
    as it is not bound). *)
Fixpoint until_settled (next feed : nums -> M nums) (tolerance : num) (todo : nat)
    (state prev diff : nums) (cur : option nums) : M (option nums) :=
  most <- greatest diff ;;
  if ngt most tolerance then
    match todo with
    | O => ret cur
    | S todo =>
        y <- next state ;;
        state <- feed y ;;
        diff <- aabs (y - prev) ;;
        until_settled next feed tolerance todo state y diff (Some y)
    end
  else ret cur.

(** Reading the variable afterwards *)
Definition bound {A} (o : option A) : M A :=
  match o with Some a => ret a | None => raise UnboundLocalError end.

(** A scalar argument in an expression *)
Definition float (x : num) : nums := Sc x.
