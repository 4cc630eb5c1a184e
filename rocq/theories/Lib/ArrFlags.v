(** More numpy operations on arrays with at most one axis: those that return or
    look at truth values, and those that stack their arguments first. *)
From Coq Require Import Reals List Bool Arith.
From Verif.Lib Require Import Num Monad Arr.
Import ListNotations.

(** [==] *)
Notation "x =? y" := (cmp neqb x y) : arr_scope.

(** [bool(x == y)], [bool(x > y)], [bool(np.isnan(x))]: numpy raises ValueError
    unless there is exactly one entry (also for an empty array, from version 2.2
    on, which pyproject.toml:13 asks for). *)
Definition holds (c : M (arr bool)) : M bool := b <- c ;; truth b.
Definition is_nan (x : M nums) : M bool := holds (lift1 isnan x).
Arguments holds _%arr.
Arguments is_nan _%arr.

Definition shape_eqb (s t : option nat) : bool :=
  match s, t with
  | None, None => true
  | Some n, Some m => Nat.eqb n m
  | _, _ => false
  end.

(** np.min([x, y], axis=0): the list becomes one array, which takes arguments of
    one and the same shape; anything else is a ValueError, nothing is stretched. *)
Definition stacked (f : num -> num -> num) (x y : M nums) : M nums :=
  a <- x ;; b <- y ;;
  if shape_eqb (shape a) (shape b) then bcast f a b else raise ValueError.
Definition stacked_min := stacked nmin.
Definition stacked_max := stacked nmax.
Arguments stacked_min (_ _)%arr.
Arguments stacked_max (_ _)%arr.

(** np.min([x, c]) and np.max([x, c]) with a number c, without axis: an array x
    does not stack with c. *)
Definition min_with (x : M nums) (c : num) : M nums := stacked_min x (value_of (Sc c)).
Definition max_with (x : M nums) (c : num) : M nums := stacked_max x (value_of (Sc c)).
Arguments min_with _%arr _%num.
Arguments max_with _%arr _%num.
