(** numpy arrays with at most one axis, and how operations broadcast over them. *)
From Coq Require Import Reals List Bool Arith.
From Verif.Lib Require Import Num Monad.
Import ListNotations.

(** [Sc] is a scalar (or an array without axes, which numpy treats alike). *)
Inductive arr (A : Type) : Type :=
| Sc (x : A)
| Ar (l : list A).
Arguments Sc {A} x.
Arguments Ar {A} l.

(** None for a scalar, otherwise the length. *)
Definition shape {A} (a : arr A) : option nat :=
  match a with Sc _ => None | Ar l => Some (length l) end.

(** The entry at place i after broadcasting to a larger array. *)
Definition at_ {A} (a : arr A) (i : nat) : option A :=
  match a with
  | Sc x => Some x
  | Ar [x] => Some x
  | Ar l => nth_error l i
  end.

Definition amap {A B} (f : A -> B) (a : arr A) : arr B :=
  match a with Sc x => Sc (f x) | Ar l => Ar (map f l) end.

Fixpoint map2 {A B C} (f : A -> B -> C) (l : list A) (m : list B) : list C :=
  match l, m with x :: l, y :: m => f x y :: map2 f l m | _, _ => [] end.

(** A binary ufunc: equal lengths go place by place, a scalar or a single entry
    goes with every place, anything else is a ValueError. *)
Definition bcast {A B C} (f : A -> B -> C) (a : arr A) (b : arr B) : M (arr C) :=
  match a, b with
  | Sc x, _ => ret (amap (f x) b)
  | Ar l, Sc y => ret (Ar (map (fun x => f x y) l))
  | Ar l, Ar m =>
      if Nat.eqb (length l) (length m) then ret (Ar (map2 f l m))
      else match l, m with
           | [x], _ => ret (Ar (map (f x) m))
           | _, [y] => ret (Ar (map (fun x => f x y) l))
           | _, _ => raise ValueError
           end
  end.

Definition lift1 {A B} (f : A -> B) (e : M (arr A)) : M (arr B) := a <- e ;; ret (amap f a).
Definition lift2 {A B C} (f : A -> B -> C) (e1 : M (arr A)) (e2 : M (arr B)) : M (arr C) :=
  a <- e1 ;; b <- e2 ;; bcast f a b.

(** Arrays of numbers as arguments of an expression. *)
Definition nums : Type := arr num.
Definition value_of (a : nums) : M nums := ret a.
Coercion value_of : nums >-> M.
Definition op1 (f : num -> num) (x : M nums) : M nums := lift1 f x.
Definition op2 (f : num -> num -> num) (x y : M nums) : M nums := lift2 f x y.
Definition cmp (f : num -> num -> bool) (x y : M nums) : M (arr bool) := lift2 f x y.

(** np.where(c, x, y) *)
Definition where_ (c : M (arr bool)) (x y : M nums) : M nums :=
  lift2 (fun (b : bool) (p : num * num) => if b then fst p else snd p) c (lift2 pair x y).

Definition lit (r : R) : nums := Sc (Fin r).

Declare Scope arr_scope.
Delimit Scope arr_scope with arr.
Notation "# r" := (lit r%R) (at level 1, r at level 0, format "# r") : arr_scope.
Infix "+" := (op2 nadd) : arr_scope.
Infix "-" := (op2 nsub) : arr_scope.
Infix "*" := (op2 nmul) : arr_scope.
Infix "/" := (op2 ndiv) : arr_scope.
Notation "- x" := (op1 nneg x) : arr_scope.
Notation "x <? y" := (cmp nlt x y) : arr_scope.
Notation "x <=? y" := (cmp nle x y) : arr_scope.
Notation "x >? y" := (cmp ngt x y) : arr_scope.
Notation "x >=? y" := (cmp nge x y) : arr_scope.
Notation "x || y" := (lift2 orb x y) : arr_scope.
Notation "x && y" := (lift2 andb x y) : arr_scope.

Definition apow := op2 npow.
Definition asqrt := op1 nsqrt.
Definition aexp := op1 nexp.
Definition alog := op1 nlog.
Definition acos := op1 ncos.
Definition asin := op1 nsin.
Definition atanh := op1 ntanh.
Definition aabs := op1 nabs.
Definition amin := op2 nmin.
Definition amax := op2 nmax.
Definition around := op1 nround.
Definition asinh := op1 nsinh.
Definition acosh := op1 ncosh.
Definition afloor := op1 nfloor.
Definition api : nums := Sc npi.
Definition anan : nums := Sc NaN.
Arguments apow (_ _)%arr.
Arguments asqrt _%arr.
Arguments aexp _%arr.
Arguments alog _%arr.
Arguments acos _%arr.
Arguments asin _%arr.
Arguments atanh _%arr.
Arguments aabs _%arr.
Arguments amin (_ _)%arr.
Arguments amax (_ _)%arr.
Arguments around _%arr.
Arguments asinh _%arr.
Arguments acosh _%arr.
Arguments afloor _%arr.
Arguments where_ (_ _ _)%arr.

(** f for every entry in turn; the first error ends it. *)
Fixpoint each_of (f : num -> M num) (l : list num) : M (list num) :=
  match l with
  | [] => ret []
  | x :: l => y <- f x ;; r <- each_of f l ;; ret (y :: r)
  end.
Definition each (f : num -> M num) (e : M nums) : M nums :=
  a <- e ;;
  match a with
  | Sc x => y <- f x ;; ret (Sc y)
  | Ar l => r <- each_of f l ;; ret (Ar r)
  end.

Definition entries {A} (a : arr A) : list A := match a with Sc x => [x] | Ar l => l end.

(** np.any(np.isnan(a)), np.all(np.isnan(a)) *)
Definition any_nan (a : nums) : bool := existsb isnan (entries a).
Definition all_nan (a : nums) : bool := forallb isnan (entries a).

(** np.max(a): NaN as soon as an entry is NaN; no maximum of an empty array. *)
Definition greatest (a : nums) : M num :=
  match entries a with
  | [] => raise ValueError
  | x :: l => ret (fold_left nmax l x)
  end.

(** The truth value of an array with several entries is a ValueError, and so is that of
    an empty array from numpy 2.2 on (pyproject.toml asks for 2.2.3 or later). *)
Definition truth (a : arr bool) : M bool :=
  match a with Sc b | Ar [b] => ret b | _ => raise ValueError end.
