(** The parts of numpy that act on whole arrays. *)
From Coq Require Import Reals ZArith List Bool.
From Verif.Lib Require Import Num Monad.
From Verif.Model Require Import CoreUtility.
Import ListNotations.

Fixpoint mapM {A B} (f : A -> M B) (l : list A) : M (list B) :=
  match l with
  | [] => ret []
  | x :: l => y <- f x ;; r <- mapM f l ;; ret (y :: r)
  end.

(** Conversion of a python float to int64: towards zero. *)
Definition Rtrunc (a : R) : R := if Rltb a 0 then (- Rfloor (- a))%R else Rfloor a.
(** numpy raises for NaN (ValueError) and infinities (OverflowError, written
    ValueError here; no modelled caller reaches either). *)
Definition astype_int (x : num) : M num :=
  match x with Fin a => ret (Fin (Rtrunc a)) | _ => raise ValueError end.

Definition number_of (v : pyval) : M num :=
  match v with PyInt x | PyFloat x => ret x | PyArr _ => raise ValueError end.

(** np.vectorize(f) without otypes, applied to arguments already broadcast to
    one list of tuples.  The function is called once on the first tuple to find
    the dtype of the result, then on every tuple; the results are converted to
    that dtype.  Only python int and float results are modelled. *)
Definition vectorize {A} (f : A -> M pyval) (l : list A) : M (list num) :=
  match l with
  | [] => raise ValueError
  | x :: _ =>
      first <- f x ;;
      rs <- mapM f l ;;
      ns <- mapM number_of rs ;;
      match first with
      | PyInt _ => mapM astype_int ns
      | _ => ret ns
      end
  end.

(** np.deg2rad *)
Definition deg2rad (x : num) : num := (x * (npi / #180))%num.
