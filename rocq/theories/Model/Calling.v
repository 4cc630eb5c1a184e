(** Model of how Python binds the arguments of a call to the parameters of a
    function (all functions of the toolbox have plain parameters only: no
    positional-only, keyword-only, *args or **kwargs ones; /repo
    functions/**/*.py, see Signatures.v for the signatures). *)
From Coq Require Import String List Bool QArith.
Import ListNotations.
Open Scope string_scope.

(** The values that stand behind the = in a signature.  Floats are the decimal
    numbers written down, quotients of them included; np.power(a, b) is kept. *)
Inductive literal : Type :=
  | Number (q : Q) | Power (a b : Q) | Missing | Infinite | Flag (b : bool) | Text (s : string) | Nothing.

Definition parameter : Type := string * option literal.

Definition mem {A : Type} (n : string) (l : list (string * A)) : bool := existsb (fun x => String.eqb n (fst x)) l.
Fixpoint lookup {A : Type} (n : string) (l : list (string * A)) : option A :=
  match l with
  | [] => None
  | (m, v) :: l => if String.eqb n m then Some v else lookup n l
  end.

Section Bind.
Variables (V : Type) (meaning : literal -> V).

(** Positional arguments go to the parameters in order; a parameter that is
    filled twice, a positional argument too many or a required parameter that
    stays empty is a TypeError, here None. *)
Fixpoint fill (ps : list parameter) (positional : list V) (keywords : list (string * V)) : option (list V) :=
  match ps, positional with
  | [], [] => Some []
  | [], _ :: _ => None
  | (n, d) :: ps, v :: positional =>
      if mem n keywords then None else option_map (cons v) (fill ps positional keywords)
  | (n, d) :: ps, [] =>
      match lookup n keywords, d with
      | Some v, _ => option_map (cons v) (fill ps [] keywords)
      | None, Some l => option_map (cons (meaning l)) (fill ps [] keywords)
      | None, None => None
      end
  end.

(** A keyword that names no parameter is a TypeError. *)
Definition bind_arguments (ps : list parameter) (positional : list V) (keywords : list (string * V)) : option (list V) :=
  if forallb (fun k => mem (fst k) ps) keywords then fill ps positional keywords else None.
End Bind.
