(** Effects of a python call: the warnings it issues and the value it returns
    or the exception it raises. *)
From Coq Require Import String List.
From Verif.Lib Require Import Num.
Import ListNotations.

Inductive exn : Type :=
| ValueError
| TypeError
| IndexError
| KeyError
| UnboundLocalError
| RecursionError      (* python's recursion limit: see [taw] run-up *)
| OutOfFuel.          (* not python: the fuel of an unbounded loop ran out *)

Inductive res (A : Type) : Type :=
| Ok (a : A)
| Err (e : exn).
Arguments Ok {A} a.
Arguments Err {A} e.

(** [WRange var formula v lo hi] is the warning issued by
    check_variable_validity_range; [WText] any other python warning. *)
Inductive warning : Type :=
| WRange (variable_name formula_name : string) (v lo hi : num)
| WText (text : string).

Definition M (A : Type) : Type := (list warning * res A)%type.

Definition ret {A} (a : A) : M A := ([], Ok a).
Definition raise {A} (e : exn) : M A := ([], Err e).
Definition warn (w : warning) : M unit := ([w], Ok tt).

Definition bind {A B} (m : M A) (k : A -> M B) : M B :=
  match m with
  | (w, Ok a) => let (w', r) := k a in (w ++ w', r)
  | (w, Err e) => (w, Err e)
  end.

Definition when (b : bool) (m : M unit) : M unit := if b then m else ret tt.

Definition value {A} (m : M A) : res A := snd m.
Definition warns {A} (m : M A) : list warning := fst m.

Notation "x <- m ;; k" := (bind m (fun x => k))
  (at level 61, m at next level, right associativity).
Notation "' p <- m ;; k" := (bind m (fun x => match x with p => k end))
  (at level 61, p pattern, m at next level, right associativity).
Notation "m ;; k" := (bind m (fun _ => k)) (at level 61, right associativity).
