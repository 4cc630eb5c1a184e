(** What a call of a Python function means for its parameters, stated parameter by parameter. *)
From Coq Require Import String List Arith.
Import ListNotations.

Section Calls.
Variables (L V : Type) (meaning : L -> V).

(** The parameter at place i gets the i-th positional argument and then no keyword; or its keyword; or its default. *)
Definition receives (positional : list V) (keywords : list (string * V)) (i : nat) (name : string) (default : option L) (v : V) : Prop :=
  (nth_error positional i = Some v /\ ~ In name (map fst keywords))
  \/ (nth_error positional i = None /\ In (name, v) keywords)
  \/ (nth_error positional i = None /\ ~ In name (map fst keywords) /\ exists l, default = Some l /\ v = meaning l).

Definition call_of (ps : list (string * option L)) (positional : list V) (keywords : list (string * V)) (vs : list V) : Prop :=
  length positional <= length ps
  /\ (forall k, In k (map fst keywords) -> In k (map fst ps))
  /\ length vs = length ps
  /\ forall i name default v, nth_error ps i = Some (name, default) -> nth_error vs i = Some v -> receives positional keywords i name default v.

(** The call says nothing about the parameter [name]. *)
Definition left_out (ps : list (string * option L)) (positional : list V) (keywords : list (string * V)) (name : string) : Prop :=
  ~ In name (map fst keywords) /\ ~ In name (map fst (firstn (length positional) ps)).
End Calls.
