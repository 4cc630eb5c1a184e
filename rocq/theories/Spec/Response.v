(** How results respond: two calls that end in positive numbers, the second one larger (or
    at least not smaller). *)
From Coq Require Import Reals.
From Verif.Lib Require Import Num Monad.
Open Scope R_scope.

Definition larger (a b : res num) : Prop := exists x y, a = Ok (Fin x) /\ b = Ok (Fin y) /\ 0 < x < y.
Definition not_smaller (a b : res num) : Prop := exists x y, a = Ok (Fin x) /\ b = Ok (Fin y) /\ 0 < x <= y.
(** For functions that also say which of two formulas was used. *)
Definition larger1 {A} (a b : res (num * A)) : Prop := exists x y u v, a = Ok (Fin x, u) /\ b = Ok (Fin y, v) /\ 0 < x < y.
Definition not_smaller1 {A} (a b : res (num * A)) : Prop := exists x y u v, a = Ok (Fin x, u) /\ b = Ok (Fin y, v) /\ 0 < x <= y.
(** Something that does not fall, and grows when [P]. *)
Definition grows (P : Prop) (a b : res num) : Prop := not_smaller a b /\ (P -> larger a b).
Definition grows1 {A} (P : Prop) (a b : res (num * A)) : Prop := not_smaller1 a b /\ (P -> larger1 a b).
Definition higher (P : Prop) (x y : R) : Prop := x <= y /\ (P -> x < y).
(** The same for results that need not be positive. *)
Definition rises (P : Prop) (a b : res num) : Prop := exists x y, a = Ok (Fin x) /\ b = Ok (Fin y) /\ higher P x y.
