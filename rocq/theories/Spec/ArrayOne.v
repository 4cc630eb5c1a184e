(** Calls that want one number where an array would be as good. *)
From Coq Require Import Reals List.
From Verif.Lib Require Import Num Monad Arr.
From Verif.Spec Require Import Arrays ArrayFlags.
Import ListNotations.

(** With one number the call gives what the scalar function gives; with several entries
    or none it raises ValueError. *)
Definition wants_one (call : nums -> M num) (scalar : num -> num) : Prop :=
  (forall a x, one_number a x -> value (call a) = Ok (scalar x))
  /\ (forall a, (forall x, ~ one_number a x) -> value (call a) = Err ValueError).

(** The influence factor is one number; the other argument counts when that is NaN. *)
Definition factor_or (factor otherwise ob : nums) : Prop :=
  exists x, one_number factor x /\ ((isnan x = false /\ ob = factor) \/ (isnan x = true /\ ob = otherwise)).

(** Swell counts with crossing seas and has to be one number then. *)
Definition swell_ok (crossing : bool) (Hm0_swell : nums) : Prop :=
  crossing = true -> exists x, one_number Hm0_swell x /\ isnan x = false.

(** There are coefficients for the exponent 1.0 or 1.3, with long-crested waves only without
    a parapet. *)
Definition fitted (c : num) (short crossing parapet : bool) : Prop :=
  (c = Fin 1 \/ c = Fin 1.3) /\ (short = false -> crossing = false -> parapet = false).

(** With crossing seas the swell has to be one number, NaN or not. *)
Definition swell_one (crossing : bool) (Hm0_swell : nums) : Prop := crossing = true -> exists x, one_number Hm0_swell x.
