(** What it means that a function works place by place on arrays. *)
From Coq Require Import List Arith.
From Verif.Lib Require Import Num Monad Arr.
Import ListNotations.

(** Shape s can be stretched to shape t. *)
Definition stretches (s t : option nat) : Prop :=
  s = None \/ (s = Some 1 /\ t <> None) \/ s = t.

(** The arguments broadcast to the shape sh. *)
Definition common (args : list nums) (sh : option nat) : Prop :=
  Forall (fun a => stretches (shape a) sh) args /\ (sh = None \/ Exists (fun a => shape a = sh) args).

Definition inside (sh : option nat) (i : nat) : Prop :=
  match sh with None => True | Some n => i < n end.

(** The number at place i. *)
Definition place (i : nat) (a : nums) : num :=
  match at_ a i with Some x => x | None => NaN end.

(** The arguments can be broadcast together. *)
Definition compatible (args : list nums) : Prop :=
  exists sh, Forall (fun a => stretches (shape a) sh) args.

(** The call works place by place: when the arguments broadcast to a common shape,
    the result has that shape and each of its entries is what the scalar function
    gives for the entries at that place; otherwise the call does not return.
    The arguments [checked] only occur in validity checks, they do not bear on
    the result but have to be compatible with the others. *)
Definition elementwise_with (checked args : list nums) (call : M nums) (scalar : (nums -> num) -> res num) : Prop :=
  (forall sh, common args sh -> compatible (args ++ checked) ->
     exists r, value call = Ok r /\ shape r = sh
     /\ forall i, inside sh i -> scalar (place i) = Ok (place i r))
  /\ (forall r, value call = Ok r -> exists sh, common args sh).

Definition elementwise := elementwise_with [].

(** Some entries and none of them NaN; nothing but NaN. *)
Definition filled (a : nums) : Prop := entries a <> [] /\ Forall (fun x => isnan x = false) (entries a).
Definition missing (a : nums) : Prop := Forall (fun x => isnan x = true) (entries a).
