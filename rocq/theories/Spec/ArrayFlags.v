(** Calls with arrays that return numbers and flags. *)
From Coq Require Import Reals List.
From Verif.Lib Require Import Num Monad Arr.
From Verif.Spec Require Import Arrays.
Import ListNotations.

(** The call returns arrays of the shape sh, with at each place what the scalar
    function gives for the entries at that place. *)
Definition answers (sh : option nat) (call : M (nums * arr bool)) (scalar : (nums -> num) -> res (num * bool)) : Prop :=
  exists r m, value call = Ok (r, m) /\ shape r = sh /\ shape m = sh
  /\ forall i, inside sh i -> exists b, at_ m i = Some b /\ scalar (place i) = Ok (place i r, b).

(** The call works place by place; arguments that do not broadcast together are a
    ValueError. *)
Definition flagged (args : list nums) (call : M (nums * arr bool)) (scalar : (nums -> num) -> res (num * bool)) : Prop :=
  (forall sh, common args sh -> answers sh call scalar)
  /\ (~ compatible args -> value call = Err ValueError).

(** The same, but the argument [extra] is stretched to the shape of the others and
    the others are not stretched to its shape: that is a ValueError as well. *)
Definition flagged_within (args : list nums) (extra : nums) (call : M (nums * arr bool))
    (scalar : (nums -> num) -> res (num * bool)) : Prop :=
  (forall sh, common args sh -> stretches (shape extra) sh -> answers sh call scalar)
  /\ (~ (exists sh, common args sh /\ stretches (shape extra) sh) -> value call = Err ValueError).

(** One number: a scalar or an array with one entry. *)
Definition one_number (a : nums) (x : num) : Prop := entries a = [x].

(** An array, also with one entry or none. *)
Definition is_array (a : nums) : Prop := shape a <> None.

(** Oblique waves enter through the influence factor, or through the angle when no
    factor is given: [ob] is the one that counts. *)
Definition oblique_by (beta gamma_beta ob : nums) : Prop :=
  (filled gamma_beta /\ ob = gamma_beta) \/ (missing gamma_beta /\ filled beta /\ ob = beta).

(** The influence of the berm is given as one number, or there is no berm. *)
Definition berm_by (gamma_b B_berm bf : nums) : Prop :=
  exists x, one_number gamma_b x
  /\ ((isnan x = false /\ bf = gamma_b) \/ (isnan x = true /\ B_berm = lit 0%R /\ bf = lit 1%R)).

(** Every entry is a positive number. *)
Definition all_positive (a : nums) : Prop := Forall (fun x => exists r, x = Fin r /\ (0 < r)%R) (entries a).

(** Every entry is a number, not NaN and not infinite. *)
Definition all_finite (a : nums) : Prop := Forall (fun x => exists r, x = Fin r) (entries a).
