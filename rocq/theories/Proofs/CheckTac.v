(** Validity checks never change the value of a computation. *)
From Verif.Lib Require Import Num Monad RTac NTac.
From Verif.Model Require Import CoreUtility.
From Verif.Proofs Require Import Core.

Lemma value_when_check b n f v lo hi : value (when b (check n f v lo hi)) = Ok tt.
Proof. apply value_when, value_check. Qed.

(** Evaluate a sequence of validity checks. *)
Ltac mchecks :=
  repeat (progress (mval; rewrite ?value_when_check, ?value_check; cbv beta iota)).
