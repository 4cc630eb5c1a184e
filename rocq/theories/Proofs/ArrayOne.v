(** Arguments that have to be one number, and checks after a calculation with arrays. *)
From Coq Require Import Reals List Bool Arith.
From Verif.Lib Require Import Num Monad Arr ArrFlags NTac.
From Verif.Spec Require Import Arrays ArrayFlags ArrayOne.
From Verif.Proofs Require Import Core Arrays ArrayStacks.
Import ListNotations.

Lemma one_is_nan (a : nums) x : one_number a x -> is_nan a = ret (isnan x).
Proof. intros H. destruct a as [z|[|z [|z' l]]]; try discriminate H; injection H as ->; reflexivity. Qed.
Lemma one_place (a : nums) x i : one_number a x -> place i a = x.
Proof. intros H. destruct a as [z|[|z [|z' l]]]; try discriminate H; injection H as ->; reflexivity. Qed.
Lemma several_is_nan {B} (a : nums) (k : bool -> M B) : (forall x, ~ one_number a x) -> value (b <- is_nan a ;; k b) = Err ValueError.
Proof. intros H. destruct a as [x|[|x [|z l]]]; try reflexivity; exfalso; apply (H x); reflexivity. Qed.

(** A validity check at the end that runs when the arguments broadcast together *)
Lemma checked_value args e v (chk : nums -> M unit) : expression args e v ->
  (forall sh r, Forall (fun a => stretches (shape a) sh) args -> stretches (shape r) sh -> value (chk r) = Ok tt) ->
  value (x <- e ;; chk x ;; ret x) = value e.
Proof.
  intros X H. rewrite value_bind. destruct (value e) as [r|] eqn:E; [|reflexivity].
  destruct (expression_shape _ _ _ _ X E) as (F & _).
  rewrite value_bind, (H (shape r) r F (stretches_refl _)). reflexivity.
Qed.

Lemma times_value (e e' : M nums) : value (x <- e ;; value_of x * e')%arr = value (e * e')%arr.
Proof.
  unfold op2, lift2. change nums with (arr num) in *. rewrite !value_bind. destruct (value e) as [x|]; [|reflexivity].
  rewrite value_bind. reflexivity.
Qed.
