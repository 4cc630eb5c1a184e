(** Following zeros and infinities through a computation. *)
From Coq Require Import Reals Lra List Bool.
From Verif.Lib Require Import Num Monad RTac NTac.
From Verif.Spec Require Import Numbers StillWater.
From Verif.Model Require Import CoreUtility CorePhysics.
From Verif.Proofs Require Import Core CheckTac Numbers.
Open Scope R_scope.

Section Calls.
Context {A : Type} `{answering A}.
Lemma answer_ret P (a : A) : answer_is P a -> answer_is P (ret a).
Proof. intros K. exists a. split; [reflexivity|exact K]. Qed.
Lemma answer_bind_ret {B} P (b : B) (k : B -> M A) : answer_is P (k b) -> answer_is P (bind (ret b) k).
Proof. intros K. rewrite bind_ret_l. exact K. Qed.
Lemma answer_bind_unit P (m : M unit) (k : unit -> M A) : value m = Ok tt -> answer_is P (k tt) -> answer_is P (bind m k).
Proof. intros E (x & Ex & K). exists x. split; [rewrite (value_bind_ok _ _ _ E); exact Ex|exact K]. Qed.
Lemma answer_bind_assoc {B C} P (m : M B) (f : B -> M C) (k : C -> M A) :
  answer_is P (bind m (fun b => bind (f b) k)) -> answer_is P (bind (bind m f) k).
Proof.
  intros (x & Ex & K). exists x. split; [|exact K]. rewrite value_bind in Ex. rewrite (value_bind (bind m f)), (value_bind m f).
  destruct (value m) as [b|e]; [|exact Ex]. rewrite value_bind in Ex. exact Ex.
Qed.
End Calls.

Lemma mul_0_l x : nmul (Fin 0) (Fin x) = Fin 0. Proof. simpl. f_equal. ring. Qed.
Lemma mul_0_r x : nmul (Fin x) (Fin 0) = Fin 0. Proof. simpl. f_equal. ring. Qed.
Lemma add_0_l x : nadd (Fin 0) (Fin x) = Fin x. Proof. simpl. f_equal. ring. Qed.
Lemma add_0_r x : nadd (Fin x) (Fin 0) = Fin x. Proof. simpl. f_equal. ring. Qed.
Lemma sub_0_l x : nsub (Fin 0) (Fin x) = Fin (- x). Proof. unfold nsub. simpl. f_equal. ring. Qed.
Lemma sub_0_r x : nsub (Fin x) (Fin 0) = Fin x. Proof. unfold nsub. simpl. f_equal. ring. Qed.
Lemma neg_0 : nneg (Fin 0) = Fin 0. Proof. simpl. f_equal. ring. Qed.
Lemma abs_0 : nabs (Fin 0) = Fin 0. Proof. simpl. f_equal. apply Rabs_R0. Qed.
Lemma exp_of_0 : nexp (Fin 0) = Fin 1. Proof. simpl. f_equal. apply exp_0. Qed.
Lemma sqrt_of_0 : nsqrt (Fin 0) = Fin 0. Proof. simpl. rewrite Rltb_false by lra. f_equal. apply sqrt_0. Qed.
Lemma div_0_l x : x <> 0 -> ndiv (Fin 0) (Fin x) = Fin 0.
Proof. intros. simpl. rewrite Reqb_false by assumption. f_equal. unfold Rdiv. ring. Qed.
Lemma mul_0_pinf : nmul (Fin 0) PInf = NaN. Proof. simpl. unfold inf_mul. rewrite Reqb_true; reflexivity. Qed.
Lemma mul_pinf_0 : nmul PInf (Fin 0) = NaN. Proof. simpl. unfold inf_mul. rewrite Reqb_true; reflexivity. Qed.
Lemma mul_0_ninf : nmul (Fin 0) NInf = NaN. Proof. simpl. unfold inf_mul. rewrite Reqb_true; reflexivity. Qed.
Lemma mul_ninf_0 : nmul NInf (Fin 0) = NaN. Proof. simpl. unfold inf_mul. rewrite Reqb_true; reflexivity. Qed.
Lemma mul_pos_ninf a : 0 < a -> nmul (Fin a) NInf = NInf.
Proof. intros. simpl. unfold inf_mul. rewrite Reqb_false by lra. rewrite Rltb_true by lra. reflexivity. Qed.
Lemma mul_neg_ninf a : a < 0 -> nmul (Fin a) NInf = PInf.
Proof. intros. simpl. unfold inf_mul. rewrite Reqb_false by lra. rewrite Rltb_false by lra. reflexivity. Qed.
Lemma div_pinf_0 : ndiv PInf (Fin 0) = PInf. Proof. simpl. rewrite Rltb_false by lra. reflexivity. Qed.
Lemma pow_pinf_pos b : 0 < b -> npow PInf (Fin b) = PInf.
Proof. intros. simpl. rewrite Reqb_false, Rltb_true by lra. reflexivity. Qed.
Lemma pow_pinf_neg b : b < 0 -> npow PInf (Fin b) = Fin 0.
Proof. intros. simpl. rewrite Reqb_false, Rltb_false by lra. reflexivity. Qed.

Ltac zstep :=
  match goal with
  | |- context [nmul (Fin 0) (Fin ?b)] => rewrite (mul_0_l b)
  | |- context [nmul (Fin ?a) (Fin 0)] => rewrite (mul_0_r a)
  | |- context [nadd (Fin 0) (Fin ?b)] => rewrite (add_0_l b)
  | |- context [nadd (Fin ?a) (Fin 0)] => rewrite (add_0_r a)
  | |- context [nsub (Fin 0) (Fin ?b)] => rewrite (sub_0_l b)
  | |- context [nsub (Fin ?a) (Fin 0)] => rewrite (sub_0_r a)
  | |- context [nneg (Fin 0)] => rewrite neg_0
  | |- context [nabs (Fin 0)] => rewrite abs_0
  | |- context [nexp (Fin 0)] => rewrite exp_of_0
  | |- context [nsqrt (Fin 0)] => rewrite sqrt_of_0
  | |- context [ndiv (Fin 0) (Fin 0)] => rewrite ndiv_0_0
  | |- context [ndiv (Fin 0) (Fin ?b)] => rewrite (div_0_l b) by rpos
  | |- context [ndiv (Fin ?a) (Fin 0)] => first [rewrite (ndiv_pos_0 a) by rpos | rewrite (ndiv_neg_0 a) by (dec; lra)]
  | |- context [npow (Fin 0) (Fin ?b)] => first [rewrite (npow_0_pos b) by rpos | rewrite (npow_0_neg b) by (dec; lra)]
  | |- context [nmul (Fin 0) PInf] => rewrite mul_0_pinf
  | |- context [nmul PInf (Fin 0)] => rewrite mul_pinf_0
  | |- context [nmul (Fin 0) NInf] => rewrite mul_0_ninf
  | |- context [nmul NInf (Fin 0)] => rewrite mul_ninf_0
  | |- context [nmul (Fin ?a) PInf] => first [rewrite (nmul_pos_pinf a) by rpos | rewrite (nmul_neg_pinf a) by (dec; lra)]
  | |- context [nmul PInf (Fin ?a)] => first [rewrite (nmul_pinf_pos a) by rpos | rewrite (nmul_pinf_neg a) by (dec; lra)]
  | |- context [nmul (Fin ?a) NInf] => first [rewrite (mul_pos_ninf a) by rpos | rewrite (mul_neg_ninf a) by (dec; lra)]
  | |- context [nmul NInf (Fin ?a)] => first [rewrite (nmul_ninf_pos a) by rpos | rewrite (nmul_ninf_neg a) by (dec; lra)]
  | |- context [nmul PInf PInf] => change (nmul PInf PInf) with PInf
  | |- context [nadd (Fin ?a) PInf] => change (nadd (Fin a) PInf) with PInf
  | |- context [nadd PInf (Fin ?a)] => change (nadd PInf (Fin a)) with PInf
  | |- context [nadd PInf PInf] => change (nadd PInf PInf) with PInf
  | |- context [nadd (Fin ?a) NInf] => change (nadd (Fin a) NInf) with NInf
  | |- context [nadd NInf (Fin ?a)] => change (nadd NInf (Fin a)) with NInf
  | |- context [nsub (Fin ?a) PInf] => change (nsub (Fin a) PInf) with NInf
  | |- context [nsub PInf (Fin ?a)] => change (nsub PInf (Fin a)) with PInf
  | |- context [nsub NInf (Fin ?a)] => change (nsub NInf (Fin a)) with NInf
  | |- context [nsub PInf PInf] => change (nsub PInf PInf) with NaN
  | |- context [nneg PInf] => change (nneg PInf) with NInf
  | |- context [nneg NInf] => change (nneg NInf) with PInf
  | |- context [ndiv (Fin ?a) PInf] => change (ndiv (Fin a) PInf) with (Fin 0)
  | |- context [ndiv (Fin ?a) NInf] => change (ndiv (Fin a) NInf) with (Fin 0)
  | |- context [ndiv PInf PInf] => change (ndiv PInf PInf) with NaN
  | |- context [ndiv PInf (Fin 0)] => rewrite div_pinf_0
  | |- context [ndiv PInf (Fin ?a)] => rewrite (ndiv_pinf_pos a) by rpos
  | |- context [ndiv NInf (Fin ?a)] => rewrite (ndiv_ninf_pos a) by rpos
  | |- context [nsqrt PInf] => change (nsqrt PInf) with PInf
  | |- context [nexp PInf] => change (nexp PInf) with PInf
  | |- context [nexp NInf] => change (nexp NInf) with (Fin 0)
  | |- context [ntanh PInf] => change (ntanh PInf) with (Fin 1)
  | |- context [ntanh NInf] => change (ntanh NInf) with (Fin (-1))
  | |- context [nsinh PInf] => change (nsinh PInf) with PInf
  | |- context [npow PInf (Fin ?b)] => first [rewrite (pow_pinf_pos b) by rpos | rewrite (pow_pinf_neg b) by (dec; lra)]
  | |- context [nlt (Fin ?a) PInf] => change (nlt (Fin a) PInf) with true
  | |- context [nlt PInf (Fin ?a)] => change (nlt PInf (Fin a)) with false
  | |- context [nle (Fin ?a) PInf] => change (nle (Fin a) PInf) with true
  | |- context [nle PInf (Fin ?a)] => change (nle PInf (Fin a)) with false
  | |- context [ngt (Fin ?a) PInf] => change (ngt (Fin a) PInf) with false
  | |- context [ngt PInf (Fin ?a)] => change (ngt PInf (Fin a)) with true
  | |- context [nge (Fin ?a) PInf] => change (nge (Fin a) PInf) with false
  | |- context [nge PInf (Fin ?a)] => change (nge PInf (Fin a)) with true
  | |- context [nmin (Fin ?a) PInf] => change (nmin (Fin a) PInf) with (Fin a)
  | |- context [nmin PInf (Fin ?a)] => change (nmin PInf (Fin a)) with (Fin a)
  | |- context [nmax (Fin ?a) PInf] => change (nmax (Fin a) PInf) with PInf
  | |- context [nmax PInf (Fin ?a)] => change (nmax PInf (Fin a)) with PInf
  | |- context [isnan PInf] => change (isnan PInf) with false
  | _ => nstep
  end.
Ltac zfin := repeat (zstep || (progress nnan)).

Ltac zerorun :=
  cbv beta zeta iota;
  repeat (progress (zfin; cbn [fst snd negb andb orb is_none b2n Nat.add Nat.ltb Nat.leb Nat.eqb isnan provided]));
  lazymatch goal with
  | |- answer_is (A := num) ?r ?x => cbn [answer_is answering_num]; first [reflexivity | zerocase]
  | |- answer_is (A := (num * _)%type) ?P ?x => change (answer_is (A := num) P (fst x)); zerorun
  | |- answer_is (A := M _) _ (ret _) => apply answer_ret; zerorun
  | |- answer_is (A := M _) _ (bind (ret _) _) => apply answer_bind_ret; zerorun
  | |- answer_is (A := M _) _ (bind (warn _) _) => apply answer_bind_unit; [reflexivity|zerorun]
  | |- answer_is (A := M _) _ (bind (bind _ _) _) => apply answer_bind_assoc; zerorun
  | |- answer_is (A := M _) _ (bind (if ?c then _ else _) _) => decide_case c; zerorun
  | |- answer_is (A := M _) _ (@bind unit _ ?m _) => apply answer_bind_unit; [clean|zerorun]
  | |- answer_is (A := M _) _ (if ?c then _ else _) => decide_case c; zerorun
  | |- answer_is (A := M _) _ (bind (match ?c with (_, _) => _ end) _) => destruct c eqn:?; zerorun
  | |- context [if ?c then _ else _] => decide_case c; zerorun
  end
with zerocase :=
  match goal with
  | |- context [if ?c then _ else _] => decide_case c; cbv beta iota; zfin; first [reflexivity | zerocase]
  end.
