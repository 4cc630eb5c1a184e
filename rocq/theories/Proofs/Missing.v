(** Following a missing number through a computation. *)
From Coq Require Import Reals Lra List Bool.
From Verif.Lib Require Import Num Monad RTac NTac.
From Verif Require Import Spec.Missing.
From Verif.Model Require Import CoreUtility CorePhysics.
Import ListNotations.
Open Scope R_scope.

Section Calls.
Context {A : Type} `{answer A}.
Lemma no_number_ret (a : A) : no_number a -> no_number (ret a).
Proof. intros Ha x E. inversion E. subst. exact Ha. Qed.
Lemma no_number_raise e : no_number (@raise A e).
Proof. intros x E. discriminate E. Qed.
Lemma no_number_bind {B} (m : M B) (k : B -> M A) : (forall b, no_number (k b)) -> no_number (bind m k).
Proof.
  intros Hk x E. rewrite value_bind in E. destruct (value m) as [b|e]; [|discriminate E]. exact (Hk b x E).
Qed.
Lemma no_number_bind_in {B} `{answer B} (m : M B) (k : B -> M A) :
  no_number m -> (forall b, no_number b -> no_number (k b)) -> no_number (bind m k).
Proof.
  intros Hm Hk x E. rewrite value_bind in E. destruct (value m) as [b|e] eqn:Em; [|discriminate E].
  exact (Hk b (Hm b Em) x E).
Qed.
Lemma no_number_bind_assoc {B C} (m : M B) (f : B -> M C) (k : C -> M A) :
  no_number (bind m (fun b => bind (f b) k)) -> no_number (bind (bind m f) k).
Proof.
  intros Hm x E. apply Hm. rewrite !value_bind in *. destruct (value m) as [b|e]; [|exact E].
  rewrite value_bind. exact E.
Qed.
Lemma no_number_bind_ret {B} (b : B) (k : B -> M A) : no_number (k b) -> no_number (bind (ret b) k).
Proof. intros Hk x E. rewrite bind_ret_l in E. exact (Hk x E). Qed.
Lemma no_number_bind_raise {B} e (k : B -> M A) : no_number (bind (@raise B e) k).
Proof. intros x E. discriminate E. Qed.
Lemma no_number_bind_warn w (k : unit -> M A) : no_number (k tt) -> no_number (bind (warn w) k).
Proof. intros Hk x E. rewrite value_bind in E. exact (Hk x E). Qed.
End Calls.

Lemma npow_nan_nan : npow NaN NaN = NaN. Proof. reflexivity. Qed.
Lemma npow_fin_nan a : a <> 1 -> npow (Fin a) NaN = NaN.
Proof. intros. cbn. rewrite Reqb_false by assumption. reflexivity. Qed.

(** Rewrite with everything that gives NaN. *)
Ltac nanstep :=
  match goal with
  | |- context [nadd NaN ?x] => rewrite (nadd_nan_l x)
  | |- context [nadd ?x NaN] => rewrite (nadd_nan_r x)
  | |- context [nsub NaN ?x] => rewrite (nsub_nan_l x)
  | |- context [nsub ?x NaN] => rewrite (nsub_nan_r x)
  | |- context [nmul NaN ?x] => rewrite (nmul_nan_l x)
  | |- context [nmul ?x NaN] => rewrite (nmul_nan_r x)
  | |- context [ndiv NaN ?x] => rewrite (ndiv_nan_l x)
  | |- context [ndiv ?x NaN] => rewrite (ndiv_nan_r x)
  | |- context [nmin NaN ?x] => rewrite (nmin_nan_l x)
  | |- context [nmin ?x NaN] => rewrite (nmin_nan_r x)
  | |- context [nmax NaN ?x] => rewrite (nmax_nan_l x)
  | |- context [nmax ?x NaN] => rewrite (nmax_nan_r x)
  | |- context [nlt NaN ?x] => rewrite (nlt_nan_l x)
  | |- context [nlt ?x NaN] => rewrite (nlt_nan_r x)
  | |- context [ngt NaN ?x] => rewrite (ngt_nan_l x)
  | |- context [ngt ?x NaN] => rewrite (ngt_nan_r x)
  | |- context [nle NaN ?x] => rewrite (nle_nan_l x)
  | |- context [nle ?x NaN] => rewrite (nle_nan_r x)
  | |- context [nge NaN ?x] => rewrite (nge_nan_l x)
  | |- context [nge ?x NaN] => rewrite (nge_nan_r x)
  | |- context [neqb NaN ?x] => rewrite (neqb_nan_l x)
  | |- context [neqb ?x NaN] => rewrite (neqb_nan_r x)
  | |- context [npow NaN NaN] => rewrite npow_nan_nan
  | |- context [npow NaN (Fin ?b)] => rewrite (npow_nan_l b) by rpos
  | |- context [npow (Fin ?a) NaN] => rewrite (npow_fin_nan a) by rpos
  | |- context [npow NaN (nneg (Fin ?b))] => rewrite (nneg_fin b)
  | |- context [npow NaN (ndiv (Fin ?a) (Fin ?b))] => rewrite (ndiv_fin a b) by rpos
  | |- context [npow NaN (nneg ?b)] => progress (nfin)
  | |- context [npow NaN (ndiv ?a ?b)] => progress (nfin)
  | |- context [nsqrt NaN] => change (nsqrt NaN) with NaN
  | |- context [nexp NaN] => change (nexp NaN) with NaN
  | |- context [nlog NaN] => change (nlog NaN) with NaN
  | |- context [nneg NaN] => change (nneg NaN) with NaN
  | |- context [nabs NaN] => change (nabs NaN) with NaN
  | |- context [ncos NaN] => change (ncos NaN) with NaN
  | |- context [nsin NaN] => change (nsin NaN) with NaN
  | |- context [ntanh NaN] => change (ntanh NaN) with NaN
  | |- context [nsinh NaN] => change (nsinh NaN) with NaN
  | |- context [ncosh NaN] => change (ncosh NaN) with NaN
  | |- context [natan NaN] => change (natan NaN) with NaN
  | |- context [nfloor NaN] => change (nfloor NaN) with NaN
  | |- context [nround NaN] => change (nround NaN) with NaN
  | |- context [isnan NaN] => change (isnan NaN) with true
  | |- context [provided NaN] => change (provided NaN) with false
  end.
Ltac nan := repeat (nanstep; cbv beta iota).

(** Execute a call symbolically, split cases where it decides. *)
Ltac nanrun :=
  cbv beta zeta iota; nan; cbn [fst snd negb andb orb is_none b2n Nat.add Nat.ltb Nat.leb Nat.eqb];
  lazymatch goal with
  | |- NaN = NaN => reflexivity
  | |- no_number (A := num) ?x => change (x = NaN); nanrun
  | |- no_number (A := (num * _)%type) ?x => change (fst x = NaN); nanrun
  | |- no_number (A := M _) (ret _) => apply no_number_ret; nanrun
  | |- no_number (A := M _) (raise _) => apply no_number_raise
  | |- no_number (A := M _) (bind (ret _) _) => apply no_number_bind_ret; nanrun
  | |- no_number (A := M _) (bind (raise _) _) => apply no_number_bind_raise
  | |- no_number (A := M _) (bind (warn _) _) => apply no_number_bind_warn; nanrun
  | |- no_number (A := M _) (bind (bind _ _) _) => apply no_number_bind_assoc; nanrun
  | |- no_number (A := M _) (bind (if ?c then _ else _) _) => destruct c eqn:?; nanrun
  | |- no_number (A := M _) (bind (match ?c with (_, _) => _ end) _) => destruct c eqn:?; nanrun
  | |- no_number (A := M _) (bind (match ?c with Some _ => _ | None => _ end) _) => destruct c eqn:?; nanrun
  | |- no_number (A := M _) (bind _ _) => apply no_number_bind; intros ?; nanrun
  | |- no_number (A := M _) (if ?c then _ else _) => destruct c eqn:?; nanrun
  | |- no_number (A := M _) (match ?c with (_, _) => _ end) => destruct c eqn:?; nanrun
  | |- no_number (A := M _) (match ?c with Some _ => _ | None => _ end) => destruct c eqn:?; nanrun
  | |- context [if ?c then _ else _] => destruct c eqn:?; nanrun
  | |- _ => reflexivity
  end.

Ltac missing :=
  intros;
  match goal with H : Spec.Missing.missing _ |- _ => unfold Spec.Missing.missing in H; cbn [In] in H end;
  repeat match goal with H : _ \/ _ |- _ => destruct H as [H|H] | H : False |- _ => contradiction end;
  subst.
