(** Following numbers through a computation. *)
From Coq Require Import Reals Lra List Bool.
From Verif.Lib Require Import Num Monad RTac NTac.
From Verif.Spec Require Import Numbers.
From Verif.Model Require Import CoreUtility CorePhysics.
From Verif.Proofs Require Import Core CheckTac.
Open Scope R_scope.

Section Calls.
Context {A : Type} `{numeric A}.
Lemma number_ret P (a : A) : number_with P a -> number_with P (ret a).
Proof. intros K. exists a. split; [reflexivity|exact K]. Qed.
Lemma number_bind_ret {B} P (b : B) (k : B -> M A) : number_with P (k b) -> number_with P (bind (ret b) k).
Proof. intros K. rewrite bind_ret_l. exact K. Qed.
Lemma number_bind_unit P (m : M unit) (k : unit -> M A) : value m = Ok tt -> number_with P (k tt) -> number_with P (bind m k).
Proof. intros E (x & Ex & K). exists x. split; [rewrite (value_bind_ok _ _ _ E); exact Ex|exact K]. Qed.
Lemma number_bind_assoc {B C} P (m : M B) (f : B -> M C) (k : C -> M A) :
  number_with P (bind m (fun b => bind (f b) k)) -> number_with P (bind (bind m f) k).
Proof.
  intros (x & Ex & K). exists x. split; [|exact K]. rewrite value_bind in Ex. rewrite (value_bind (bind m f)), (value_bind m f).
  destruct (value m) as [b|e]; [|exact Ex]. rewrite value_bind in Ex. exact Ex.
Qed.
Lemma number_bind_in {B} `{numeric B} P Q (m : M B) (k : B -> M A) :
  number_with Q m -> (forall b, number_with Q b -> number_with P (k b)) -> number_with P (bind m k).
Proof.
  intros (b & Eb & Kb) K. destruct (K b Kb) as (x & Ex & Kx). exists x. split; [rewrite (value_bind_ok _ _ _ Eb); exact Ex|exact Kx].
Qed.
End Calls.

(** A sequence of checks comes to an end. *)
Lemma clean_bind (m : M unit) (k : unit -> M unit) : value m = Ok tt -> value (k tt) = Ok tt -> value (bind m k) = Ok tt.
Proof. intros E K. rewrite (value_bind_ok _ _ _ E). exact K. Qed.
Ltac clean :=
  cbv beta zeta iota;
  lazymatch goal with
  | |- value (ret tt) = Ok tt => reflexivity
  | |- value (warn _) = Ok tt => reflexivity
  | |- value (check _ _ _ _ _) = Ok tt => apply value_check
  | |- value (when _ _) = Ok tt => apply value_when; clean
  | |- value (bind (ret _) _) = Ok tt => rewrite bind_ret_l; clean
  | |- value (bind _ _) = Ok tt => apply clean_bind; [clean|clean]
  | |- value (if ?c then _ else _) = Ok tt => destruct c; clean
  | |- value (match ?c with (_, _) => _ end) = Ok tt => destruct c; clean
  | |- value (match ?c with Some _ => _ | None => _ end) = Ok tt => destruct c; clean
  | |- value ?m = Ok tt => let h := head m in progress unfold h; clean
  end
with head m := lazymatch m with ?f _ => head f | ?f => f end.

Ltac decide_case c :=
  lazymatch c with
  | Rltb ?a ?b => destruct (Rltb_spec a b)
  | Rleb ?a ?b => destruct (Rleb_spec a b)
  | (?x && ?y)%bool => decide_case x
  | (?x || ?y)%bool => decide_case x
  | negb ?x => decide_case x
  | _ => destruct c eqn:?
  end.
Ltac numrun :=
  cbv beta zeta iota;
  repeat (nfin; cbn [fst snd negb andb orb is_none b2n Nat.add Nat.ltb Nat.leb Nat.eqb isnan provided]);
  lazymatch goal with
  | |- number_with (A := num) ?P (Fin ?r) => exists r; split; [reflexivity|unfold positive, not_negative, any; first [exact I | solve [rpos]]]
  | |- number_with (A := (num * _)%type) ?P ?x => change (number_with (A := num) P (fst x)); numrun
  | |- number_with (A := M _) _ (ret _) => apply number_ret; numrun
  | |- number_with (A := M _) _ (bind (ret _) _) => apply number_bind_ret; numrun
  | |- number_with (A := M _) _ (bind (warn _) _) => apply number_bind_unit; [reflexivity|numrun]
  | |- number_with (A := M _) _ (bind (bind _ _) _) => apply number_bind_assoc; numrun
  | |- number_with (A := M _) _ (bind (if ?c then _ else _) _) => decide_case c; numrun
  | |- number_with (A := M _) _ (@bind unit _ ?m _) => apply number_bind_unit; [clean|numrun]
  | |- number_with (A := M _) _ (if ?c then _ else _) => decide_case c; numrun
  | |- number_with (A := M _) _ (bind (match ?c with (_, _) => _ end) _) => destruct c eqn:?; numrun
  | |- context [if ?c then _ else _] => decide_case c; numrun
  end.

Ltac all_positive :=
  repeat match goal with
  | H : positives (_ :: _) |- _ => let H1 := fresh "P" in let H2 := fresh "Q" in
      apply Forall_cons_iff in H; destruct H as [H1 H2]; unfold positive in H1
  | H : Forall positive (_ :: _) |- _ => let H1 := fresh "P" in let H2 := fresh "Q" in
      apply Forall_cons_iff in H; destruct H as [H1 H2]; unfold positive in H1
  | H : positives nil |- _ => clear H
  | H : Forall positive nil |- _ => clear H
  end.
