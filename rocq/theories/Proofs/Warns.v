(** The warnings of a sequence of validity checks. *)
From Coq Require Import Reals Lra List Bool String.
From Verif.Lib Require Import Num Monad RTac NTac.
From Verif.Spec Require Import Ranges.
From Verif.Model Require Import CoreUtility.
From Verif.Proofs Require Import Core.
Import ListNotations.
Open Scope R_scope.

Lemma bind_assoc {A B C} (m : M A) (f : A -> M B) (g : B -> M C) :
  bind (bind m f) g = bind m (fun x => bind (f x) g).
Proof.
  destruct m as [w [a|e]]; simpl; [|reflexivity].
  destruct (f a) as [w1 [b|e]]; simpl; [|reflexivity].
  destruct (g b) as [w2 r]. simpl. rewrite app_assoc. reflexivity.
Qed.
Lemma bind_ret_r (m : M unit) : bind m (fun _ => ret tt) = m.
Proof. destruct m as [w [[]|e]]; simpl; rewrite ?app_nil_r; reflexivity. Qed.

Lemma check_seq {A} n f v lo hi (k : M A) :
  warns (check n f v lo hi ;; k)
  = ((if nlt v lo || ngt v hi then [WRange n f v lo hi] else []) ++ warns k)%list.
Proof. rewrite warns_bind, value_check, warns_check. reflexivity. Qed.

Lemma flagged_check {A} n f v lo hi r lor hir rs (k : M A) :
  v = Fin r -> lo = Fin lor -> hi = Fin hir -> lor <= hir -> flagged rs (warns k) ->
  flagged (Range n f r lor hir :: rs) (warns (check n f v lo hi ;; k)).
Proof.
  intros -> -> -> Hle H. rewrite check_seq, nlt_fin, ngt_fin.
  destruct (Rltb_spec r lor), (Rltb_spec hir r); cbn [orb]; cbn [app]; constructor; (assumption || lra).
Qed.
Lemma flagged_ret {A} (a : A) : flagged [] (warns (ret a)).
Proof. constructor. Qed.

(** One step: open the next check, using [t] for its value. *)
Ltac fnorm :=
  repeat (progress (cbn [when provided isnan negb andb orb]; cbv zeta;
                    rewrite ?bind_assoc, ?bind_ret_l)).
Ltac fstep :=
  fnorm; first [ apply flagged_check; [| |
                 | try lra |]
               | apply flagged_ret ].
Ltac fval := try (nfin; reflexivity).
Ltac flags := repeat (fstep; fval).

Lemma flagged_none rs ws : flagged rs ws ->
  (ws = [] <-> Forall (fun r => r_lo r <= r_value r <= r_hi r) rs).
Proof.
  induction 1 as [|? ? ? ? ? ? ? H _ IH|? ? ? ? ? ? ? H _ IH].
  - split; constructor.
  - rewrite IH. split; [intros; constructor; assumption|]. intros F. inversion F; assumption.
  - split; [discriminate|]. intros F. inversion F as [|? ? F1 _]; subst. cbn in F1. lra.
Qed.

(** A quantity outside its range is among the warnings. *)
Lemma flagged_In rs ws n f v lo hi : flagged rs ws -> In (Range n f v lo hi) rs ->
  (v < lo \/ hi < v) -> In (WRange n f (Fin v) (Fin lo) (Fin hi)) ws.
Proof.
  induction 1 as [|? ? ? ? ? ? ? H _ IH|? ? ? ? ? ? ? H _ IH]; intros HI HO.
  - destruct HI.
  - destruct HI as [E|HI]; [injection E as -> -> -> -> ->; lra|auto].
  - destruct HI as [E|HI]; [injection E as -> -> -> -> ->; left; reflexivity|right; auto].
Qed.
