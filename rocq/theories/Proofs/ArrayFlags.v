From Coq Require Import Reals List Bool Arith Lia.
From Verif.Lib Require Import Num Monad Arr ArrFlags ArrLoop NTac.
From Verif.Spec Require Import Arrays ArrayFlags.
From Verif.Proofs Require Import Core CheckTac Arrays.
From Verif.Model Require Import CoreUtility ArrCore.
Import ListNotations.
Open Scope nat_scope.

(** ** Errors other than ValueError do not occur *)

Definition tame {A} (m : M A) : Prop := forall e, value m = Err e -> e = ValueError.

Lemma tame_ret {A} (x : A) : tame (ret x).
Proof. intros e H. discriminate. Qed.
Lemma tame_value (a : nums) : tame (value_of a).
Proof. intros e H. discriminate. Qed.
Lemma tame_raise {A} : tame (@raise A ValueError).
Proof. intros e H. injection H as <-. reflexivity. Qed.
Lemma tame_bind {A B} (m : M A) (k : A -> M B) : tame m -> (forall a, value m = Ok a -> tame (k a)) -> tame (x <- m ;; k x).
Proof.
  intros H K e E. rewrite value_bind in E. destruct (value m) as [a|e'] eqn:V.
  - eapply K; [reflexivity|exact E].
  - injection E as <-. apply H, V.
Qed.
Lemma tame_bcast {A B C} (f : A -> B -> C) a b : tame (bcast f a b).
Proof.
  destruct a as [x|l], b as [y|m]; cbn [bcast]; try apply tame_ret.
  destruct (Nat.eqb (length l) (length m)); [apply tame_ret|].
  destruct l as [|? [|? ?]], m as [|? [|? ?]]; first [apply tame_ret|apply tame_raise].
Qed.
Lemma tame_lift1 {A B} (f : A -> B) e : tame e -> tame (lift1 f e).
Proof. intros H. apply tame_bind; [auto|]. intros. apply tame_ret. Qed.
Lemma tame_lift2 {A B C} (f : A -> B -> C) e1 e2 : tame e1 -> tame e2 -> tame (lift2 f e1 e2).
Proof. intros H K. apply tame_bind; [auto|]. intros. apply tame_bind; [auto|]. intros. apply tame_bcast. Qed.
Lemma tame_where c (x y : M nums) : tame c -> tame x -> tame y -> tame (where_ c x y).
Proof. intros. apply tame_lift2; [auto|]. apply tame_lift2; auto. Qed.
Lemma tame_truth a : tame (truth a).
Proof. destruct a as [b|[|b [|? ?]]]; first [apply tame_ret|apply tame_raise]. Qed.
Lemma tame_holds c : tame c -> tame (holds c).
Proof. intros H. apply tame_bind; [auto|]. intros. apply tame_truth. Qed.
Lemma tame_is_nan x : tame x -> tame (is_nan x).
Proof. intros H. apply tame_holds, tame_lift1, H. Qed.
Lemma tame_stacked f x y : tame x -> tame y -> tame (stacked f x y).
Proof.
  intros H K. apply tame_bind; [auto|]. intros a _. apply tame_bind; [auto|]. intros b _.
  destruct (shape_eqb _ _); [apply tame_bcast|apply tame_raise].
Qed.
Lemma tame_greatest a : tame (greatest a).
Proof. unfold greatest. destruct (entries a); [apply tame_raise|apply tame_ret]. Qed.
Lemma tame_when b m : tame m -> tame (when b m).
Proof. destruct b; [auto|]. intros _. apply tame_ret. Qed.
Lemma tame_warn w : tame (warn w).
Proof. intros e H. discriminate. Qed.
Lemma tame_acheck n f e lo hi : tame e -> tame (acheck n f e lo hi).
Proof.
  intros H. apply tame_bind; [auto|]. intros a _. apply tame_bind; [|intros; apply tame_ret].
  induction (entries a) as [|x l IH]; [apply tame_ret|]. cbn [check_values].
  destruct (nlt x lo || ngt x hi)%bool; repeat (apply tame_bind; [auto using tame_warn, tame_ret|intros ? _]); auto using tame_ret.
Qed.
Lemma tame_each f e : tame e -> (forall x, tame (f x)) -> tame (each f e).
Proof.
  intros H K. apply tame_bind; [auto|]. intros [x|l] _.
  - apply tame_bind; [auto|]. intros. apply tame_ret.
  - apply tame_bind; [|intros; apply tame_ret]. induction l; [apply tame_ret|]. cbn [each_of].
    apply tame_bind; [auto|]. intros. apply tame_bind; [auto|]. intros. apply tame_ret.
Qed.

Ltac tame_tac :=
  lazymatch goal with
  | |- tame (value_of _) => apply tame_value
  | |- tame (ret _) => apply tame_ret
  | |- tame (raise ValueError) => apply tame_raise
  | |- tame (warn _) => apply tame_warn
  | |- tame (lift1 _ _) => apply tame_lift1; tame_tac
  | |- tame (lift2 _ _ _) => apply tame_lift2; tame_tac
  | |- tame (op1 _ _) => unfold op1; apply tame_lift1; tame_tac
  | |- tame (op2 _ _ _) => unfold op2; apply tame_lift2; tame_tac
  | |- tame (cmp _ _ _) => unfold cmp; apply tame_lift2; tame_tac
  | |- tame (where_ _ _ _) => apply tame_where; tame_tac
  | |- tame (truth _) => apply tame_truth
  | |- tame (holds _) => apply tame_holds; tame_tac
  | |- tame (is_nan _) => apply tame_is_nan; tame_tac
  | |- tame (stacked _ _ _) => apply tame_stacked; tame_tac
  | |- tame (greatest _) => apply tame_greatest
  | |- tame (when _ _) => apply tame_when; tame_tac
  | |- tame (acheck _ _ _ _ _) => apply tame_acheck; tame_tac
  | |- tame (bind _ _) => apply tame_bind; [tame_tac|let a := fresh "a" in intros a _; tame_tac]
  | |- tame (if ?b then _ else _) => destruct b; tame_tac
  | |- tame (match ?b with _ => _ end) => destruct b; tame_tac
  | |- _ => idtac
  end.

(** A call that does not return raises ValueError. *)
Lemma tame_raises {A} (m : M A) : tame m -> (forall r, value m <> Ok r) -> value m = Err ValueError.
Proof. intros H K. destruct (value m) as [r|e] eqn:V; [exfalso; exact (K r eq_refl)|]. f_equal. apply H. exact V. Qed.

(** ** Taking a call apart that returned *)

Lemma step {A B} (m : M A) (k : A -> M B) r : value (x <- m ;; k x) = Ok r -> exists a, value m = Ok a /\ value (k a) = Ok r.
Proof. rewrite value_bind. destruct (value m) as [a|]; [|discriminate]. intros E. exists a. auto. Qed.

Lemma steps {A B} (m : M A) (k : A -> M B) a r : value m = Ok a -> value (k a) = r -> value (x <- m ;; k x) = r.
Proof. intros E F. rewrite value_bind, E. exact F. Qed.

(** ** Expressions with the full shape *)

Definition whole {A} (sh : option nat) (e : M (arr A)) (v : nat -> A) : Prop :=
  exists r, value e = Ok r /\ shape r = sh /\ forall i, inside sh i -> at_ r i = Some (v i).

Definition reached (sh : option nat) (L : list (option nat)) : Prop := sh = None \/ In sh L.

Lemma whole_intro {A} sh (e : M (arr A)) v L : den sh e v -> uses e L -> reached sh L -> whole sh e v.
Proof.
  intros (r & E & S & V) U R. exists r. split; [auto|]. split; [|auto]. apply stretches_antisym; [auto|].
  destruct R as [->|I]; [apply stretches_none|]. specialize (U r E). rewrite Forall_forall in U. apply U, I.
Qed.
Lemma whole_den {A} sh (e : M (arr A)) v : whole sh e v -> den sh e v.
Proof. intros (r & E & S & V). exists r. split; [auto|]. split; [rewrite S; apply stretches_refl|auto]. Qed.
Lemma whole_ext {A} sh (e : M (arr A)) v w : whole sh e v -> (forall i, inside sh i -> v i = w i) -> whole sh e w.
Proof. intros (r & E & S & V) H. exists r. split; [auto|]. split; [auto|]. intros. rewrite <- H; auto. Qed.

Lemma shape_eqb_refl s : shape_eqb s s = true.
Proof. destruct s; cbn; auto. apply Nat.eqb_refl. Qed.
Lemma shape_eqb_eq s t : shape_eqb s t = true -> s = t.
Proof. destruct s, t; cbn; try discriminate; auto. intros H. apply Nat.eqb_eq in H. congruence. Qed.

Lemma whole_bcast {A B C} (f : A -> B -> C) sh (a : arr A) (b : arr B) va vb :
  shape a = sh -> shape b = sh -> (forall i, inside sh i -> at_ a i = Some (va i)) -> (forall i, inside sh i -> at_ b i = Some (vb i)) ->
  whole sh (bcast f a b) (fun i => f (va i) (vb i)).
Proof.
  intros Sa Sb Va Vb.
  destruct (bcast_cases f a b sh) as (r & E & S & V); [rewrite Sa; apply stretches_refl|rewrite Sb; apply stretches_refl|].
  exists r. split; [rewrite E; reflexivity|]. split.
  - apply stretches_antisym; [auto|]. destruct (bcast_shape f a b r) as (K & _); [rewrite E; reflexivity|]. rewrite <- Sa. exact K.
  - intros i I. apply V; auto.
Qed.

Lemma whole_stacked f sh x y vx vy : whole sh x vx -> whole sh y vy -> whole sh (stacked f x y) (fun i => f (vx i) (vy i)).
Proof.
  intros (a & Ea & Sa & Va) (b & Eb & Sb & Vb).
  destruct (whole_bcast f sh a b vx vy Sa Sb Va Vb) as (r & E & S & V).
  exists r. split; [|auto]. unfold stacked. apply (steps x _ a _ Ea). apply (steps y _ b _ Eb).
  rewrite Sa, Sb, shape_eqb_refl. exact E.
Qed.

(** [np.min([x, y], axis=0)] returned: both have the same shape. *)
Lemma stacked_shapes f (x y : nums) r : value (stacked f (value_of x) (value_of y)) = Ok r -> shape x = shape y.
Proof.
  unfold stacked. intros E. apply step in E as (a & Ea & E). injection Ea as <-. apply step in E as (b & Eb & E). injection Eb as <-.
  destruct (shape_eqb (shape x) (shape y)) eqn:Q; [|discriminate]. apply shape_eqb_eq in Q. auto.
Qed.
