From Coq Require Import Reals List Bool Arith Lia.
From Verif.Lib Require Import Num Monad Arr ArrFlags ArrLoop NTac.
From Verif.Spec Require Import Arrays ArrayFlags ArrayStacks.
From Verif.Proofs Require Import Core CheckTac Arrays ArrayLoops ArrayFlags ArrayTaw.
From Verif.Model Require Import CoreUtility ArrCore.
Import ListNotations.
Open Scope nat_scope.

(** ** Expressions of which all arguments bear on the shape *)

Definition expression (args : list nums) (e : M nums) (v : nat -> num) : Prop :=
  (forall sh, Forall (fun a => stretches (shape a) sh) args -> den sh e v) /\ uses e (map shape args) /\ tame e.

Lemma expression_whole args e v : expression args e v -> forall sh, common args sh -> whole sh e v.
Proof.
  intros (D & U & _) sh (F & C). eapply whole_intro; [apply D, F|exact U|].
  destruct C as [->|C]; [left; reflexivity|]. right. apply Exists_exists in C as (a & I & <-). apply in_map, I.
Qed.
Lemma expression_compatible args e v r : expression args e v -> value e = Ok r -> compatible args.
Proof.
  intros (_ & U & _) E. exists (shape r). specialize (U r E). rewrite Forall_forall in *. intros a I. apply U. apply in_map, I.
Qed.
Lemma expression_shape args e v r : expression args e v -> value e = Ok r -> common args (shape r).
Proof.
  intros X E. destruct (expression_compatible _ _ _ _ X E) as (t & C). apply common_exists in C as (sh & C).
  destruct (expression_whole _ _ _ X sh C) as (r' & E' & S & _). pose proof (eq_trans (eq_sym E) E') as J. injection J as <-. rewrite S. exact C.
Qed.
Lemma expression_raises args e v : expression args e v -> ~ compatible args -> value e = Err ValueError.
Proof. intros X N. apply tame_raises; [apply X|]. intros r E. apply N. eapply expression_compatible; eauto. Qed.

Ltac expression_tac :=
  split; [let F := fresh "F" in intros ?sh F; args_tac; unfold float; autounfold with arrays; eapply den_ext; [den_tac|intros; reflexivity]
         |split; [unfold float; autounfold with arrays; eapply uses_incl; [uses_tac|incl_tac]
                 |unfold float; autounfold with arrays; tame_tac]].

(** ** The two kinds of calls *)

Lemma place_by_place_intro args call e v scalar : value call = value e -> expression args e v ->
  (forall sh i, Forall (fun a => stretches (shape a) sh) args -> inside sh i -> scalar (place i) = Ok (v i)) ->
  place_by_place args call scalar.
Proof.
  intros Q X H. split; rewrite Q; [|apply (expression_raises _ _ _ X)].
  intros sh C. destruct (expression_whole _ _ _ X sh C) as (r & E & S & V). exists r. split; [exact E|]. split; [exact S|].
  intros i I. rewrite (H sh i) by (auto; apply C). unfold place. rewrite V by exact I. reflexivity.
Qed.

Definition stack (e e' : M nums) : M (nums * arr bool) :=
  x <- e ;; y <- e' ;; z <- stacked_min x y ;; m <- (stacked_min x y =? y)%arr ;; ret (z, m).

Lemma stack_gives sh e e' v v' : whole sh e v -> whole sh e' v' ->
  gives sh (stack e e') (fun i => nmin (v i) (v' i)) (fun i => neqb (nmin (v i) (v' i)) (v' i)).
Proof.
  intros (x & Ex & Sx & Vx) (y & Ey & Sy & Vy).
  destruct (gives_limited sh x y v v' (ret tt)) as (r & m & E & P); [exists x; auto|exists y; auto|reflexivity|].
  exists r, m. split; [|exact P]. unfold stack. apply (steps _ _ x _ Ex). apply (steps _ _ y _ Ey).
  apply step in E as (z & Ez & E). apply (steps _ _ z _ Ez). apply step in E as (m' & Em & E). apply (steps _ _ m' _ Em). exact E.
Qed.
Lemma stack_stops args args' e e' v v' : expression args e v -> expression args' e' v' ->
  ~ (exists sh, common args sh /\ common args' sh) -> value (stack e e') = Err ValueError.
Proof.
  intros X X' N. apply tame_raises.
  - unfold stack, stacked_min. apply tame_bind; [apply X|]. intros x _. apply tame_bind; [apply X'|]. intros y _. tame_tac.
  - intros (z & m) E. apply N. unfold stack in E. apply step in E as (x & Ex & E). apply step in E as (y & Ey & E).
    apply step in E as (w & Ew & _). apply stacked_shapes in Ew. exists (shape x).
    split; [exact (expression_shape _ _ _ _ X Ex)|]. rewrite Ew. exact (expression_shape _ _ _ _ X' Ey).
Qed.

Lemma flagged_both_intro args args' call e e' v v' scalar :
  value call = value (stack e e') -> expression args e v -> expression args' e' v' ->
  (forall sh i, common args sh -> common args' sh -> inside sh i ->
     scalar (place i) = Ok (nmin (v i) (v' i), neqb (nmin (v i) (v' i)) (v' i))) ->
  flagged_both args args' call scalar.
Proof.
  intros Q X X' H. split; [|intros N; rewrite Q; exact (stack_stops _ _ _ _ _ _ X X' N)].
  intros sh C C'. eapply gives_answers.
  - destruct (stack_gives sh e e' v v') as (r & m & E & P);
      [apply (expression_whole _ _ _ X), C|apply (expression_whole _ _ _ X'), C'|].
    exists r, m. split; [rewrite Q; exact E|exact P].
  - intros i I. apply (H sh i C C' I).
Qed.

(** ... times something made of the arguments *)
Lemma flagged_both_times args args' call e e' v v' u w scalar :
  value call = value (stack e e') -> expression args e v -> expression args' e' v' ->
  (forall sh, common args sh -> common args' sh -> den sh u w) ->
  (forall sh i, common args sh -> common args' sh -> inside sh i ->
     scalar (place i) = Ok ((nmin (v i) (v' i) * w i)%num, neqb (nmin (v i) (v' i)) (v' i))) ->
  flagged_both args args' (d <- call ;; z <- (fst d * u)%arr ;; ret (z, snd d)) scalar.
Proof.
  intros Q X X' D H. split; [|intros N; apply stops_first; unfold stops; rewrite Q; exact (stack_stops _ _ _ _ _ _ X X' N)].
  intros sh C C'. eapply gives_answers.
  - eapply gives_times; [|apply D; assumption].
    destruct (stack_gives sh e e' v v') as (r & m & E & P);
      [apply (expression_whole _ _ _ X), C|apply (expression_whole _ _ _ X'), C'|].
    exists r, m. split; [rewrite Q; exact E|exact P].
  - intros i I. apply (H sh i C C' I).
Qed.

(** Arguments of the same shapes *)
Lemma shapes_forall args args' sh : map shape args = map shape args' ->
  Forall (fun a : nums => stretches (shape a) sh) args -> Forall (fun a : nums => stretches (shape a) sh) args'.
Proof.
  revert args'. induction args as [|a l IH]; intros [|b l'] E F; try discriminate; [constructor|].
  injection E as E1 E2. inversion F; subst. constructor; [rewrite <- E1; assumption|apply IH; assumption].
Qed.
Lemma shapes_exists args args' sh : map shape args = map shape args' ->
  Exists (fun a : nums => shape a = sh) args -> Exists (fun a : nums => shape a = sh) args'.
Proof.
  revert args'. induction args as [|a l IH]; intros [|b l'] E X; try discriminate; [inversion X|].
  injection E as E1 E2. inversion X; subst; [left; congruence|right; apply IH; assumption].
Qed.
Lemma shapes_common args args' sh : map shape args = map shape args' -> common args sh -> common args' sh.
Proof.
  intros E (F & C). split; [exact (shapes_forall _ _ _ E F)|]. destruct C as [C|C]; [left; exact C|right; exact (shapes_exists _ _ _ E C)].
Qed.
Lemma shapes_compatible args args' : map shape args = map shape args' -> compatible args -> compatible args'.
Proof. intros E (sh & F). exists sh. exact (shapes_forall _ _ _ E F). Qed.
Lemma shapes_expression args args' e v w : map shape args = map shape args' -> expression args e v ->
  (forall sh i, Forall (fun a => stretches (shape a) sh) args' -> inside sh i -> v i = w i) -> expression args' e w.
Proof.
  intros E (D & U & T) H. split; [|split; [rewrite <- E; exact U|exact T]].
  intros sh F. eapply den_ext; [apply D; exact (shapes_forall _ _ _ (eq_sym E) F)|]. intros i I. apply (H sh i F I).
Qed.
