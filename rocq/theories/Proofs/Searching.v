(** Lemmas about searches with a limit and a tolerance. *)
From Coq Require Import Reals Lra Lia List Bool Arith.
From Verif.Lib Require Import Num Monad RTac NTac.
From Verif.Spec Require Import Searching.
Import ListNotations.

(** One loop that covers those of the models: a state, the answer so far and its
    difference from the one before. *)
Section Loop.
Variables (S : Type) (step : S -> M (S * num)).
Fixpoint loop (tol : num) (n : nat) (s : S) (a d : num) : M (nat * S * num) :=
  if ngt d tol then
    match n with
    | O => ret (O, s, a)
    | Datatypes.S n => '(s, b) <- step s ;; loop tol n s b (nabs (nsub b a))
    end
  else ret (n, s, a).

Lemma above_never x t : ngt (nabs x) t = true -> ngt (nabs x) never = true.
Proof.
  destruct x as [r| | |]; cbn; try reflexivity; try (destruct t; discriminate).
  intros _. unfold ngt, never, nlt. cbn. apply Rltb_true. pose proof (Rabs_pos r). lra.
Qed.

Definition answer {A B} (m : M (A * B)) : res B := match value m with Ok (_, b) => Ok b | Err e => Err e end.
Definition at_step (s : S) (a d : num) (k : nat) : res num := match k with O => Ok a | _ => answer (loop never k s a d) end.

Lemma loop_steps tol n : forall s a d, ngt d tol = true -> ngt d never = true -> (1 <= n)%nat ->
  exists k (P : M (S * num)), (1 <= k <= n)%nat
  /\ loop tol n s a d = ('(s, b) <- P ;; ret ((n - k)%nat, s, b))
  /\ loop never k s a d = ('(s, b) <- P ;; ret (O, s, b))
  /\ (k = n \/ over tol (at_step s a d k) (at_step s a d (k - 1)))
  /\ forall j, (1 <= j < k)%nat -> ~ over tol (at_step s a d j) (at_step s a d (j - 1)).
Proof.
  induction n as [|n IH]; intros s a d D D' N; [lia|].
  destruct (step s) as [w [[s' b]|e]] eqn:E.
  2:{ assert (U : forall t m, ngt d t = true -> loop t (Datatypes.S m) s a d = (w, Err e)).
      { intros t m Dt. cbn [loop]. rewrite Dt, E. reflexivity. }
      exists 1%nat, (w, Err e). split; [lia|]. rewrite !U by assumption. split; [reflexivity|]. split; [reflexivity|].
      split; [right|lia]. unfold at_step, answer. rewrite U by assumption. exact I. }
  assert (U : forall t m, ngt d t = true -> loop t (Datatypes.S m) s a d = bind (w, Ok tt) (fun _ => loop t m s' b (nabs (nsub b a)))).
  { intros t m Dt. cbn [loop]. rewrite Dt, E. unfold bind. cbn. destruct (loop t m s' b (nabs (nsub b a))). reflexivity. }
  assert (Z : forall t x, loop t 0 s' b x = ret (O, s', b)).
  { intros t x. cbn [loop]. destruct (ngt x t); reflexivity. }
  assert (A1 : answer (loop never 1 s a d) = Ok b).
  { rewrite U by exact D'. rewrite Z. reflexivity. }
  destruct (ngt (nabs (nsub b a)) tol) eqn:T.
  - destruct n as [|n].
    { exists 1%nat, (w, Ok (s', b)). split; [lia|]. rewrite !U by assumption. rewrite !Z.
      split; [reflexivity|]. split; [reflexivity|]. split; [left; reflexivity|lia]. }
    destruct (IH s' b (nabs (nsub b a)) T (above_never _ _ T) ltac:(lia)) as (k & P & K & L1 & L2 & C & F).
    exists (Datatypes.S k), (bind (w, Ok tt) (fun _ => P)).
    assert (X : forall j, at_step s a d (Datatypes.S j) = at_step s' b (nabs (nsub b a)) j).
    { intros [|j]; [exact A1|]. cbn [at_step]. rewrite U by exact D'. unfold answer, bind, value. cbn [fst snd].
      destruct (loop never (Datatypes.S j) s' b (nabs (nsub b a))) as [w2 [r|e]]; reflexivity. }
    split; [lia|]. rewrite !U by assumption. rewrite L1, L2. repeat split.
    + destruct P as [w2 [[s2 b2]|e]]; unfold bind; cbn; rewrite ?app_nil_r; reflexivity.
    + destruct P as [w2 [[s2 b2]|e]]; unfold bind; cbn; rewrite ?app_nil_r; reflexivity.
    + destruct C as [->|C]; [left; reflexivity|right]. rewrite X. replace (Datatypes.S k - 1)%nat with (Datatypes.S (k - 1)) by lia. rewrite X. exact C.
    + intros j J. destruct j as [|j]; [lia|]. rewrite X. destruct j as [|j].
      * cbn. rewrite T. discriminate.
      * replace (Datatypes.S (Datatypes.S j) - 1)%nat with (Datatypes.S j) by lia. rewrite X.
        specialize (F (Datatypes.S j) ltac:(lia)). replace (Datatypes.S j - 1)%nat with j in F by lia. exact F.
  - exists 1%nat, (w, Ok (s', b)). split; [lia|]. rewrite !U by assumption. split; [|split; [|split]].
    + replace (Datatypes.S n - 1)%nat with n by lia. destruct n; cbn [loop]; rewrite T; reflexivity.
    + rewrite Z. reflexivity.
    + right. cbn [at_step]. rewrite A1. cbn. exact T.
    + lia.
Qed.
End Loop.
Arguments loop {S}.
Arguments at_step {S}.
Arguments loop_steps {S}.

(** A call that hands the answer of the loop on, after warnings of its own. *)
Lemma silent_of_loop {S} (step : S -> M (S * num)) s a call first tol ws (post : num -> M num) :
  ngt PInf tol = true -> (forall b, value (post b) = Ok b) ->
  (forall n t, (first <= n)%nat -> t = tol \/ t = never ->
     call n t = bind (ws, Ok tt) (fun _ => '(_, _, b) <- loop step t (Datatypes.S n - first) s a PInf ;; post b)) ->
  silent_search call a first tol.
Proof.
  intros D V E limit N.
  assert (D' : ngt PInf never = true) by reflexivity.
  destruct (loop_steps step tol (Datatypes.S limit - first) s a PInf D D' ltac:(lia)) as (k & P & K & L1 & L2 & C & F).
  exists k.
  assert (X : forall j, after call a first j = at_step step s a PInf j).
  { intros [|j]; [reflexivity|]. unfold after, at_step, answer. rewrite E by (auto; lia).
    replace (Datatypes.S (first + j) - first)%nat with (Datatypes.S j) by lia.
    unfold bind, value. destruct (loop step never (Datatypes.S j) s a PInf) as [w [[[t s'] b]|e]]; cbn; [|reflexivity].
    specialize (V b). unfold value in V. destruct (post b) as [w2 r]. exact V. }
  split; [|].
  - split; [lia|]. split; [rewrite !X; destruct C as [->|C]; [left; lia|right; exact C]|].
    intros j J. rewrite !X. apply F, J.
  - rewrite !E by (auto; lia). replace (Datatypes.S (first + (k - 1)) - first)%nat with k by lia. rewrite L1, L2.
    destruct P as [w [[s' b]|e]]; unfold bind; cbn; [|reflexivity]. destruct (post b). reflexivity.
Qed.
Lemma silent_refused call start first tol w e :
  (forall n t, (first <= n)%nat -> call n t = (w, Err e)) -> silent_search call start first tol.
Proof.
  intros H limit N. exists 1%nat. split.
  - split; [lia|]. split; [|intros; lia]. right. cbn [after]. rewrite H by lia. exact I.
  - rewrite !H by lia. reflexivity.
Qed.
Lemma telling_of_loop {S} (step : S -> M (S * num)) s a call told tol ws (post : S -> num -> M num) :
  ngt PInf tol = true -> (forall s b, value (post s b) = Ok b /\ ~ In told (warns (post s b))) ->
  (forall s, exists r, step s = ret r) -> ~ In told ws ->
  (forall n t, (1 <= n)%nat -> t = tol \/ t = never ->
     call n t = bind (ws, Ok tt) (fun _ => '(todo, s, b) <- loop step t n s a PInf ;; when (Nat.eqb todo 0) (warn told) ;; post s b)) ->
  telling_search told call a tol.
Proof.
  intros D V Q I' E limit N.
  assert (D' : ngt PInf never = true) by reflexivity.
  destruct (loop_steps step tol limit s a PInf D D' N) as (k & P & K & L1 & L2 & C & F).
  assert (R : forall t n s a d, exists r, loop step t n s a d = ret r).
  { intros t n. induction n as [|n IH]; intros s0 a0 d0; cbn [loop]; destruct (ngt d0 t); try (eexists; reflexivity).
    destruct (Q s0) as ([s1 b1] & ->). unfold bind. cbn. destruct (IH s1 b1 (nabs (nsub b1 a0))) as (r & ->). eexists; reflexivity. }
  assert (X : forall j, after call a 1 j = at_step step s a PInf j).
  { intros [|j]; [reflexivity|]. unfold after, at_step, answer. rewrite E by (auto; lia). change (1 + j)%nat with (Datatypes.S j).
    unfold bind, value. destruct (loop step never (Datatypes.S j) s a PInf) as [w [[[t s'] b]|e]]; cbn; [|reflexivity].
    destruct (V s' b) as (Vb & _). unfold value in Vb. destruct (Nat.eqb t 0); cbn; destruct (post s' b) as [w2 r]; exact Vb. }
  assert (exists sb, P = ret sb) as ([s' b] & ->).
  { destruct (R never k s a PInf) as (r & Er). rewrite Er in L2. destruct P as [w [[s' b]|e]]; cbn in L2; [|discriminate].
    rewrite app_nil_r in L2. injection L2 as W0 _. subst w. eexists; reflexivity. }
  destruct (V s' b) as (Vb & Wb). destruct (post s' b) as [later r] eqn:Po. cbn in Vb, Wb. subst r.
  exists k, ws, later, b. split; [split; [lia|]; split; [rewrite !X; destruct C as [->|C]; [left; lia|right; exact C]|intros j J; rewrite !X; apply F, J]|].
  split; [exact I'|]. split; [exact Wb|]. rewrite !E by (auto; lia). rewrite L1, L2. split.
  - unfold bind. cbn. rewrite Po. reflexivity.
  - unfold bind. cbn. destruct (Nat.eqb_spec k limit) as [->|Nk].
    + rewrite Nat.sub_diag. cbn. rewrite Po. reflexivity.
    + replace (Nat.eqb (limit - k) 0) with false by (symmetry; apply Nat.eqb_neq; lia). cbn. rewrite Po. reflexivity.
Qed.

(** What a caller can rely on. *)
Section Consequences.
Variables (call : nat -> num -> M num) (start : num) (first : nat).

Lemma steps_unique limit t k k' : steps call start first limit t k -> steps call start first limit t k' -> k = k'.
Proof.
  intros (K & C & F) (K' & C' & F').
  destruct (Nat.lt_trichotomy k k') as [L|[E|L]]; [exfalso|exact E|exfalso].
  - apply (F' k); [lia|]. destruct C as [C|C]; [lia|exact C].
  - apply (F k'); [lia|]. destruct C' as [C'|C']; [lia|exact C'].
Qed.

Lemma over_dec t a b : over t a b \/ ~ over t a b.
Proof.
  destruct a as [a|], b as [b|]; unfold over; auto. destruct (ngt (nabs (nsub a b)) t); [right; discriminate|left; reflexivity].
Qed.
Lemma over_same t a : (0 <= t)%R -> over (Fin t) a a.
Proof.
  intros H. destruct a as [[r| | |]|]; cbn; try reflexivity; try exact I.
  unfold ngt, nlt. apply Rltb_false. replace (r + - r)%R with 0%R by ring. rewrite Rabs_R0. exact H.
Qed.
Lemma over_finer t t' a b : (t' <= t)%R -> over (Fin t') a b -> over (Fin t) a b.
Proof.
  intros H. destruct a as [a|], b as [b|]; cbn; auto. destruct (nabs (nsub a b)) as [r| | |]; cbn; auto.
  unfold ngt, nlt. intros E. apply Rltb_false. destruct (Rle_dec r t') as [L|L]; [lra|].
  rewrite Rltb_true in E by lra. discriminate.
Qed.

Variable allowed : R -> Prop.
Hypothesis W : forall t limit, allowed t -> (first <= limit)%nat ->
  exists k, steps call start first limit (Fin t) k /\ value (call limit (Fin t)) = after call start first k.

Lemma law_dependable : dependable allowed call first.
Proof.
  split.
  - intros t n A T N E m M. destruct (W t n A N) as (k & (K & C & F) & V).
    assert (Y : forall k, steps call start first m (Fin t) k -> value (call m (Fin t)) = after call start first k).
    { intros k0 S0. destruct (W t m A ltac:(lia)) as (km & Sm & Vm). rewrite Vm. f_equal. exact (steps_unique _ _ _ _ Sm S0). }
    destruct (Nat.eq_dec m n) as [->|Q]; [reflexivity|].
    destruct (over_dec (Fin t) (after call start first k) (after call start first (k - 1))) as [O|O].
    + rewrite V. apply Y. split; [lia|]. split; [right; exact O|exact F].
    + destruct C as [C|C]; [|contradiction].
      destruct (W t (S n) A ltac:(lia)) as (k1 & S1 & V1).
      assert (G : forall j, (1 <= j < S k)%nat -> ~ over (Fin t) (after call start first j) (after call start first (j - 1))).
      { intros j J. destruct (Nat.eq_dec j k) as [->|]; [exact O|]. apply F. lia. }
      assert (S2 : steps call start first (S n) (Fin t) (S k)) by (split; [lia|]; split; [left; lia|exact G]).
      pose proof (steps_unique _ _ _ _ S1 S2) as ->.
      rewrite E, V1. apply Y. split; [lia|]. split; [right|exact G].
      replace (S k - 1)%nat with k by lia. rewrite <- V1, <- E, V. apply over_same, T.
  - intros t t' n A A' T N. destruct (W t n A N) as (k & (K & C & F) & V). exists (first + (k - 1))%nat. split; [lia|].
    rewrite V. destruct (W t' (first + (k - 1))%nat A' ltac:(lia)) as (k' & S' & V'). rewrite V'. f_equal.
    refine (steps_unique _ _ _ _ _ S'). split; [lia|]. split; [left; lia|].
    intros j J O. apply (F j J). exact (over_finer _ _ _ _ T O).
Qed.
End Consequences.

Lemma silent_dependable (allowed : R -> Prop) call start first :
  (forall t, allowed t -> silent_search call start first (Fin t)) -> dependable allowed call first.
Proof.
  intros L. apply (law_dependable call start first). intros t limit A N. destruct (L t A limit N) as (k & S' & E). exists k. split; [exact S'|].
  rewrite E. destruct S' as ((K & _) & _). destruct k as [|k]; [lia|]. cbn [after]. replace (S k - 1)%nat with k by lia. reflexivity.
Qed.
Lemma telling_dependable told call start :
  (forall t, telling_search told call start (Fin t)) -> dependable (fun _ => True) call 1.
Proof.
  intros L. apply (law_dependable call start 1). intros t limit _ N. destruct (L t limit N) as (k & ws & later & r & S' & _ & _ & E1 & E2). exists k. split; [exact S'|].
  rewrite E2. destruct S' as ((K & _) & _). destruct k as [|k]; [lia|]. cbn [after]. change (1 + k)%nat with (S k). rewrite E1. reflexivity.
Qed.
