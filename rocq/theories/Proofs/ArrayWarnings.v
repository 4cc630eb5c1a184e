From Coq Require Import Reals List Bool Arith Lia.
From Verif.Lib Require Import Num Monad Arr ArrFlags ArrLoop NTac.
From Verif.Spec Require Import Arrays ArrayWarnings.
From Verif.Proofs Require Import Core CheckTac Arrays.
From Verif.Model Require Import CoreUtility ArrCore.
Import ListNotations.
Open Scope nat_scope.

(** ** Expressions issue no warnings *)
Definition quiet {A} (m : M A) : Prop := warns m = [].

Lemma warns_bind {A B} (m : M A) (k : A -> M B) :
  warns (x <- m ;; k x) = warns m ++ match value m with Ok a => warns (k a) | Err _ => [] end.
Proof. destruct m as [w [a|e]]; unfold warns, value; cbn; [destruct (k a); reflexivity|rewrite app_nil_r; reflexivity]. Qed.

Lemma quiet_bind {A B} (m : M A) (k : A -> M B) : quiet m -> (forall a, quiet (k a)) -> quiet (x <- m ;; k x).
Proof. unfold quiet. intros H K. rewrite warns_bind, H. destruct (value m); [apply K|reflexivity]. Qed.
Lemma quiet_value (a : nums) : quiet (value_of a).
Proof. reflexivity. Qed.
Lemma quiet_ret {A} (a : A) : quiet (ret a).
Proof. reflexivity. Qed.
Lemma quiet_bcast {A B C} (f : A -> B -> C) a b : quiet (bcast f a b).
Proof.
  destruct a as [x|l], b as [y|m]; cbn [bcast]; try reflexivity.
  destruct (Nat.eqb (List.length l) (List.length m)); [reflexivity|]. destruct l as [|? [|? ?]], m as [|? [|? ?]]; reflexivity.
Qed.
Lemma quiet_lift1 {A B} (f : A -> B) e : quiet e -> quiet (lift1 f e).
Proof. intros H. apply quiet_bind; [auto|]. intros. apply quiet_ret. Qed.
Lemma quiet_lift2 {A B C} (f : A -> B -> C) e1 e2 : quiet e1 -> quiet e2 -> quiet (lift2 f e1 e2).
Proof. intros H K. apply quiet_bind; [auto|]. intros. apply quiet_bind; [auto|]. intros. apply quiet_bcast. Qed.
Lemma quiet_where c (x y : M nums) : quiet c -> quiet x -> quiet y -> quiet (where_ c x y).
Proof. intros. apply quiet_lift2; [auto|]. apply quiet_lift2; auto. Qed.

Ltac quiet_tac :=
  lazymatch goal with
  | |- quiet (value_of _) => apply quiet_value
  | |- quiet (ret _) => apply quiet_ret
  | |- quiet (lift1 _ _) => apply quiet_lift1; quiet_tac
  | |- quiet (lift2 _ _ _) => apply quiet_lift2; quiet_tac
  | |- quiet (op1 _ _) => unfold op1; apply quiet_lift1; quiet_tac
  | |- quiet (op2 _ _ _) => unfold op2; apply quiet_lift2; quiet_tac
  | |- quiet (cmp _ _ _) => unfold cmp; apply quiet_lift2; quiet_tac
  | |- quiet (where_ _ _ _) => apply quiet_where; quiet_tac
  | |- quiet (first _) => first_tac; quiet_tac
  | |- quiet (bind _ _) => apply quiet_bind; [quiet_tac|let a := fresh "a" in intros a; quiet_tac]
  | |- _ => idtac
  end.

(** ** Checks *)
Definition told (sh : option nat) (call : M unit) (scalar : nat -> M unit) : Prop :=
  (forall i, inside sh i -> value (scalar i) = value call)
  /\ forall w, In w (warns call) <-> exists i, inside sh i /\ In w (warns (scalar i)).

Lemma some_place sh : sh <> Some 0 -> inside sh 0.
Proof. destruct sh as [[|n]|]; cbn; [congruence|lia|auto]. Qed.

Lemma told_ret sh : told sh (ret tt) (fun _ => ret tt).
Proof. split; [reflexivity|]. intros w. cbn. split; [tauto|]. intros (i & _ & F). exact F. Qed.
Lemma told_raise sh e : told sh (raise e) (fun _ => raise e).
Proof. split; [reflexivity|]. intros w. cbn. split; [tauto|]. intros (i & _ & F). exact F. Qed.

Lemma told_seq sh m k m' k' : sh <> Some 0 -> told sh m m' -> told sh k k' -> told sh (m ;; k) (fun i => m' i ;; k' i).
Proof.
  intros NE (V & W) (V' & W'). split.
  - intros i I. rewrite !value_bind, V by exact I. destruct (value m) as [[]|]; [apply V', I|reflexivity].
  - intros w. rewrite warns_bind, in_app_iff, W. destruct (value m) as [[]|e] eqn:E.
    + rewrite W'. split.
      * intros [(i & I & H)|(i & I & H)]; exists i; (split; [exact I|]); rewrite warns_bind, in_app_iff, V by exact I; tauto.
      * intros (i & I & H). rewrite warns_bind, in_app_iff, V in H by exact I. destruct H as [H|H]; [left|right]; exists i; auto.
    + split.
      * intros [(i & I & H)|[]]. exists i. split; [exact I|]. rewrite warns_bind, in_app_iff, V by exact I. tauto.
      * intros (i & I & H). rewrite warns_bind, in_app_iff, V in H by exact I. destruct H as [H|[]]. left. exists i. auto.
Qed.

Lemma told_when sh b b' m m' : (forall i, inside sh i -> b' i = b) -> (b = true -> told sh m m') -> told sh (when b m) (fun i => when (b' i) (m' i)).
Proof.
  intros B T. destruct b.
  - destruct (T eq_refl) as (V & W). split.
    + intros i I. rewrite B by exact I. apply V, I.
    + intros w. cbn [when]. rewrite W. split; intros (i & I & H); exists i; (split; [exact I|]); [rewrite B by exact I; exact H|rewrite B in H by exact I; exact H].
  - split.
    + intros i I. rewrite B by exact I. reflexivity.
    + intros w. cbn. split; [tauto|]. intros (i & I & H). rewrite B in H by exact I. exact H.
Qed.

Lemma check_values_value n f l lo hi : exists r, value (check_values n f l lo hi) = Ok r.
Proof.
  induction l as [|y l' IHl']; [eexists; reflexivity|]. cbn [check_values]. destruct IHl' as (r & E).
  unfold value in *. destruct (check_values n f l' lo hi) as [w r']. cbn in E. subst r'. destruct (_ || _)%bool; cbn; eexists; reflexivity.
Qed.

Lemma check_values_warns n f l lo hi w :
  In w (warns (check_values n f l lo hi)) <-> exists x, In x l /\ (nlt x lo || ngt x hi)%bool = true /\ w = WRange n f x lo hi.
Proof.
  induction l as [|x l IH]; [cbn; split; [tauto|intros (x & [] & _)]|]. cbn [check_values].
  destruct (check_values_value n f l lo hi) as (r & E).
  destruct (nlt x lo || ngt x hi)%bool eqn:B.
  - rewrite warns_bind. change (warns (warn (WRange n f x lo hi))) with [WRange n f x lo hi]. change (value (warn (WRange n f x lo hi))) with (Ok tt).
    cbv iota beta. rewrite warns_bind, E. change (warns (ret (false :: r))) with (@nil warning). rewrite app_nil_r. cbn [app In]. rewrite IH. split.
    + intros [<-|(y & I & H)]; [exists x|exists y]; auto.
    + intros (y & [<-|I] & Bx & H); [left; auto|right; exists y; auto].
  - rewrite warns_bind, E. change (warns (ret (true :: r))) with (@nil warning). rewrite app_nil_r, IH. split.
    + intros (y & I & H). exists y. split; [right; exact I|exact H].
    + intros (y & [<-|I] & Bx & H); [congruence|exists y; auto].
Qed.

Lemma entries_at {A} (a : arr A) sh x : stretches (shape a) sh -> sh <> Some 0 -> In x (entries a) -> exists i, inside sh i /\ at_ a i = Some x.
Proof.
  intros S NE I. destruct a as [y|l].
  - destruct I as [<-|[]]. exists 0. split; [apply some_place, NE|reflexivity].
  - cbn [entries] in I. apply In_nth_error in I as (k & E).
    assert (L : k < List.length l) by (apply nth_error_Some; congruence).
    destruct S as [S|[(S & N)|S]]; cbn [shape] in S.
    + discriminate.
    + injection S as S. exists 0. split; [apply some_place, NE|]. assert (k = 0) as -> by lia.
      destruct l as [|y [|z l]]; try discriminate. exact E.
    + exists k. split; [rewrite <- S; exact L|]. unfold at_. destruct l as [|y [|z l]]; [destruct k; discriminate| |exact E].
      cbn in L. assert (k = 0) as -> by lia. exact E.
Qed.

Lemma told_check sh n f (e : M nums) lo hi v v' : sh <> Some 0 -> quiet e -> den sh e v -> (forall i, inside sh i -> v i = v' i) ->
  told sh (acheck n f e lo hi) (fun i => check n f (v' i) lo hi).
Proof.
  intros NE Q (r & E & S & V) X. change (arr num) with nums in *.
  destruct (check_values_value n f (entries r) lo hi) as (b & Eb).
  assert (VA : value (acheck n f e lo hi) = Ok tt).
  { unfold acheck. rewrite value_bind, E, value_bind, Eb. reflexivity. }
  assert (WA : warns (acheck n f e lo hi) = warns (check_values n f (entries r) lo hi)).
  { unfold acheck. rewrite warns_bind, Q, E, warns_bind, Eb. apply app_nil_r. }
  assert (VC : forall x, value (check n f x lo hi) = Ok tt).
  { intros x. unfold check, check_variable_validity_range. destruct (check_values_value n f [x] lo hi) as (c & Ec). rewrite value_bind, Ec. reflexivity. }
  assert (WC : forall x, warns (check n f x lo hi) = warns (check_values n f [x] lo hi)).
  { intros x. unfold check, check_variable_validity_range. destruct (check_values_value n f [x] lo hi) as (c & Ec). rewrite warns_bind, Ec. apply app_nil_r. }
  split; [intros; rewrite VA, VC; reflexivity|].
  intros w. rewrite WA, check_values_warns. split.
  - intros (x & I & H & W). destruct (entries_at r sh x S NE I) as (i & Ii & A). exists i. split; [exact Ii|].
    rewrite WC. apply check_values_warns. exists x. rewrite V in A by exact Ii. injection A as A. rewrite X in A by exact Ii.
    split; [left; exact A|auto].
  - intros (i & Ii & H). rewrite WC in H. apply check_values_warns in H as (x & [<-|[]] & H & W). exists (v' i). split; [|auto].
    rewrite <- X by exact Ii. apply (at_entry r i). apply V, Ii.
Qed.

Lemma told_pure sh (e : M nums) v k s : quiet e -> den sh e v ->
  (forall a : nums, stretches (shape a) sh -> den sh (value_of a) v -> told sh (k a) s) -> told sh (x <- e ;; k x) s.
Proof.
  intros Q (r & E & S & V) T. change (arr num) with nums in *. destruct (T r S) as (TV & TW); [exists r; auto|]. split.
  - intros i I. rewrite value_bind, E. apply TV, I.
  - intros w. rewrite warns_bind, Q, E. apply TW.
Qed.

(** Whether an argument is given *)
Lemma given_places a sh i : all_or_none a -> stretches (shape a) sh -> sh <> Some 0 -> inside sh i -> provided (place i a) = given a.
Proof.
  intros H S NE I. unfold provided, given, any_nan. destruct H as [F|F].
  - rewrite (filled_place _ _ _ F S I). destruct F as (_ & F). f_equal. symmetry. induction F; [reflexivity|]. cbn. rewrite H. exact IHF.
  - rewrite (missing_place _ _ F). f_equal. symmetry. destruct (at_some _ _ _ S I) as (x & E). apply at_entry in E.
    unfold missing in F. rewrite Forall_forall in F. apply existsb_exists. exists x. auto.
Qed.

Ltac given_tac :=
  let i := fresh "i" in let I := fresh "I" in intros i I;
  lazymatch type of I with inside ?sh i =>
    repeat match goal with |- context [provided (place i ?a)] => rewrite (given_places a sh i) by assumption end end; first [reflexivity|rewrite <- !andb_assoc; reflexivity].

Ltac told_tac :=
  cbv beta zeta;
  lazymatch goal with
  | |- told _ (ret tt) _ => apply told_ret
  | |- told _ (raise _) _ => apply told_raise
  | |- told _ (when _ _) _ => apply told_when; [given_tac|intros _; told_tac]
  | |- told _ (acheck _ _ _ _ _) _ => eapply told_check; [assumption|autounfold with arrays; quiet_tac|autounfold with arrays; den_tac|intros ? ?; reflexivity]
  | |- told _ (bind (when _ _) _) _ => apply told_seq; [assumption|told_tac|told_tac]
  | |- told _ (bind (acheck _ _ _ _ _) _) _ => apply told_seq; [assumption|told_tac|told_tac]
  | |- told _ (bind _ _) _ => eapply told_pure; [autounfold with arrays; quiet_tac|autounfold with arrays; den_tac
      |let a := fresh "a" in let S := fresh "S" in let D := fresh "D" in intros a S D; told_tac]
  | |- _ => idtac
  end.
Ltac reports_tac :=
  lazymatch goal with |- reports_places _ ?c ?s =>
    let sh := fresh "sh" in let C := fresh "C" in let NE := fresh "NE" in let W := fresh "W" in
    intros sh (C & _) NE W; change (told sh c (fun i => s (place i))); args_tac end.
