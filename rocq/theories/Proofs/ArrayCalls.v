From Coq Require Import Reals List Bool Arith Lia.
From Verif.Lib Require Import Num Monad Arr ArrFlags ArrLoop NTac.
From Verif.Spec Require Import Arrays ArrayWarnings ArrayCalls.
From Verif.Proofs Require Import Core CheckTac Arrays ArrayWarnings.
From Verif.Model Require CorePhysics.
From Verif.Model Require Import CoreUtility ArrCore.
Import ListNotations.
Open Scope nat_scope.

Definition tells (sh : option nat) (call : M nums) (scalar : nat -> M num) : Prop :=
  match value call with
  | Ok r => stretches (shape r) sh /\ forall i, inside sh i -> value (scalar i) = Ok (place i r)
  | Err e => forall i, inside sh i -> value (scalar i) = Err e
  end
  /\ forall w, In w (warns call) <-> exists i, inside sh i /\ In w (warns (scalar i)).

Lemma den_place sh (a : nums) v i : den sh (value_of a) v -> inside sh i -> place i a = v i.
Proof. intros (r & E & S & V) I. injection E as <-. unfold place. rewrite V by exact I. reflexivity. Qed.

Lemma tells_expr sh (e : M nums) v s : quiet e -> den sh e v -> (forall i, inside sh i -> s i = ret (v i)) -> tells sh e s.
Proof.
  intros Q (r & E & S & V) H. change (arr num) with nums in *. unfold tells. rewrite E, Q. split.
  - split; [exact S|]. intros i I. rewrite H by exact I. unfold place. rewrite V by exact I. reflexivity.
  - intros w. split; [intros []|]. intros (i & I & W). rewrite H in W by exact I. exact W.
Qed.

Lemma tells_let sh (e : M nums) v k s : quiet e -> den sh e v ->
  (forall a : nums, stretches (shape a) sh -> den sh (value_of a) v -> tells sh (k a) s) -> tells sh (x <- e ;; k x) s.
Proof.
  intros Q (r & E & S & V) T. change (arr num) with nums in *. destruct (T r S) as (TV & TW); [exists r; auto|]. unfold tells.
  rewrite value_bind, E, warns_bind, Q, E. split; [exact TV|exact TW].
Qed.

Lemma tells_seq sh (m : M unit) k m' k' : sh <> Some 0 -> told sh m m' -> tells sh k k' -> tells sh (m ;; k) (fun i => m' i ;; k' i).
Proof.
  intros NE (V & W) (V' & W'). unfold tells. rewrite value_bind. split.
  - destruct (value m) as [[]|e] eqn:E.
    + destruct (value k) as [r|e].
      * split; [apply V'|]. intros i I. rewrite value_bind, V by exact I. apply V', I.
      * intros i I. rewrite value_bind, V by exact I. apply V', I.
    + intros i I. rewrite value_bind, V by exact I. reflexivity.
  - intros w. rewrite warns_bind, in_app_iff, W. destruct (value m) as [[]|e] eqn:E.
    + rewrite W'. split.
      * intros [(i & I & H)|(i & I & H)]; exists i; (split; [exact I|]); rewrite warns_bind, in_app_iff, V by exact I; tauto.
      * intros (i & I & H). rewrite warns_bind, in_app_iff, V in H by exact I. destruct H as [H|H]; [left|right]; exists i; auto.
    + split.
      * intros [(i & I & H)|[]]. exists i. split; [exact I|]. rewrite warns_bind, in_app_iff, V by exact I. tauto.
      * intros (i & I & H). rewrite warns_bind, in_app_iff, V in H by exact I. destruct H as [H|[]]. left. exists i. auto.
Qed.

Lemma tells_call sh (e : M nums) s k k' : tells sh e s ->
  (forall a : nums, stretches (shape a) sh -> (forall i, inside sh i -> value (s i) = Ok (place i a)) ->
     tells sh (k a) (fun i => k' i (place i a))) ->
  tells sh (x <- e ;; k x) (fun i => x <- s i ;; k' i x).
Proof.
  intros (V & W) T. unfold tells. rewrite value_bind. destruct (value e) as [r|x] eqn:E.
  - destruct V as (S & V). specialize (T r S V). destruct T as (TV & TW). split.
    + destruct (value (k r)) as [q|x].
      * destruct TV as (TS & TV). split; [exact TS|]. intros i I. rewrite value_bind, V by exact I. apply TV, I.
      * intros i I. rewrite value_bind, V by exact I. apply TV, I.
    + intros w. rewrite warns_bind, E, in_app_iff, W, TW. split.
      * intros [(i & I & H)|(i & I & H)]; exists i; (split; [exact I|]); rewrite warns_bind, in_app_iff, V by exact I; tauto.
      * intros (i & I & H). rewrite warns_bind, in_app_iff, V in H by exact I. destruct H as [H|H]; [left|right]; exists i; auto.
  - split.
    + intros i I. rewrite value_bind, V by exact I. reflexivity.
    + intros w. rewrite warns_bind, E, in_app_iff, W. split.
      * intros [(i & I & H)|[]]. exists i. split; [exact I|]. rewrite warns_bind, in_app_iff, V by exact I. tauto.
      * intros (i & I & H). rewrite warns_bind, in_app_iff, V in H by exact I. destruct H as [H|[]]. left. exists i. auto.
Qed.

Lemma tells_raise sh e : tells sh (raise e) (fun _ => raise e).
Proof. split; [intros i I; reflexivity|]. intros w. cbn. split; [tauto|]. intros (i & _ & F). exact F. Qed.

Lemma tells_ext sh c s t : (forall i, inside sh i -> s i = t i) -> tells sh c s -> tells sh c t.
Proof.
  intros H (V & W). split.
  - destruct (value c) as [r|e]; [destruct V as (S & V); split; [exact S|]; intros i I|intros i I]; rewrite <- (H i I); apply V, I.
  - intros w. rewrite W. split; intros (i & I & P); exists i; (split; [exact I|]); [rewrite <- H by exact I|rewrite H by exact I]; exact P.
Qed.

Lemma tells_if sh b b' (m k : M nums) m' k' : (forall i, inside sh i -> b' i = b) -> (b = true -> tells sh m m') -> (b = false -> tells sh k k') ->
  tells sh (if b then m else k) (fun i => if b' i then m' i else k' i).
Proof.
  intros B T F. destruct b; [eapply tells_ext; [|apply T; reflexivity]|eapply tells_ext; [|apply F; reflexivity]];
    intros i I; rewrite B by exact I; reflexivity.
Qed.

Lemma told_warn sh w : sh <> Some 0 -> told sh (warn w) (fun _ => warn w).
Proof.
  intros NE. split; [reflexivity|]. intros w'. cbn. split.
  - intros H. exists 0. split; [apply some_place, NE|exact H].
  - intros (i & _ & H). exact H.
Qed.

(** Whether all of an argument is missing *)
Lemma all_nan_places a sh i : all_or_none a -> stretches (shape a) sh -> sh <> Some 0 -> inside sh i -> isnan (place i a) = all_nan a.
Proof.
  intros [F|F] S NE I.
  - rewrite (filled_place _ _ _ F S I), (filled_not_all _ F). reflexivity.
  - rewrite (missing_place _ _ F), (missing_all _ F). reflexivity.
Qed.

Lemma tells_usage sh Dn50 M50 rho : sh <> Some 0 -> all_or_none Dn50 -> all_or_none M50 -> all_or_none rho ->
  stretches (shape Dn50) sh -> stretches (shape M50) sh -> stretches (shape rho) sh ->
  tells sh (check_usage_Dn50_or_M50 Dn50 M50 rho)
    (fun i => CorePhysics.check_usage_Dn50_or_M50 (place i Dn50) (place i M50) (place i rho)).
Proof.
  intros NE A A' A'' S S' S''. unfold check_usage_Dn50_or_M50, CorePhysics.check_usage_Dn50_or_M50.
  apply tells_if; [intros i I; rewrite !(all_nan_places _ sh i) by assumption; reflexivity|intros _; apply tells_raise|intros _].
  apply tells_if; [intros i I; rewrite !(all_nan_places _ sh i) by assumption; reflexivity|intros _|intros _].
  - apply tells_if; [intros i I; rewrite !(all_nan_places _ sh i) by assumption; reflexivity|intros _|intros _].
    + apply tells_seq; [assumption|apply told_warn, NE|].
      eapply tells_expr; [autounfold with arrays; quiet_tac|autounfold with arrays; den_tac|reflexivity].
    + eapply tells_expr; [autounfold with arrays; quiet_tac|autounfold with arrays; den_tac|reflexivity].
  - eapply tells_expr; [apply quiet_value|apply den_leaf, S|reflexivity].
Qed.

(** Whether a computed quantity is given *)
Lemma given_computed a sh v c : sh <> Some 0 -> stretches (shape a) sh -> den sh (value_of a) v -> throughout sh c ->
  (forall i, inside sh i -> isnan (c (place i)) = isnan (v i)) -> forall i, inside sh i -> provided (v i) = given a.
Proof.
  intros NE S D T C i I. unfold provided. rewrite <- C by exact I. unfold given, any_nan. f_equal. destruct T as [T|T].
  - rewrite T by exact I. symmetry. apply existsb_exists. destruct (at_some _ _ _ S I) as (x & E).
    exists x. split; [apply (at_entry a i), E|]. specialize (T i I). rewrite C in T by exact I.
    rewrite <- (den_place _ _ _ _ D I) in T. unfold place in T. rewrite E in T. exact T.
  - rewrite T by exact I. symmetry. apply not_true_is_false. intros H. apply existsb_exists in H as (x & J & H).
    destruct (entries_at a sh x S NE J) as (j & Ij & E). specialize (T j Ij). rewrite C in T by exact Ij.
    rewrite <- (den_place _ _ _ _ D Ij) in T. unfold place in T. rewrite E in T. congruence.
Qed.

Lemma outcome_ok m x : value m = Ok x -> outcome m = x.
Proof. intros H. unfold outcome. rewrite H. reflexivity. Qed.

Lemma reports_intro args checked computed call scalar :
  (forall sh, sh <> Some 0 -> Forall (fun a => stretches (shape a) sh) args -> Forall all_or_none checked -> Forall (throughout sh) computed ->
     tells sh call (fun i => scalar (place i))) -> reports_call args checked computed call scalar.
Proof.
  intros H sh (C & _) NE A T. destruct (H sh NE C A T) as (V & W). split; [|split; [|exact W]].
  - intros e E. change nums with (arr num) in *. rewrite E in V. exact V.
  - intros r E. change nums with (arr num) in *. rewrite E in V. apply V.
Qed.

Ltac scalar_value :=
  autounfold with scalars; cbv zeta; rewrite ?stability_Hs, ?stability_Dn, ?stability_Ns;
  repeat (progress (mchecks; repeat match goal with V : forall i, inside ?sh i -> value _ = Ok _, J : inside ?sh ?j |- _ => progress rewrite (V j J) end; cbv beta iota; cbn [fst snd]));
  repeat (match goal with |- context [value (when ?b ?m)] => rewrite (value_when b m) by (mchecks; reflexivity) end; mchecks);
  try reflexivity.
Lemma clip_isnan lo hi x : isnan (nmax (Fin lo) (nmin (Fin hi) x)) = isnan x.
Proof. unfold nmax, nmin. cbn [isnan orb]. destruct (isnan x) eqn:N; [reflexivity|]. destruct (nlt x (Fin hi)); cbn [isnan]; rewrite ?N; destruct (nlt _ _); auto. Qed.
Ltac outcome_tac := repeat match goal with |- context [outcome ?m] => erewrite (outcome_ok m) by (solve [scalar_value]) end; reflexivity.
Ltac given_leaf :=
  first
  [ reflexivity
  | match goal with I : inside ?sh ?i |- provided (place ?i ?a) = given ?a => apply (given_places a sh i); assumption end
  | match goal with
    | D : den ?sh (value_of ?a) ?v, S : stretches (shape ?a) ?sh, T : throughout ?sh ?c, I : inside ?sh ?i |- _ = given ?a =>
        refine (given_computed a sh v c _ S D T _ i I); [assumption|intros ?j ?J; first [apply (f_equal isnan); first [reflexivity|outcome_tac]|erewrite outcome_ok by (solve [scalar_value]); apply clip_isnan]]
    | V : forall i, inside ?sh i -> value _ = Ok (place i ?a), S : stretches (shape ?a) ?sh, T : throughout ?sh ?c, I : inside ?sh ?i |- _ = given ?a =>
        refine (given_computed a sh (fun j => place j a) c _ S (den_leaf sh a S) T _ i I); [assumption|intros ?j ?J; apply (f_equal isnan); first [apply outcome_ok; exact (V j J)|outcome_tac]]
    end ].
Ltac given_split := lazymatch goal with |- (_ && _)%bool = (_ && _)%bool => apply f_equal2; given_split | |- _ => given_leaf end.
Ltac given_tac ::=
  let i := fresh "i" in let I := fresh "I" in intros i I;
  change (given (Sc NaN)) with false; change (provided NaN) with false; rewrite ?andb_false_r, ?andb_false_l; rewrite <- ?andb_assoc; given_split.

Ltac tells_tac :=
  cbv beta zeta;
  lazymatch goal with
  | |- tells _ (raise _) _ => apply tells_raise
  | |- tells _ (bind (when _ _) _) _ => apply tells_seq; [assumption|told_tac|tells_tac]
  | |- tells _ (bind (acheck _ _ _ _ _) _) _ => apply tells_seq; [assumption|told_tac|tells_tac]
  | |- tells _ (@bind unit _ _ _) _ => apply tells_seq; [assumption|told_tac|tells_tac]
  | |- tells _ (bind (check_usage_Dn50_or_M50 _ _ _) _) _ =>
      apply tells_call; [apply tells_usage; assumption|let a := fresh "a" in let S := fresh "S" in let V := fresh "V" in intros a S V; tells_tac]
  | |- tells _ (bind ?e _) _ =>
      lazymatch e with
      | context [acheck] => apply tells_call; [tells_tac|let a := fresh "a" in let S := fresh "S" in let V := fresh "V" in intros a S V; tells_tac]
      | _ => eapply tells_let; [quiet_tac|den_tac|let a := fresh "a" in let S := fresh "S" in let D := fresh "D" in intros a S D; tells_tac]
      end
  | |- tells _ _ _ => eapply tells_expr; [quiet_tac|den_tac|intros ?i ?I; reflexivity]
  end.
Ltac call_start :=
  apply reports_intro; let sh := fresh "sh" in let NE := fresh "NE" in let F := fresh "F" in let A := fresh "A" in let T := fresh "T" in
  intros sh NE F A T; args_tac; autounfold with arrays; autounfold with scalars.
Ltac call_tac := call_start; tells_tac.
(** The scalar side first calculates the missing one of the four quantities *)
Ltac missing_tac :=
  call_start; eapply tells_ext; [intros ?i ?I; cbv zeta; first [rewrite stability_Hs|rewrite stability_Dn|rewrite stability_Ns]; symmetry; etransitivity; [apply bind_ret_l|cbn [fst]; reflexivity]|tells_tac].
