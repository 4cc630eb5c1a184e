(** The search of the rear-side formulas over arrays. *)
From Coq Require Import Reals Lra List Bool Arith Lia String.
From Verif.Lib Require Import Num Monad Arr ArrLoop RTac NTac.
From Verif.Spec Require Import Arrays ArrayLoops.
From Verif.Model Require CorePhysics ArrCore RearVanGent2007 ArrRearVanGent2007.
From Verif.Proofs Require Import Arrays ArrayLoops.
Import ListNotations.
Open Scope nat_scope.

Lemma settles_unique sh max_iter tol before x n n' :
  settles sh max_iter tol before x n -> settles sh max_iter tol before x n' -> n = n'.
Proof.
  intros (A & B & C) (A' & B' & C'). destruct (Nat.lt_trichotomy n n') as [L|[E|L]]; [|exact E|].
  - destruct C as [C|C]; [lia|]. exfalso. apply C. apply B'. exact L.
  - destruct C' as [C'|C']; [lia|]. exfalso. apply C'. apply B. exact L.
Qed.

(** ** The scalar search *)
Section Scalar.
Variables (z_of : num -> num) (H_of : num -> num -> num).
Let next s := H_of s (z_of s).
Let id (s : num) := s.
Variables s0 p0 : num.
Lemma search_from n : forall m p z, 
  p = match m with O => p0 | S m => st next id s0 m end ->
  (m <> 0 -> z <> None) ->
  (forall k, m <= k < m + n -> ngt (df next id s0 s0 (nabs (s0 - p0)%num) k) (Fin (-1)) = true) ->
  exists z', RearVanGent2007.search z_of H_of (Fin (-1)) n (st next id s0 m) p z = (0, st next id s0 (m + n), z')
  /\ (m + n <> 0 -> z' <> None).
Proof.
  induction n; intros m p z P Z G; cbn [RearVanGent2007.search].
  - exists z. rewrite Nat.add_0_r. auto.
  - assert (E : nabs (st next id s0 m - p)%num = df next id s0 s0 (nabs (s0 - p0)%num) m).
    { subst p. destruct m as [|[|m]]; reflexivity. }
    rewrite E, G by lia. cbv zeta.
    change (H_of (st next id s0 m) (z_of (st next id s0 m))) with (next (st next id s0 m)). rewrite <- ys_st.
    change (ys next id s0 m) with (st next id s0 (S m)).
    destruct (IHn (S m) (st next id s0 m) (Some (z_of (st next id s0 m)))) as (z' & Ez & Nz).
    + reflexivity.
    + discriminate.
    + intros k K. apply G. lia.
    + exists z'. rewrite Ez. replace (S m + n) with (m + S n) in * by lia. auto.
Qed.
Lemma search_runs n : nabs (s0 - p0)%num = PInf -> 1 <= n ->
  (forall k, k < n -> isnan (df next id s0 s0 PInf k) = false) ->
  exists z, RearVanGent2007.search z_of H_of (Fin (-1)) n s0 p0 None = (0, ys next id s0 (n - 1), Some z).
Proof.
  intros D L H. destruct (search_from n 0 p0 None) as (z & E & N).
  - reflexivity.
  - congruence.
  - rewrite D. intros [|k] K; [reflexivity|]. cbn [df]. apply nabs_above. specialize (H (S k) ltac:(lia)). cbn [df] in H.
    rewrite ArrayLoops.nabs_nan in H. exact H.
  - destruct z as [z|]; [|exfalso; apply N; [lia|reflexivity]]. exists z. destruct n as [|n]; [lia|].
    replace (S n - 1) with n by lia. exact E.
Qed.
End Scalar.

(** ** The search over arrays *)
Section Search.
Variable sh : option nat.
Hypothesis some_place : sh <> Some 0.
Variables (z_of : nums -> M nums) (H_of : nums -> nums -> M nums).
Variables (zs : nat -> num -> num) (Hs : nat -> num -> num -> num).
Variable L : list (option nat).
Hypothesis z_den : forall a v, stretches (shape a) sh -> den sh (value_of a) v -> den sh (z_of a) (fun i => zs i (v i)).
Hypothesis H_den : forall a z v w, stretches (shape a) sh -> stretches (shape z) sh ->
  den sh (value_of a) v -> den sh (value_of z) w -> den sh (H_of a z) (fun i => Hs i (v i) (w i)).
Hypothesis H_uses : forall a, uses (z <- z_of a ;; H_of a z) L.
Variable tol : num.
Variables s0 : nat -> num.
Let nx i s := Hs i s (zs i s).
Let id (s : num) := s.
Let y i m := ys (nx i) id (s0 i) m.
Let d i m := df (nx i) id (s0 i) (s0 i) PInf m.
Let goes m := (forall i, inside sh i -> isnan (d i m) = false) /\ exists i, inside sh i /\ ngt (d i m) tol = true.

Lemma search_places todo : forall m (cur prev : nums) (z : option nums),
  den sh (value_of cur) (fun i => st (nx i) id (s0 i) m) ->
  den sh (aabs (cur - prev)%arr) (fun i => d i m) ->
  (0 < m -> Forall (fun s => stretches s (shape cur)) L /\ exists z', z = Some z' /\ stretches (shape z') sh) ->
  exists n r z', m <= n <= m + todo
  /\ value (ArrRearVanGent2007.search z_of H_of tol todo cur prev z) = Ok (m + todo - n, r, z')
  /\ (0 < n -> den sh (value_of r) (fun i => y i (n - 1)) /\ Forall (fun s => stretches s (shape r)) L
               /\ exists z'', z' = Some z'' /\ stretches (shape z'') sh)
  /\ (n = m -> z' = z)
  /\ (forall k, m <= k < n -> goes k) /\ (n = m + todo \/ ~ goes n).
Proof.
  assert (K : forall m cur (z : option nums), den sh (value_of cur) (fun i => st (nx i) id (s0 i) m) ->
    (0 < m -> Forall (fun s => stretches s (shape cur)) L /\ exists z', z = Some z' /\ stretches (shape z') sh) ->
    0 < m -> den sh (value_of cur) (fun i => y i (m - 1)) /\ Forall (fun s => stretches s (shape cur)) L
               /\ exists z'', z = Some z'' /\ stretches (shape z'') sh).
  { intros m cur z Dc Z P. split; [|apply Z; exact P]. destruct m; [lia|]. replace (S m - 1) with m by lia. exact Dc. }
  induction todo; intros m cur prev z Dc Dd Z.
  - exists m, cur, z. split; [lia|]. split; [cbn [ArrRearVanGent2007.search]; replace (m + 0 - m) with 0 by lia; reflexivity|].
    split; [intros P; apply K; assumption|]. split; [auto|]. split; [intros; lia|left; lia].
  - destruct Dd as (d1 & Ed & Sd & Vd). change (arr num) with nums in d1.
    assert (Dd1 : den sh (value_of d1) (fun i => d i m)) by (exists d1; auto).
    destruct (greatest_places sh d1 _ tol some_place Dd1) as (g & Eg & G).
    destruct (ngt g tol) eqn:Gt.
    + assert (Gm : goes m) by (apply G; reflexivity).
      assert (Sc : stretches (shape cur) sh) by (destruct Dc as (q & Eq & Sq & _); injection Eq as <-; exact Sq).
      destruct (z_den cur _ Sc Dc) as (z1 & Ez & Sz & Vz). change (arr num) with nums in z1.
      assert (Dz : den sh (value_of z1) (fun i => zs i (st (nx i) id (s0 i) m))) by (exists z1; auto).
      destruct (H_den cur z1 _ _ Sc Sz Dc Dz) as (y1 & Ey & Sy & Vy). change (arr num) with nums in y1.
      assert (Dy : den sh (value_of y1) (fun i => st (nx i) id (s0 i) (S m))).
      { exists y1. split; [reflexivity|]. split; [exact Sy|]. intros i I. rewrite Vy by exact I. cbn [st]. unfold id at 2. rewrite ys_st. reflexivity. }
      assert (Uy : Forall (fun s => stretches s (shape y1)) L).
      { apply (H_uses cur). etransitivity; [apply (value_bind_ok _ _ z1 Ez)|]. exact Ey. }
      assert (Dd0 : den sh (aabs (y1 - cur)%arr) (fun i => d i (S m))).
      { eapply den_ext; [unfold aabs, op1, op2; refine (den_lift1 sh nabs _ _ (den_lift2 sh nsub _ _ _ _ Dy Dc))|].
        intros i I. unfold d. destruct m; reflexivity. }
      destruct (IHtodo (S m) y1 cur (Some z1) Dy Dd0) as (n & r & z' & Ln & Er & C1 & _ & Go & St).
      { intros _. split; [exact Uy|]. exists z1. auto. }
      exists n, r, z'. split; [lia|]. split; [|split; [exact C1|split; [lia|split]]].
      * cbn [ArrRearVanGent2007.search].
        etransitivity; [apply (value_bind_ok _ _ d1 Ed)|]. cbv beta.
        etransitivity; [apply (value_bind_ok _ _ g Eg)|]. cbv beta. rewrite Gt.
        etransitivity; [apply (value_bind_ok _ _ z1 Ez)|]. cbv beta.
        etransitivity; [apply (value_bind_ok _ _ y1 Ey)|]. cbv beta. rewrite Er. f_equal. f_equal. f_equal. lia.
      * intros k Kk. destruct (Nat.eq_dec k m) as [->|Ne]; [exact Gm|]. apply Go. lia.
      * destruct St as [->|St]; [left; lia|right; exact St].
    + exists m, cur, z. split; [lia|]. split; [|split; [intros P; apply K; assumption|split; [auto|split; [intros; lia|]]]].
      * cbn [ArrRearVanGent2007.search].
        etransitivity; [apply (value_bind_ok _ _ d1 Ed)|]. cbv beta.
        etransitivity; [apply (value_bind_ok _ _ g Eg)|]. cbv beta. rewrite Gt. replace (m + S todo - m) with (S todo) by lia. reflexivity.
      * right. intros Gm. apply G in Gm. discriminate.
Qed.

Variable x : nat -> nat -> res num.
Hypothesis scalar : forall i n, inside sh i -> 1 <= n -> (forall k, k < n -> isnan (d i k) = false) -> x i n = Ok (y i (n - 1)).

Lemma search_settles max_iter args (start prev : nums) :
  1 <= max_iter -> ngt PInf tol = true -> common args sh -> incl (map shape args) L ->
  den sh (value_of start) s0 -> den sh (aabs (start - prev)%arr) (fun _ => PInf) ->
  exists n r z, settles sh max_iter tol s0 x n
  /\ value (ArrRearVanGent2007.search z_of H_of tol max_iter start prev None) = Ok (max_iter - n, r, Some z)
  /\ shape r = sh /\ stretches (shape z) sh
  /\ forall i, inside sh i -> x i n = Ok (place i r).
Proof.
  intros M T (_ & Ca) U Ds Dd.
  destruct (search_places max_iter 0 start prev None Ds Dd ltac:(intros; lia)) as (n & r & z & Ln & E & C1 & C0 & Go & St).
  assert (G0 : goes 0).
  { split; [intros; reflexivity|]. exists 0. split; [destruct sh as [[|k]|]; cbn; congruence || lia || exact Logic.I|exact T]. }
  assert (N1 : 1 <= n) by (destruct n; [|lia]; destruct St as [St|St]; [lia|contradiction]).
  destruct (C1 N1) as (Dr & Ur & z' & -> & Sz). exists n, r, z'.
  assert (GG : forall m, (forall k, k < m -> goes k) -> (goes_on sh tol s0 x m <-> goes m)).
  { intros m Hm. apply (goes_on_goes sh nx (fun _ => id) tol s0 s0 (fun _ => PInf) x); [reflexivity|exact scalar|exact Hm]. }
  split; [|split; [exact E|split; [|split; [exact Sz|]]]].
  - split; [lia|]. split.
    + intros m Lm. apply GG; [|apply Go; lia]. intros k Kk. apply Go. lia.
    + destruct St as [->|St]; [left; lia|]. right. intros H. apply St. apply GG; [|exact H]. intros k Kk. apply Go. lia.
  - destruct Dr as (q & Eq & Sq & _). injection Eq as <-. apply stretches_antisym; [exact Sq|]. destruct Ca as [->|Ca]; [apply stretches_none|].
    apply Exists_exists in Ca as (a & I & <-). rewrite Forall_forall in Ur. apply Ur. apply U. apply in_map. exact I.
  - intros i I. rewrite scalar; [|exact I|exact N1|].
    + f_equal. symmetry. exact (place_den _ _ _ _ Dr I).
    + intros k Kk. apply (proj1 (Go k ltac:(lia))). exact I.
Qed.
End Search.

(** ** The warning that the iterations were used up *)
Definition too_many : warning := WText "Maximum number of iterations reached, convergence not achieved".
Definition says (w : warning) : bool :=
  match w with WText t => String.eqb t "Maximum number of iterations reached, convergence not achieved" | _ => false end.
Lemma says_spec w : says w = true <-> w = too_many.
Proof. destruct w; cbn [says]; split; try discriminate. - intros E. apply String.eqb_eq in E. subst. reflexivity. - intros E. injection E as ->. apply String.eqb_refl. Qed.
Definition said {A} (m : M A) : bool := existsb says (warns m).
Definition wordless {A} (m : M A) : Prop := said m = false.
Lemma said_spec {A} (m : M A) : In too_many (warns m) <-> said m = true.
Proof.
  unfold said. rewrite existsb_exists. split.
  - intros I. exists too_many. split; [exact I|]. apply says_spec. reflexivity.
  - intros (w & I & E). apply says_spec in E. subst w. exact I.
Qed.

Lemma said_bind {A B} (m : M A) (k : A -> M B) a : value m = Ok a -> said (bind m k) = (said m || said (k a))%bool.
Proof. destruct m as (w & r). cbn [value snd]. intros ->. unfold said, warns, bind. destruct (k a). cbn [fst]. apply existsb_app. Qed.
Lemma wordless_bind {A B} (m : M A) (k : A -> M B) : wordless m -> (forall a, wordless (k a)) -> wordless (bind m k).
Proof.
  intros H K. unfold wordless. destruct (value m) as [a|e] eqn:E.
  - rewrite (said_bind m k a E), H. apply K.
  - destruct m as (w & r). cbn [value snd] in E. subst r. exact H.
Qed.
Lemma wordless_ret {A} (a : A) : wordless (ret a). Proof. reflexivity. Qed.
Lemma wordless_bcast {A B C} (f : A -> B -> C) a b : wordless (bcast f a b).
Proof.
  destruct a as [x|l], b as [y|m]; try reflexivity. unfold bcast. destruct (Nat.eqb _ _); [reflexivity|].
  destruct l as [|x [|x' l]], m as [|z [|z' m]]; reflexivity.
Qed.
Lemma wordless_lift1 {A B} (f : A -> B) e : wordless e -> wordless (lift1 f e).
Proof. intros H. apply wordless_bind; [exact H|]. reflexivity. Qed.
Lemma wordless_lift2 {A B C} (f : A -> B -> C) e1 e2 : wordless e1 -> wordless e2 -> wordless (lift2 f e1 e2).
Proof. intros H K. apply wordless_bind; [exact H|]. intros. apply wordless_bind; [exact K|]. intros. apply wordless_bcast. Qed.
Lemma wordless_when b m : wordless m -> wordless (when b m). Proof. destruct b; auto. reflexivity. Qed.
Lemma wordless_greatest a : wordless (greatest a). Proof. unfold greatest. destruct (entries a); reflexivity. Qed.
Lemma wordless_acheck n f e lo hi : wordless e -> wordless (ArrCore.acheck n f e lo hi).
Proof.
  intros H. apply wordless_bind; [exact H|]. intros a. apply wordless_bind; [|reflexivity].
  generalize (entries a). induction l as [|x l IH]; [reflexivity|]. cbn [CoreUtility.check_values].
  destruct (_ || _)%bool.
  - apply wordless_bind; [reflexivity|]. intros _. apply wordless_bind; [exact IH|]. reflexivity.
  - apply wordless_bind; [exact IH|]. reflexivity.
Qed.
Ltac wordless_tac :=
  lazymatch goal with
  | |- wordless (ret _) => reflexivity
  | |- wordless (raise _) => reflexivity
  | |- wordless (value_of _) => reflexivity
  | |- wordless (lift1 _ _) => apply wordless_lift1; wordless_tac
  | |- wordless (lift2 _ _ _) => apply wordless_lift2; wordless_tac
  | |- wordless (op1 _ _) => unfold op1; wordless_tac
  | |- wordless (op2 _ _ _) => unfold op2; wordless_tac
  | |- wordless (cmp _ _ _) => unfold cmp; wordless_tac
  | |- wordless (where_ _ _ _) => unfold where_; wordless_tac
  | |- wordless (when _ _) => apply wordless_when; wordless_tac
  | |- wordless (ArrCore.acheck _ _ _ _ _) => apply wordless_acheck; wordless_tac
  | |- wordless (warn _) => reflexivity
  | |- wordless (if ?b then _ else _) => destruct b; wordless_tac
  | |- wordless (bind _ _) => apply wordless_bind; [wordless_tac|intros; wordless_tac]
  | |- _ => idtac
  end.
Lemma wordless_usage Dn50 M50 rho : wordless (ArrCore.check_usage_Dn50_or_M50 Dn50 M50 rho).
Proof. unfold ArrCore.check_usage_Dn50_or_M50. autounfold with arrays. wordless_tac. Qed.
Lemma wordless_search z_of H_of tol todo : (forall a, wordless (z_of a)) -> (forall a z, wordless (H_of a z)) ->
  forall cur prev z, wordless (ArrRearVanGent2007.search z_of H_of tol todo cur prev z).
Proof.
  intros Z H. induction todo; intros; [reflexivity|]. cbn [ArrRearVanGent2007.search].
  apply wordless_bind; [unfold aabs, op1, op2; wordless_tac|]. intros. apply wordless_bind; [apply wordless_greatest|]. intros.
  destruct (ngt _ _); [|reflexivity]. apply wordless_bind; [apply Z|]. intros. apply wordless_bind; [apply H|]. intros. apply IHtodo.
Qed.
