(** Calls whose numbers can have a larger shape than their flags. *)
From Coq Require Import Reals List Bool Arith Lia.
From Verif.Lib Require Import Num Monad Arr ArrFlags ArrLoop NTac.
From Verif.Spec Require Import Arrays ArrayFlags ArrayStacks ArrayWide.
From Verif.Proofs Require Import Core CheckTac Arrays ArrayLoops ArrayFlags ArrayTaw ArrayStacks ArrayOne.
From Verif.Model Require Import CoreUtility ArrCore.
Import ListNotations.
Open Scope nat_scope.

(** What the expression needs to be evaluated and what bears on its shape *)
Definition part (needs bears : list nums) (e : M nums) (v : nat -> num) : Prop :=
  (forall sh, Forall (fun a => stretches (shape a) sh) needs -> den sh e v) /\ uses e (map shape bears) /\ tame e.

Lemma common_stretches args sh t : common args sh -> Forall (fun a => stretches (shape a) t) args -> stretches sh t.
Proof.
  intros (_ & [->|X]) F; [apply stretches_none|]. apply Exists_exists in X as (a & I & <-). rewrite Forall_forall in F. apply F, I.
Qed.
Lemma common_one args sh sh' : common args sh -> common args sh' -> sh = sh'.
Proof. intros C C'. apply stretches_antisym; eapply common_stretches; eauto; [apply C'|apply C]. Qed.
(** A den for all larger shapes fixes the entries there *)
Lemma whole_larger {A} sh t (e : M (arr A)) v : den t e v -> forall r, value e = Ok r -> shape r = sh -> forall i, inside t i -> at_ r i = Some (v i).
Proof. intros (r' & E' & S' & V') r E S i I. pose proof (eq_trans (eq_sym E) E') as J. injection J as <-. apply V', I. Qed.

Lemma common_app args more sh sh' : common args sh -> common (args ++ more) sh' -> stretches sh sh'.
Proof. intros C (F & _). apply Forall_app in F as (F & _). eapply common_stretches; eauto. Qed.

Lemma wider_intro (args more used checked : list nums) (e e' : M nums) v v' (post : nums -> M nums) w (chk : nums -> M unit) call scalar :
  value call = value (x <- e ;; y <- e' ;; z <- stacked_min x y ;; m <- (stacked_min x y =? y)%arr ;; u <- post z ;; chk u ;; ret (u, m)) ->
  expression args e v -> expression args e' v' ->
  (forall z, expression (z :: used) (post z) (fun i => w i (place i z))) -> incl used (args ++ more) -> incl more used ->
  (forall u, tame (chk u)) ->
  (forall sh (u : nums), Forall (fun a => stretches (shape a) sh) (args ++ more ++ checked) -> stretches (shape u) sh -> value (chk u) = Ok tt) ->
  (forall sh i, Forall (fun a => stretches (shape a) sh) (args ++ more) -> inside sh i ->
     scalar (place i) = Ok (w i (nmin (v i) (v' i)), neqb (nmin (v i) (v' i)) (v' i))) ->
  flagged_wider args more checked call scalar.
Proof.
  intros Q X X' P IU IM TC RC H. split.
  - intros sh sh' C C' (t & K).
    destruct (stack_gives sh e e' v v') as (z & m & E & Sz & Sm & V); [apply (expression_whole _ _ _ X), C|apply (expression_whole _ _ _ X'), C|].
    unfold stack in E. apply step in E as (x & Ex & E). apply step in E as (y & Ey & E). apply step in E as (z' & Ez & E). apply step in E as (m' & Em & E).
    injection E as -> ->.
    pose proof (common_app _ _ _ _ C C') as SS.
    assert (CP : common (z :: used) sh').
    { destruct C' as (F' & X2). split.
      - constructor; [rewrite Sz; exact SS|]. rewrite Forall_forall in *. intros a I. apply F', IU, I.
      - destruct X2 as [->|X2]; [left; reflexivity|]. right. apply Exists_exists in X2 as (a & I & Sa). apply in_app_or in I as [I|I].
        + left. rewrite Sz. apply stretches_antisym; [exact SS|]. rewrite <- Sa. destruct C as (F & _). rewrite Forall_forall in F. apply F, I.
        + right. apply Exists_exists. exists a. split; [apply IM, I|exact Sa]. }
    destruct (expression_whole _ _ _ (P z) sh' CP) as (u & Eu & Su & Vu).
    exists u, m. split; [|split; [exact Su|split; [exact Sm|]]].
    + rewrite Q. apply (steps _ _ x _ Ex). apply (steps _ _ y _ Ey). apply (steps _ _ z _ Ez). apply (steps _ _ m _ Em).
      apply (steps _ _ u _ Eu). rewrite value_bind, (RC t u K); [reflexivity|].
      rewrite Su. eapply common_stretches; [exact C'|]. rewrite app_assoc in K. apply Forall_app in K. apply K.
    + intros i I. assert (F : Forall (fun a => stretches (shape a) sh') args) by (destruct C' as (F & _); apply Forall_app in F; apply F).
      destruct X as (D & _), X' as (D' & _).
      pose proof (whole_larger _ _ _ _ (D sh' F) x Ex eq_refl i I) as Vx. pose proof (whole_larger _ _ _ _ (D' sh' F) y Ey eq_refl i I) as Vy.
      assert (Dx : den sh' (value_of x) v) by (destruct (D sh' F) as (x1 & E1 & R1); pose proof (eq_trans (eq_sym Ex) E1) as J; injection J as <-; exists x; split; [reflexivity|exact R1]).
      assert (Dy : den sh' (value_of y) v') by (destruct (D' sh' F) as (x1 & E1 & R1); pose proof (eq_trans (eq_sym Ey) E1) as J; injection J as <-; exists y; split; [reflexivity|exact R1]).
      pose proof (stacked_shapes nmin x y z Ez) as Sxy.
      assert (Ez' : value (lift2 nmin (value_of x) (value_of y)) = Ok z).
      { revert Ez. unfold stacked_min, stacked, lift2. rewrite !value_bind. cbn [value value_of ret snd]. rewrite !value_bind. cbn [value value_of ret snd].
        rewrite Sxy, shape_eqb_refl. auto. }
      pose proof (whole_larger _ _ _ _ (den_lift2 sh' nmin _ _ _ _ Dx Dy) z Ez' eq_refl i I) as Vz.
      assert (Dz : den sh' (value_of z) (fun i => nmin (v i) (v' i))).
      { destruct (den_lift2 sh' nmin _ _ _ _ Dx Dy) as (x1 & E1 & R1); pose proof (eq_trans (eq_sym Ez') E1) as J; injection J as <-; exists z; split; [reflexivity|exact R1]. }
      assert (Em' : value (lift2 neqb (value_of z) (value_of y)) = Ok m).
      { revert Em. unfold cmp, lift2. rewrite !value_bind. change (arr num) with nums in *. rewrite Ez. cbn [value value_of ret snd]. auto. }
      pose proof (whole_larger _ _ _ _ (den_lift2 sh' neqb _ _ _ _ Dz Dy) m Em' eq_refl i I) as Vm.
      exists (neqb (nmin (v i) (v' i)) (v' i)). split; [exact Vm|].
      rewrite (H sh' i) by (auto; apply C'). do 2 f_equal. unfold place at 1. rewrite (Vu i I). f_equal. unfold place. rewrite Vz. reflexivity.
  - intros N. rewrite Q. apply tame_raises.
    + apply tame_bind; [apply X|]. intros x _. apply tame_bind; [apply X'|]. intros y _. unfold stacked_min. apply tame_bind; [tame_tac|]. intros z _.
      apply tame_bind; [tame_tac|]. intros m _. apply tame_bind; [apply P|]. intros u _. apply tame_bind; [apply TC|]. intros [] _. apply tame_ret.
    + intros (u & m) E. apply N. apply step in E as (x & Ex & E). apply step in E as (y & Ey & E). apply step in E as (z & Ez & E). apply step in E as (m' & Em & E).
      apply step in E as (u' & Eu & _). destruct (P z) as (_ & UP & _). specialize (UP u' Eu). destruct X as (_ & U & _). specialize (U x Ex).
      pose proof (stacked_shapes nmin x y z Ez) as Sxy.
      assert (Ez' : value (lift2 nmin (value_of x) (value_of y)) = Ok z).
      { revert Ez. unfold stacked_min, stacked, lift2. rewrite !value_bind. cbn [value value_of ret snd]. rewrite !value_bind. cbn [value value_of ret snd].
        rewrite Sxy, shape_eqb_refl. auto. }
      assert (Sz : stretches (shape x) (shape z)).
      { pose proof (uses_lift2 nmin _ _ _ _ (uses_leaf x) (uses_leaf y) z Ez') as UU. inversion UU; assumption. }
      exists (shape u'). cbn [map] in UP. inversion UP as [|? ? Zu Uu]; subst. apply Forall_app. split.
      * rewrite Forall_forall in *. intros a I. eapply stretches_trans; [apply U, in_map, I|]. eapply stretches_trans; eauto.
      * rewrite Forall_forall in *. intros a I. apply Uu. apply in_map, IM, I.
Qed.

(** ... times something made of the arguments *)
Lemma wider_times args more checked call (u : M nums) w scalar0 scalar :
  flagged_wider args more checked call scalar0 ->
  (forall sh, Forall (fun a => stretches (shape a) sh) args -> den sh u w) ->
  (forall sh i x b, Forall (fun a => stretches (shape a) sh) args -> inside sh i -> scalar0 (place i) = Ok (x, b) -> scalar (place i) = Ok (nmul x (w i), b)) ->
  flagged_wider args more checked (d <- call ;; z <- (fst d * u)%arr ;; ret (z, snd d)) scalar.
Proof.
  intros (A & B) D H. split.
  - intros sh sh' C C' K. destruct (A sh sh' C C' K) as (r & m & E & Sr & Sm & V).
    assert (F : Forall (fun a => stretches (shape a) sh') args) by (destruct C' as (F & _); apply Forall_app in F; apply F).
    assert (Dr : den sh' (value_of r) (fun i => place i r)) by (apply den_leaf; rewrite Sr; apply stretches_refl).
    destruct (den_lift2 sh' nmul _ _ _ _ Dr (D sh' F)) as (z & Ez & Sz & Vz).
    exists z, m. split; [|split; [|split; [exact Sm|]]].
    + apply (steps _ _ (r, m) _ E). apply (steps _ _ z _ Ez). reflexivity.
    + apply stretches_antisym; [exact Sz|]. rewrite <- Sr. pose proof (uses_lift2 nmul (value_of r) u _ _ (uses_leaf r) (uses_nothing u) z Ez) as UU. inversion UU; assumption.
    + intros i I. destruct (V i I) as (b & Eb & Sb). exists b. split; [exact Eb|]. rewrite (H sh' i _ _ F I Sb). unfold place at 2. rewrite (Vz i I). reflexivity.
  - intros N. rewrite value_bind, (B N). reflexivity.
Qed.
