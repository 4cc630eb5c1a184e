From Coq Require Import Reals List Bool Arith Lia String.
From Coq Require Import List.
From Verif.Lib Require Import Num Monad Arr NTac.
From Verif.Spec Require Import Arrays.
From Verif.Proofs Require Import Core CheckTac.
From Verif.Model Require CorePhysics.
From Verif.Model Require Import CoreUtility ArrCore.
Import ListNotations.
Open Scope nat_scope.

Lemma stretches_refl s : stretches s s.
Proof. right. right. reflexivity. Qed.
Lemma stretches_none s : stretches None s.
Proof. left. reflexivity. Qed.
Lemma stretches_trans s t u : stretches s t -> stretches t u -> stretches s u.
Proof.
  intros [->|[(-> & H)| ->]]; [left; reflexivity| |auto].
  intros [->|[(-> & K)| ->]]; [congruence| |]; right; left; auto.
Qed.
Lemma stretches_antisym s t : stretches s t -> stretches t s -> s = t.
Proof.
  intros [->|[(-> & H)| ->]]; [|intros [->|[(-> & K)|K]]; congruence|auto].
  intros [->|[(-> & K)|K]]; congruence.
Qed.

Definition stretchesb (s t : option nat) : bool :=
  match s, t with
  | None, _ => true
  | Some n, Some m => Nat.eqb n 1 || Nat.eqb n m
  | Some _, None => false
  end.
Lemma shapes_ok args sh : forallb (fun a => stretchesb (shape a) sh) args = true -> Forall (fun a : nums => stretches (shape a) sh) args.
Proof.
  intros H. apply Forall_forall. intros a I. rewrite forallb_forall in H. specialize (H a I).
  destruct (shape a) as [n|], sh as [m|]; cbn in H; try discriminate; [|left; reflexivity|left; reflexivity].
  apply orb_true_iff in H as [H|H]; apply Nat.eqb_eq in H; subst; [right; left; split; [reflexivity|discriminate]|right; right; reflexivity].
Qed.

Lemma map2_length {A B C} (f : A -> B -> C) l : forall m, length l = length m -> length (map2 f l m) = length l.
Proof. induction l; intros [|y m] H; cbn in *; try congruence. rewrite IHl; lia. Qed.

Lemma map2_nth {A B C} (f : A -> B -> C) l : forall m i x y, nth_error l i = Some x -> nth_error m i = Some y ->
  nth_error (map2 f l m) i = Some (f x y).
Proof. induction l; intros [|y' m] [|i] x y; cbn; intros; try discriminate; [congruence|auto]. Qed.

Lemma at_amap {A B} (f : A -> B) a i : at_ (amap f a) i = option_map f (at_ a i).
Proof.
  destruct a as [x|[|x [|y l]]]; cbn [amap at_ map option_map]; auto; [destruct i; reflexivity|].
  change (f x :: f y :: map f l) with (map f (x :: y :: l)). apply nth_error_map.
Qed.
Lemma shape_amap {A B} (f : A -> B) (a : arr A) : shape (amap f a) = shape a.
Proof. destruct a; cbn; rewrite ?map_length; reflexivity. Qed.

Lemma at_some {A} (a : arr A) sh i : stretches (shape a) sh -> inside sh i -> exists x, at_ a i = Some x.
Proof.
  destruct a as [x|l]; [exists x; reflexivity|]. intros [H|[(H & _)|H]] I; [discriminate| |].
  - destruct l as [|x [|y l]]; try discriminate. exists x. reflexivity.
  - subst sh. cbn in I. destruct l as [|x [|y l]]; [cbn in I; lia|exists x; reflexivity|].
    cbn [at_]. destruct (nth_error (x :: y :: l) i) eqn:E; [eauto|]. apply nth_error_None in E. cbn in *. lia.
Qed.

Lemma at_nth {A} (l : list A) i x : i < length l -> at_ (Ar l) i = Some x -> nth_error l i = Some x.
Proof. destruct l as [|y [|z l]]; cbn; auto. destruct i; cbn; auto. lia. Qed.
Lemma nth_at {A} (l : list A) i x : nth_error l i = Some x -> i < length l -> at_ (Ar l) i = Some x.
Proof. destruct l as [|y [|z l]]; cbn; auto. destruct i; cbn; auto. lia. Qed.

(** ** What an expression evaluates to *)

Definition den {A} (sh : option nat) (e : M (arr A)) (v : nat -> A) : Prop :=
  exists r, value e = Ok r /\ stretches (shape r) sh /\ forall i, inside sh i -> at_ r i = Some (v i).

Lemma bcast_cases {A B C} (f : A -> B -> C) (a : arr A) (b : arr B) sh :
  stretches (shape a) sh -> stretches (shape b) sh ->
  exists r, bcast f a b = ret r /\ stretches (shape r) sh
    /\ forall i x y, inside sh i -> at_ a i = Some x -> at_ b i = Some y -> at_ r i = Some (f x y).
Proof.
  intros Ha Hb. destruct a as [x0|l].
  - exists (amap (f x0) b). split; [reflexivity|]. split; [rewrite shape_amap; auto|].
    intros i x y _ E F. injection E as <-. rewrite at_amap, F. reflexivity.
  - destruct b as [y0|m].
    + exists (amap (fun x => f x y0) (Ar l)). split; [reflexivity|]. split; [rewrite shape_amap; auto|].
      intros i x y _ E F. injection F as <-. rewrite at_amap, E. reflexivity.
    + unfold bcast. destruct (Nat.eqb (length l) (length m)) eqn:E.
      * apply Nat.eqb_eq in E. exists (Ar (map2 f l m)). split; [reflexivity|].
        cbn [shape] in *. rewrite map2_length by auto. split; [auto|].
        intros i x y I Hx Hy.
        destruct Hb as [Hb|[(Hb & _)|Hb]]; [discriminate| |].
        -- injection Hb as Hb. rewrite Hb in E. destruct l as [|a1 [|? ?]], m as [|b1 [|? ?]]; try discriminate.
           cbn in *. congruence.
        -- subst sh. cbn in I. apply at_nth in Hx; [|lia]. apply at_nth in Hy; [|lia].
           apply nth_at; [apply map2_nth; auto|rewrite map2_length; lia].
      * apply Nat.eqb_neq in E. cbn [shape] in *.
        assert (length l = 1 \/ length m = 1).
        { destruct Ha as [Ha|[(Ha & _)|Ha]]; [discriminate|injection Ha; auto|]. destruct Hb as [Hb|[(Hb & _)|Hb]]; [discriminate|injection Hb; auto|]. congruence. }
        destruct l as [|x0 [|x1 l]].
        -- destruct H; [discriminate|]. destruct m as [|y0 [|? ?]]; try discriminate.
           exists (Ar []). split; [reflexivity|]. split; [auto|].
           intros i x y I Hx Hy. cbn in Hx. destruct i; discriminate.
        -- exists (amap (f x0) (Ar m)). split; [reflexivity|]. split; [rewrite shape_amap; auto|].
           intros i x y _ Hx Hy. cbn in Hx. injection Hx as <-. rewrite at_amap, Hy. reflexivity.
        -- destruct H; [discriminate|]. destruct m as [|y0 [|? ?]]; try discriminate.
           exists (amap (fun x => f x y0) (Ar (x0 :: x1 :: l))). split; [reflexivity|]. split; [rewrite shape_amap; auto|].
           intros i x y _ Hx Hy. cbn in Hy. injection Hy as <-. rewrite at_amap, Hx. reflexivity.
Qed.

Lemma den_value {A} sh (a : arr A) v : stretches (shape a) sh -> (forall i, inside sh i -> at_ a i = Some (v i)) -> den sh (ret a) v.
Proof. intros. exists a. auto. Qed.

Lemma den_leaf sh (a : nums) : stretches (shape a) sh -> den sh (value_of a) (fun i => place i a).
Proof. intros H. apply den_value; [auto|]. intros i I. destruct (at_some _ _ _ H I) as (x & E). unfold place. rewrite E. reflexivity. Qed.

Lemma den_const sh (x : num) : den sh (value_of (Sc x)) (fun _ => x).
Proof. apply den_value; [apply stretches_none|reflexivity]. Qed.

Lemma den_lift1 {A B} sh (f : A -> B) e v : den sh e v -> den sh (lift1 f e) (fun i => f (v i)).
Proof.
  intros (r & E & S & V). exists (amap f r). split; [|split].
  - unfold lift1. rewrite value_bind, E. reflexivity.
  - rewrite shape_amap. auto.
  - intros i I. rewrite at_amap, V; auto.
Qed.

Lemma den_lift2 {A B C} sh (f : A -> B -> C) e1 e2 v1 v2 : den sh e1 v1 -> den sh e2 v2 ->
  den sh (lift2 f e1 e2) (fun i => f (v1 i) (v2 i)).
Proof.
  intros (r1 & E1 & S1 & V1) (r2 & E2 & S2 & V2).
  destruct (bcast_cases f r1 r2 sh S1 S2) as (r & E & S & V). exists r. split; [|split; [auto|]].
  - unfold lift2. rewrite value_bind, E1, value_bind, E2, E. reflexivity.
  - intros i I. apply V; auto.
Qed.

Lemma den_where sh c (x y : M nums) vc vx vy : den sh c vc -> den sh x vx -> den sh y vy ->
  den sh (where_ c x y) (fun i => if vc i then vx i else vy i).
Proof.
  intros Hc Hx Hy.
  exact (den_lift2 sh (fun (b : bool) (p : num * num) => if b then fst p else snd p) c (lift2 pair x y) vc (fun i => (vx i, vy i)) Hc (den_lift2 sh pair x y vx vy Hx Hy)).
Qed.

Lemma den_bind sh (e : M nums) v B (k : nums -> M (arr B)) w :
  den sh e v -> (forall r : nums, stretches (shape r) sh -> den sh (value_of r) v -> den sh (k r) w) ->
  den sh (x <- e ;; k x) w.
Proof.
  intros (r & E & S & V) H. destruct (H r S) as (q & Eq & Sq & Vq).
  { exists r. split; [reflexivity|auto]. }
  exists q. split; [|auto]. etransitivity; [apply (value_bind_ok e k r); exact E|exact Eq].
Qed.

Lemma den_then {A B} sh (c : M B) (x : B) (k : M (arr A)) w : value c = Ok x -> den sh k w -> den sh (c ;; k) w.
Proof. intros E (q & Eq & S & V). exists q. split; [rewrite value_bind, E; exact Eq|auto]. Qed.

Lemma den_ext {A} sh (e : M (arr A)) v w : den sh e v -> (forall i, inside sh i -> v i = w i) -> den sh e w.
Proof. intros (r & E & S & V) H. exists r. split; [auto|]. split; [auto|]. intros. rewrite <- H; auto. Qed.

(** ** Which arguments a result depends on *)

Definition uses {A} (e : M (arr A)) (L : list (option nat)) : Prop :=
  forall r, value e = Ok r -> Forall (fun s => stretches s (shape r)) L.

Lemma uses_leaf (a : nums) : uses (value_of a) [shape a].
Proof. intros r E. injection E as <-. constructor; [apply stretches_refl|constructor]. Qed.
Lemma uses_nothing {A} (e : M (arr A)) : uses e [].
Proof. intros r _. constructor. Qed.

Lemma uses_lift1 {A B} (f : A -> B) e L : uses e L -> uses (lift1 f e) L.
Proof.
  intros H r E. unfold lift1 in E. rewrite value_bind in E. destruct (value e) as [a|] eqn:Ea; [|discriminate].
  injection E as <-. rewrite shape_amap. apply H. exact Ea.
Qed.

Lemma bcast_shape {A B C} (f : A -> B -> C) a b r : value (bcast f a b) = Ok r -> stretches (shape a) (shape r) /\ stretches (shape b) (shape r).
Proof.
  destruct a as [x|l], b as [y|m]; cbn [bcast]; intros E.
  - injection E as <-. split; apply stretches_refl.
  - injection E as <-. cbn [shape amap]. rewrite map_length. split; [apply stretches_none|apply stretches_refl].
  - injection E as <-. cbn [shape]. rewrite map_length. split; [apply stretches_refl|apply stretches_none].
  - destruct (Nat.eqb (length l) (length m)) eqn:El.
    + apply Nat.eqb_eq in El. injection E as <-. cbn [shape]. rewrite map2_length by auto. rewrite El. split; apply stretches_refl.
    + destruct l as [|x0 [|x1 l]].
      * destruct m as [|y0 [|y1 m]]; try discriminate E. injection E as <-. cbn. split; [apply stretches_refl|]. right. left. split; [reflexivity|discriminate].
      * injection E as <-. cbn [shape length map]. rewrite map_length. split; [right; left; split; [reflexivity|discriminate]|apply stretches_refl].
      * destruct m as [|y0 [|y1 m]]; try discriminate E. injection E as <-. cbn [shape length map]. rewrite map_length. split; [apply stretches_refl|]. right. left. split; [reflexivity|discriminate].
Qed.

Lemma uses_lift2 {A B C} (f : A -> B -> C) e1 e2 L1 L2 : uses e1 L1 -> uses e2 L2 -> uses (lift2 f e1 e2) (L1 ++ L2).
Proof.
  intros H1 H2 r E. unfold lift2 in E. rewrite value_bind in E. destruct (value e1) as [a|] eqn:E1; [|discriminate].
  rewrite value_bind in E. destruct (value e2) as [b|] eqn:E2; [|discriminate].
  apply bcast_shape in E as (Sa & Sb). apply Forall_app. split.
  - eapply Forall_impl; [|apply H1; exact E1]. cbv beta. intros s H. eapply stretches_trans; eauto.
  - eapply Forall_impl; [|apply H2; exact E2]. cbv beta. intros s H. eapply stretches_trans; eauto.
Qed.

Lemma uses_where c (x y : M nums) L1 L2 L3 : uses c L1 -> uses x L2 -> uses y L3 -> uses (where_ c x y) (L1 ++ L2 ++ L3).
Proof. intros. apply uses_lift2; [auto|]. apply uses_lift2; auto. Qed.

Lemma uses_bind {A B} (e : M A) (k : A -> M (arr B)) L : (forall r, value e = Ok r -> uses (k r) L) -> uses (x <- e ;; k x) L.
Proof. intros H r E. rewrite value_bind in E. destruct (value e) as [a|] eqn:Ea; [|discriminate]. eapply H; eauto. Qed.

(** A variable stands for what was used to compute it. *)
Lemma uses_bound (r : nums) L : Forall (fun s => stretches s (shape r)) L -> uses (value_of r) L.
Proof. intros H q E. injection E as <-. exact H. Qed.

Lemma uses_let {B} (e : M nums) (k : nums -> M (arr B)) L L' :
  uses e L -> (forall r, Forall (fun s => stretches s (shape r)) L -> uses (k r) L') -> uses (x <- e ;; k x) L'.
Proof. intros H K. apply uses_bind. intros r E. apply K. apply H. exact E. Qed.

Lemma uses_incl {A} (e : M (arr A)) L L' : uses e L -> incl L' L -> uses e L'.
Proof. intros H I r E. specialize (H r E). rewrite Forall_forall in *. auto. Qed.

(** ** Tactics: [den_tac] evaluates an expression or a sequence of assignments,
    [runs_tac] runs the validity checks, [uses_tac] collects the arguments. *)

Definition fits {A} (sh : option nat) (e : M (arr A)) : Prop := exists r, value e = Ok r /\ stretches (shape r) sh.

Lemma fits_leaf sh (a : nums) : stretches (shape a) sh -> fits sh (value_of a).
Proof. intros H. exists a. auto. Qed.
Lemma fits_const sh (x : num) : fits sh (value_of (Sc x)).
Proof. apply fits_leaf, stretches_none. Qed.
Lemma fits_lift1 {A B} sh (f : A -> B) e : fits sh e -> fits sh (lift1 f e).
Proof. intros (r & E & S). exists (amap f r). split; [unfold lift1; rewrite value_bind, E; reflexivity|rewrite shape_amap; auto]. Qed.
Lemma fits_lift2 {A B C} sh (f : A -> B -> C) e1 e2 : fits sh e1 -> fits sh e2 -> fits sh (lift2 f e1 e2).
Proof.
  intros (r1 & E1 & S1) (r2 & E2 & S2). destruct (bcast_cases f r1 r2 sh S1 S2) as (r & E & S & V).
  exists r. split; [|auto]. unfold lift2. rewrite value_bind, E1, value_bind, E2, E. reflexivity.
Qed.
Lemma fits_where sh c (x y : M nums) : fits sh c -> fits sh x -> fits sh y -> fits sh (where_ c x y).
Proof. intros. apply fits_lift2; [auto|]. apply fits_lift2; auto. Qed.
Lemma fits_bind sh (e : M nums) B (k : nums -> M (arr B)) :
  fits sh e -> (forall r : nums, stretches (shape r) sh -> fits sh (k r)) -> fits sh (x <- e ;; k x).
Proof.
  intros (r & E & S) H. destruct (H r S) as (q & Eq & Sq).
  exists q. split; [|auto]. etransitivity; [apply (value_bind_ok e k r); exact E|exact Eq].
Qed.

Lemma runs_check {n f} {sh} {e : M nums} {lo hi} : fits sh e -> value (acheck n f e lo hi) = Ok tt.
Proof.
  intros (r & E & _). unfold acheck. rewrite value_bind. change (value e) with (@value nums e) in *. rewrite E.
  rewrite value_bind. assert (H : forall l, exists b, value (check_values n f l lo hi) = Ok b).
  { induction l as [|x l (b & IH)]; [eexists; reflexivity|]. cbn [check_values].
    destruct (nlt x lo || ngt x hi)%bool; rewrite !value_bind; cbn [value warn snd]; rewrite ?value_bind, IH; eexists; reflexivity. }
  destruct (H (entries r)) as (b & ->). reflexivity.
Qed.
Lemma runs_when b (m : M unit) : value m = Ok tt -> value (when b m) = Ok tt.
Proof. apply value_when. Qed.
Lemma runs_seq (m k : M unit) : value m = Ok tt -> value k = Ok tt -> value (m ;; k) = Ok tt.
Proof. intros H. rewrite value_bind, H. auto. Qed.

Lemma runs_bind sh (e : M nums) (k : nums -> M unit) : fits sh e ->
  (forall r : nums, stretches (shape r) sh -> value (k r) = Ok tt) -> value (x <- e ;; k x) = Ok tt.
Proof. intros (r & E & S) H. etransitivity; [apply (value_bind_ok e k r); exact E|]. apply H. exact S. Qed.

(** ** Arguments that are given or missing as a whole *)

Lemma filled_not_all a : filled a -> all_nan a = false.
Proof. intros (N & F). unfold all_nan. destruct (entries a) as [|x l]; [congruence|]. inversion F; subst. cbn. rewrite H1. reflexivity. Qed.
Lemma missing_all a : missing a -> all_nan a = true.
Proof. intros F. unfold all_nan. apply forallb_forall. exact (proj1 (Forall_forall _ _) F). Qed.
Lemma filled_given a : filled a -> given a = true.
Proof. intros (_ & F). unfold given, any_nan. induction F; [reflexivity|]. cbn. rewrite H. exact IHF. Qed.

Lemma at_entry {A} (a : arr A) i x : at_ a i = Some x -> In x (entries a).
Proof.
  destruct a as [y|[|y [|z l]]]; cbn [at_ entries]; intros E; [injection E as ->; left; auto|destruct i; discriminate|injection E as ->; left; auto|].
  eapply nth_error_In. exact E.
Qed.
Lemma filled_place a sh i : filled a -> stretches (shape a) sh -> inside sh i -> isnan (place i a) = false.
Proof.
  intros (_ & F) S I. destruct (at_some _ _ _ S I) as (x & E). unfold place. rewrite E.
  rewrite Forall_forall in F. apply F. eapply at_entry. exact E.
Qed.
Lemma missing_place a i : missing a -> isnan (place i a) = true.
Proof.
  intros F. unfold place. destruct (at_ a i) eqn:E; [|reflexivity].
  unfold missing in F; rewrite Forall_forall in F. apply F. eapply at_entry. exact E.
Qed.

Lemma usage_given Dn50 M50 rho : filled Dn50 -> check_usage_Dn50_or_M50 Dn50 M50 rho = value_of Dn50.
Proof. intros H. unfold check_usage_Dn50_or_M50. rewrite (filled_not_all _ H). reflexivity. Qed.
Lemma usage_missing Dn50 M50 rho : missing Dn50 -> filled M50 -> filled rho ->
  check_usage_Dn50_or_M50 Dn50 M50 rho = calculate_Dn50_from_M50 M50 rho.
Proof. intros H K L. unfold check_usage_Dn50_or_M50. rewrite (missing_all _ H), (filled_not_all _ K), (filled_not_all _ L). reflexivity. Qed.

Lemma usage_given_at Dn50 M50 rho sh i m r : filled Dn50 -> stretches (shape Dn50) sh -> inside sh i ->
  check_usage_Dn50_or_M50 Dn50 M50 rho = value_of Dn50 /\ CorePhysics.check_usage_Dn50_or_M50 (place i Dn50) m r = ret (place i Dn50).
Proof.
  intros H S I. split; [apply usage_given; auto|]. unfold CorePhysics.check_usage_Dn50_or_M50.
  rewrite (filled_place _ _ _ H S I). reflexivity.
Qed.
Lemma usage_missing_at Dn50 M50 rho sh i : missing Dn50 -> filled M50 -> filled rho ->
  stretches (shape M50) sh -> stretches (shape rho) sh -> inside sh i ->
  CorePhysics.check_usage_Dn50_or_M50 (place i Dn50) (place i M50) (place i rho)
  = ret (CorePhysics.calculate_Dn50_from_M50 (place i M50) (place i rho)).
Proof.
  intros H K L S T I. unfold CorePhysics.check_usage_Dn50_or_M50.
  rewrite (missing_place _ _ H), (filled_place _ _ _ K S I), (filled_place _ _ _ L T I). reflexivity.
Qed.

(** The missing one of the four quantities of the stability number *)
Lemma first_bind (e : M nums) n : first (r <- e ;; ret (r, n)) = e.
Proof. destruct e as [w [r|x]]; unfold first, bind, ret; cbn; rewrite ?app_nil_r; reflexivity. Qed.
Lemma first_Hs Dn Delta Ns : first (check_usage_stabilitynumber None (Some Dn) (Some Delta) (Some Ns)) = (Dn * Delta * Ns)%arr.
Proof. apply first_bind. Qed.
Lemma first_Dn Hs Delta Ns : first (check_usage_stabilitynumber (Some Hs) None (Some Delta) (Some Ns)) = (Hs / Ns / Delta)%arr.
Proof. apply first_bind. Qed.
Lemma first_Ns Hs Dn Delta : first (check_usage_stabilitynumber (Some Hs) (Some Dn) (Some Delta) None) = (Hs / (Delta * Dn))%arr.
Proof. apply first_bind. Qed.
Lemma stability_Hs Dn Delta Ns : CorePhysics.check_usage_stabilitynumber None (Some Dn) (Some Delta) (Some Ns) = ret ((Dn * Delta * Ns)%num, "Hs"%string).
Proof. reflexivity. Qed.
Lemma stability_Dn Hs Delta Ns : CorePhysics.check_usage_stabilitynumber (Some Hs) None (Some Delta) (Some Ns) = ret ((Hs / Ns / Delta)%num, "Dn"%string).
Proof. reflexivity. Qed.
Lemma stability_Ns Hs Dn Delta : CorePhysics.check_usage_stabilitynumber (Some Hs) (Some Dn) (Some Delta) None = ret ((Hs / (Delta * Dn))%num, "Ns"%string).
Proof. reflexivity. Qed.
Ltac first_tac := first [rewrite first_Hs|rewrite first_Dn|rewrite first_Ns].
Ltac usage_tac := first [rewrite usage_given by assumption|rewrite usage_missing by assumption]; unfold calculate_Dn50_from_M50, apow.

(** A function applied to every entry *)
Definition works (f : num -> M num) (x : num) : Prop := exists y, value (f x) = Ok y.
Definition result (f : num -> M num) (x : num) : num := match value (f x) with Ok y => y | Err _ => NaN end.

Lemma each_of_ok f l : Forall (works f) l -> value (each_of f l) = Ok (map (result f) l).
Proof.
  induction 1 as [|x l (y & E) F IH]; [reflexivity|]. cbn [each_of map]. unfold result at 1. rewrite value_bind, E, value_bind, IH. reflexivity.
Qed.
Lemma each_ok f a : Forall (works f) (entries a) -> value (each f (value_of a)) = Ok (amap (result f) a).
Proof.
  intros H. unfold each. etransitivity; [apply (value_bind_ok (value_of a) _ a); reflexivity|].
  destruct a as [x|l]; cbn [entries amap] in *.
  - inversion H; subst. destruct H2 as (y & E). unfold result. rewrite value_bind, E. reflexivity.
  - rewrite value_bind, each_of_ok by auto. reflexivity.
Qed.
Lemma den_each sh f a : Forall (works f) (entries a) -> stretches (shape a) sh ->
  den sh (each f (value_of a)) (fun i => result f (place i a)).
Proof.
  intros H S. exists (amap (result f) a). split; [apply each_ok; auto|]. split; [rewrite shape_amap; auto|].
  intros i I. rewrite at_amap. destruct (at_some _ _ _ S I) as (x & E). unfold place. rewrite E. reflexivity.
Qed.
Lemma works_place f a sh i : Forall (works f) (entries a) -> stretches (shape a) sh -> inside sh i ->
  value (f (place i a)) = Ok (result f (place i a)).
Proof.
  intros F S I. destruct (at_some _ _ _ S I) as (x & E). unfold place. rewrite E.
  rewrite Forall_forall in F. destruct (F x (at_entry _ _ _ E)) as (y & V). unfold result. rewrite V. reflexivity.
Qed.
Lemma each_of_length f l : forall r, value (each_of f l) = Ok r -> length r = length l.
Proof.
  induction l as [|x l IH]; cbn [each_of]; intros r E; [injection E as <-; reflexivity|].
  rewrite value_bind in E. destruct (value (f x)); [|discriminate]. rewrite value_bind in E.
  destruct (value (each_of f l)) as [q|] eqn:F; [|discriminate]. injection E as <-. cbn. rewrite (IH q); auto.
Qed.
Lemma uses_each f (e : M nums) L : uses e L -> uses (each f e) L.
Proof.
  intros H r E. unfold each in E. destruct e as [w [a|x]]; [|discriminate]. specialize (H a eq_refl).
  unfold bind in E at 1. cbn [snd fst] in E. destruct a as [x|l]; unfold value in E; cbn [snd] in E.
  - destruct (f x) as [v [y|]] eqn:F; cbn in E; [|discriminate]. injection E as <-. exact H.
  - destruct (each_of f l) as [v [q|]] eqn:F; cbn in E; [|discriminate]. injection E as <-. cbn [shape] in *.
    rewrite (each_of_length f l q); [exact H|]. rewrite F. reflexivity.
Qed.

(** ** Putting both together *)

Lemma common_exists args t : Forall (fun a : nums => stretches (shape a) t) args -> exists sh, common args sh.
Proof.
  intros H. destruct (Exists_dec (fun a : nums => shape a = t) args) as [E|E].
  { intros a. decide equality. apply Nat.eq_dec. }
  - exists t. split; [auto|right; auto].
  - destruct (Exists_dec (fun a : nums => shape a = Some 1) args) as [F|F].
    { intros a. decide equality. apply Nat.eq_dec. }
    + exists (Some 1). split; [|right; auto]. apply Forall_forall. intros a I.
      rewrite Forall_forall in H. destruct (H a I) as [K|[(K & _)|K]]; [left; auto|right; right; auto|].
      exfalso. apply E. apply Exists_exists. eauto.
    + exists None. split; [|left; auto]. apply Forall_forall. intros a I.
      rewrite Forall_forall in H. destruct (H a I) as [K|[(K & _)|K]]; [left; auto| |].
      * exfalso. apply F. apply Exists_exists. eauto.
      * exfalso. apply E. apply Exists_exists. eauto.
Qed.

(** The shape [sh] is that of the result, [sh'] the one the checks broadcast to. *)
Definition widens (sh sh' : option nat) : Prop := stretches sh sh'.

Lemma elementwise_intro checked args call scalar :
  uses call (map shape args) ->
  (forall sh sh', widens sh sh' -> Forall (fun a => stretches (shape a) sh) args ->
     Forall (fun a => stretches (shape a) sh') (args ++ checked) ->
     exists v, den sh call v /\ forall i, inside sh i -> scalar (place i) = Ok (v i)) ->
  elementwise_with checked args call scalar.
Proof.
  intros U D. split.
  - intros sh (F & C) (sh' & F').
    assert (W : widens sh sh').
    { destruct C as [->|C]; [apply stretches_none|]. apply Exists_exists in C as (a & I & <-).
      rewrite Forall_forall in F'. apply F'. apply in_or_app. auto. }
    destruct (D sh sh' W F F') as (v & (r & E & S & V) & Sc). exists r. split; [auto|]. split.
    + apply stretches_antisym; [auto|]. destruct C as [->|C]; [apply stretches_none|].
      apply Exists_exists in C as (a & I & <-). specialize (U r E). rewrite Forall_forall in U. apply U. apply in_map. exact I.
    + intros i I. rewrite Sc by auto. unfold place. rewrite V by auto. reflexivity.
  - intros r E. apply (common_exists args (shape r)). specialize (U r E). rewrite Forall_forall in *. intros a I. apply U. apply in_map. exact I.
Qed.

Ltac fits_tac :=
  lazymatch goal with
  | |- fits _ (value_of (Sc _)) => apply fits_const
  | |- fits ?sh (value_of (lit ?r)) => exact (fits_const sh (Fin r))
  | W : widens ?s ?sh |- fits ?sh (value_of _) => apply fits_leaf; first [assumption | apply (stretches_trans _ s); [assumption|exact W]]
  | |- fits ?sh (ret ?a) => change (fits sh (value_of a)); fits_tac
  | |- fits _ (lift1 _ _) => apply fits_lift1; fits_tac
  | |- fits _ (lift2 _ _ _) => apply fits_lift2; fits_tac
  | |- fits _ (op1 _ _) => unfold op1; apply fits_lift1; fits_tac
  | |- fits _ (op2 _ _ _) => unfold op2; apply fits_lift2; fits_tac
  | |- fits _ (cmp _ _ _) => unfold cmp; apply fits_lift2; fits_tac
  | |- fits _ (where_ _ _ _) => apply fits_where; fits_tac
  | |- fits _ (first _) => first_tac; fits_tac
  | |- fits _ (bind _ _) => apply fits_bind; [fits_tac|let r := fresh "r" in let S := fresh "S" in intros r S; fits_tac]
  | |- _ => idtac
  end.
Ltac runs_tac :=
  lazymatch goal with
  | |- value (ret tt) = Ok tt => reflexivity
  | |- value (when _ _) = Ok tt => apply runs_when; runs_tac
  | |- value (acheck _ _ (value_of ?a) _ _) = Ok tt => apply (@runs_check _ _ (shape a)); apply fits_leaf, stretches_refl
  | W : widens _ ?sh |- value (acheck _ _ _ _ _) = Ok tt => apply (@runs_check _ _ sh); fits_tac
  | |- value (@bind unit _ _ _) = Ok tt => apply runs_seq; runs_tac
  | W : widens _ ?sh |- value (bind _ _) = Ok tt => apply (runs_bind sh); [fits_tac|let r := fresh "r" in let S := fresh "S" in intros r S; runs_tac]
  | |- _ => idtac
  end.

Ltac den_tac :=
  lazymatch goal with
  | H : den ?sh (value_of ?a) _ |- den ?sh (value_of ?a) _ => exact H
  | |- den _ (value_of (Sc _)) _ => apply den_const
  | |- den ?sh (value_of (lit ?r)) _ => exact (den_const sh (Fin r))
  | |- den _ (value_of _) _ => apply den_leaf; assumption
  | |- den ?sh (ret ?a) ?v => change (den sh (value_of a) v); den_tac
  | |- den _ (lift1 _ _) _ => eapply den_lift1; den_tac
  | |- den _ (lift2 _ _ _) _ => eapply den_lift2; den_tac
  | |- den _ (op1 _ _) _ => unfold op1; eapply den_lift1; den_tac
  | |- den _ (op2 _ _ _) _ => unfold op2; eapply den_lift2; den_tac
  | |- den _ (cmp _ _ _) _ => unfold cmp; eapply den_lift2; den_tac
  | |- den _ (where_ _ _ _) _ => eapply den_where; den_tac
  | |- den _ (first _) _ => first_tac; den_tac
  | |- den _ (check_usage_Dn50_or_M50 _ _ _) _ => usage_tac; den_tac
  | |- den _ (each _ _) _ => apply den_each; assumption
  | |- den _ (@bind unit _ _ _) _ => apply (den_then _ _ tt); [runs_tac|den_tac]
  | |- den _ (bind _ _) _ => eapply den_bind; [den_tac|let r := fresh "r" in let S := fresh "S" in let D := fresh "D" in intros r S D; den_tac]
  | |- _ => idtac
  end.

Ltac uses_tac :=
  lazymatch goal with
  | |- uses (value_of (Sc _)) _ => apply uses_nothing
  | |- uses (value_of (lit _)) _ => apply uses_nothing
  | H : Forall _ ?L |- uses (value_of ?a) _ =>
      first [match goal with H : Forall (fun s => stretches s (shape a)) ?L |- _ => exact (uses_bound a L H) end | apply uses_leaf]
  | |- uses (value_of _) _ => apply uses_leaf
  | |- uses (ret ?a) ?v => change (uses (value_of a) v); uses_tac
  | |- uses (lift1 _ _) _ => eapply uses_lift1; uses_tac
  | |- uses (lift2 _ _ _) _ => eapply uses_lift2; uses_tac
  | |- uses (op1 _ _) _ => unfold op1; eapply uses_lift1; uses_tac
  | |- uses (op2 _ _ _) _ => unfold op2; eapply uses_lift2; uses_tac
  | |- uses (cmp _ _ _) _ => unfold cmp; eapply uses_lift2; uses_tac
  | |- uses (where_ _ _ _) _ => eapply uses_where; uses_tac
  | |- uses (first _) _ => first_tac; uses_tac
  | |- uses (each _ _) _ => apply uses_each; uses_tac
  | |- uses (check_usage_Dn50_or_M50 _ _ _) _ => usage_tac; uses_tac
  | |- uses (@bind unit _ _ _) _ => apply uses_bind; intros _ _; uses_tac
  | |- uses (bind _ _) _ => eapply uses_let; [uses_tac|let r := fresh "r" in let U := fresh "U" in intros r U; uses_tac]
  | |- _ => idtac
  end.

(** The shapes collected include those of the arguments. *)
Ltac incl_tac := intros ?s ?I; cbn [map In app] in *; repeat match goal with H : _ \/ _ |- _ => destruct H as [H|H] end; subst; tauto.

(** The whole of it, after unfolding the call. *)
Ltac args_tac := repeat match goal with H : Forall _ (_ :: _) |- _ => inversion H; subst; clear H | H : Forall _ [] |- _ => clear H end.
Ltac elementwise_tac :=
  try unfold elementwise; apply elementwise_intro;
  [ eapply uses_incl; [uses_tac|incl_tac]
  | let sh := fresh "sh" in let sh' := fresh "sh'" in let W := fresh "W" in let F := fresh "F" in let F' := fresh "F'" in
    intros sh sh' W F F'; cbn [app] in F'; args_tac; eexists; split; [den_tac|intros ?i ?I] ].

Create HintDb arrays.
#[export] Hint Unfold apow asqrt aexp alog acos asin atanh aabs amin amax around asinh acosh afloor api anan adeg2rad
  calculate_wave_steepness_s calculate_Iribarren_number_ksi calculate_critical_Iribarren_number_ksi_mc
  calculate_buoyant_density_Delta calculate_stability_number_Ns calculate_M50_from_Dn50
  calculate_Dn50_from_M50 calculate_S_from_Nod calculate_Nod_from_S g_default : arrays.

(** The scalar side: run the checks and look up which size is given. *)
Ltac at_place :=
  cbv zeta;
  repeat match goal with
  | F : filled ?D, S : stretches (shape ?D) ?sh, I : inside ?sh ?i |- context [CorePhysics.check_usage_Dn50_or_M50 (place ?i ?D) ?m ?r] =>
      rewrite (proj2 (usage_given_at D D D sh i m r F S I))
  | F : missing ?D, K : filled ?M, L : filled ?r, S : stretches (shape ?M) ?sh, T : stretches (shape ?r) ?sh, I : inside ?sh ?i
    |- context [CorePhysics.check_usage_Dn50_or_M50 (place ?i ?D) (place ?i ?M) (place ?i ?r)] =>
      rewrite (usage_missing_at D M r sh i F K L S T I)
  end;
  rewrite ?stability_Hs, ?stability_Dn, ?stability_Ns;
  mchecks; cbn [fst snd]; mchecks;
  repeat (match goal with |- context [value (when ?b ?m)] => rewrite (value_when b m) by (mchecks; reflexivity) end; mchecks);
  try reflexivity.

Create HintDb scalars.
Ltac array_tac := autounfold with arrays; elementwise_tac; autounfold with scalars; at_place.
