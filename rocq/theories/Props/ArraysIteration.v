(** Property C63: iterations over arrays. *)
From Coq Require Import Reals Lra Lia List Bool Arith String.
From Verif.Lib Require Import Num Monad Arr ArrLoop RTac NTac.
From Verif.Lib Require Import Contraction.
From Verif.Spec Require Import Waves Rock Arrays ArrayLoops.
From Verif.Model Require Import CoreUtility.
From Verif.Model Require CorePhysics ArrCore KramerBurcharth2004 ArrKramerBurcharth2004.
From Verif.Proofs Require Import Core CheckTac Arrays ArrayLoops.
From Verif.Props Require Import RockKramer.
Import ListNotations.
Open Scope nat_scope.

(** ** Kramer and Burcharth *)

Lemma iteration_until1 step tol n : forall x p d,
  until1 step (fun y => y) tol n x p d (Some x) = Some (KramerBurcharth2004.iteration step tol n x p d).
Proof.
  induction n; intros x p d; cbn [until1 KramerBurcharth2004.iteration]; destruct (ngt d tol); try reflexivity.
  cbv zeta. apply IHn.
Qed.
Lemma iteration_runs step x p d n : ngt d no_tolerance = true -> 1 <= n -> (forall k, k < n -> isnan (df step (fun y => y) x p d k) = false) ->
  KramerBurcharth2004.iteration step no_tolerance n x p d = ys step (fun y => y) x (n - 1).
Proof.
  intros D L H. pose proof (until1_runs step (fun y => y) x p d n (Some x) D H) as E. unfold no_tolerance in *. rewrite iteration_until1 in E.
  destruct n; [lia|]. apply (f_equal (fun o => match o with Some z => z | None => NaN end)) in E. rewrite E. f_equal. lia.
Qed.

Theorem C63_kramer_Dn50 : forall Hs Rc rho Ns0 max_iter tol sh,
  common [Hs; Rc; rho] sh -> sh <> Some 0 -> 1 <= max_iter ->
  together sh max_iter (Fin tol) (fun _ => PInf)
    (ArrKramerBurcharth2004.calculate_nominal_rock_diameter_Dn50 Hs Rc rho Ns0 max_iter (Fin tol))
    (fun i n => value (KramerBurcharth2004.calculate_nominal_rock_diameter_Dn50 (place i Hs) (place i Rc) (place i rho) Ns0 n no_tolerance)).
Proof.
  intros * C N M. pose proof C as (F & _). args_tac.
  assert (D : den sh (ArrCore.calculate_buoyant_density_Delta rho (lit 1025)) (fun i => CorePhysics.calculate_buoyant_density_Delta (place i rho) (Fin 1025)))
    by (autounfold with arrays; eapply den_ext; [den_tac|intros; reflexivity]).
  assert (UD : uses (ArrCore.calculate_buoyant_density_Delta rho (lit 1025)) [shape rho])
    by (autounfold with arrays; eapply uses_incl; [uses_tac|incl_tac]).
  destruct D as (Delta & ED & SD & VD). specialize (UD Delta ED). change (arr num) with nums in Delta.
  assert (DD : den sh (value_of Delta) (fun i => CorePhysics.calculate_buoyant_density_Delta (place i rho) (Fin 1025))) by (exists Delta; auto).
  assert (D0 : den sh (Hs / (Delta * float Ns0))%arr (fun i => (place i Hs / (CorePhysics.calculate_buoyant_density_Delta (place i rho) (Fin 1025) * Ns0))%num))
    by (unfold float; eapply den_ext; [den_tac|intros; reflexivity]).
  destruct D0 as (x0 & E0 & S0 & V0). change (arr num) with nums in x0.
  eapply together_loop with
    (next := ArrKramerBurcharth2004.diameter_step Hs Rc Delta) (feed := value_of) (fd := fun _ y => y) (L := [shape Hs; shape Rc; shape rho])
    (nx := fun i D => ((#1 / #1.36) * ((place i Hs / CorePhysics.calculate_buoyant_density_Delta (place i rho) #1025) - place i Rc * (#0.06 * (place i Rc / D) - #0.23)))%num)
    (d0 := fun _ => PInf) (state := x0) (prev := Sc PInf) (diff := Sc PInf) (cur := Some x0); try eassumption.
  - intros a v S Da. unfold ArrKramerBurcharth2004.diameter_step. eapply den_ext; [den_tac|intros; reflexivity].
  - intros a v S Da. exact Da.
  - intros a. unfold ArrKramerBurcharth2004.diameter_step. eapply uses_incl; [uses_tac|].
    intros s I. cbn [In app] in *. intuition auto.
  - reflexivity.
  - intros i n I Ln H. unfold KramerBurcharth2004.calculate_nominal_rock_diameter_Dn50, KramerBurcharth2004.check_validity_range. cbv zeta. mchecks.
    cbv beta. rewrite iteration_runs; [reflexivity|reflexivity|exact Ln|exact H].
  - reflexivity.
  - intros s I. exact I.
  - exists x0. auto.
  - apply den_const.
  - apply den_const.
  - intros r E S. unfold ArrKramerBurcharth2004.calculate_nominal_rock_diameter_Dn50.
    etransitivity; [apply (value_bind_ok _ _ Delta ED)|]. cbv beta.
    etransitivity; [apply (value_bind_ok _ _ x0 E0)|]. cbv beta.
    etransitivity; [apply (value_bind_ok _ _ (Some r) E)|]. cbv beta. cbn [bound]. rewrite bind_ret_l.
    rewrite value_bind. unfold ArrKramerBurcharth2004.check_validity_range. rewrite runs_when; [reflexivity|].
    apply (@runs_check _ _ sh). unfold op2. apply fits_lift2; apply fits_leaf; assumption.
Qed.

Lemma kramer_freeboard : forall Hs rho Dn50 M50 d sizes x0 max_iter tol sh,
  stone_size sh Dn50 M50 rho d sizes ->
  common (Hs :: rho :: sizes) sh -> sh <> Some 0 -> 1 <= max_iter ->
  together sh max_iter (Fin tol) (fun _ => PInf)
    (ArrKramerBurcharth2004.calculate_crest_freeboard_Rc Hs rho Dn50 M50 x0 max_iter (Fin tol))
    (fun i n => value (KramerBurcharth2004.calculate_crest_freeboard_Rc (place i Hs) (place i rho) (place i Dn50) (place i M50) x0 n no_tolerance)).
Proof.
  intros * (Ed & Id & Sd & Ud) C N M. pose proof C as (F & _).
  inversion F as [|? ? S1 F1]; subst. inversion F1 as [|? ? S2 F2]; subst. clear F F1 F2.
  name sh (ArrCore.calculate_buoyant_density_Delta rho (lit 1025)) (fun i => CorePhysics.calculate_buoyant_density_Delta (place i rho) (Fin 1025)) [shape rho] Delta.
  name sh (float x0 * d)%arr (fun i => (x0 * place i d)%num) (@nil (option nat)) Rc0.
  eapply together_loop with
    (next := ArrKramerBurcharth2004.freeboard_step Hs d Delta) (feed := value_of) (fd := fun _ y => y) (L := shape Hs :: shape rho :: map shape sizes)
    (nx := fun i Rc => (((place i Hs / CorePhysics.calculate_buoyant_density_Delta (place i rho) #1025) - #1.36 * place i d) / (#0.06 * (Rc / place i d) - #0.23))%num)
    (d0 := fun _ => PInf) (state := Rc0) (prev := Sc PInf) (diff := Sc PInf) (cur := Some Rc0); try eassumption.
  - intros a v S Da. unfold ArrKramerBurcharth2004.freeboard_step. eapply den_ext; [den_tac|intros; reflexivity].
  - intros a v S Da. exact Da.
  - intros a. unfold ArrKramerBurcharth2004.freeboard_step. eapply uses_incl; [uses_tac|].
    intros s I. cbn [In app] in *. rewrite !in_app_iff. cbn [In]. intuition auto.
  - reflexivity.
  - intros i n I Ln H. unfold KramerBurcharth2004.calculate_crest_freeboard_Rc, KramerBurcharth2004.check_validity_range. cbv zeta.
    rewrite (Id i I), bind_ret_l. mchecks.
    cbv beta. rewrite iteration_runs; [reflexivity|reflexivity|exact Ln|exact H].
  - reflexivity.
  - intros s I. exact I.
  - apply den_const.
  - apply den_const.
  - intros r E S. unfold ArrKramerBurcharth2004.calculate_crest_freeboard_Rc.
    etransitivity; [apply (value_bind_ok _ _ d Ed)|]. cbv beta.
    etransitivity; [apply (value_bind_ok _ _ Delta EDelta)|]. cbv beta.
    etransitivity; [apply (value_bind_ok _ _ Rc0 ERc0)|]. cbv beta.
    etransitivity; [apply (value_bind_ok _ _ (Some r) E)|]. cbv beta. cbn [bound]. rewrite bind_ret_l.
    rewrite value_bind. unfold ArrKramerBurcharth2004.check_validity_range. rewrite runs_when; [reflexivity|].
    apply (@runs_check _ _ sh). unfold op2. apply fits_lift2; apply fits_leaf; assumption.
Qed.

Theorem C63_kramer_Rc : forall Hs rho Dn50 M50 x0 max_iter tol sh, filled Dn50 ->
  common [Hs; rho; Dn50] sh -> sh <> Some 0 -> 1 <= max_iter ->
  together sh max_iter (Fin tol) (fun _ => PInf)
    (ArrKramerBurcharth2004.calculate_crest_freeboard_Rc Hs rho Dn50 M50 x0 max_iter (Fin tol))
    (fun i n => value (KramerBurcharth2004.calculate_crest_freeboard_Rc (place i Hs) (place i rho) (place i Dn50) (place i M50) x0 n no_tolerance)).
Proof.
  intros * F C N M. pose proof C as (S & _). args_tac.
  apply (kramer_freeboard Hs rho Dn50 M50 Dn50 [Dn50]); auto. apply stone_size_given; assumption.
Qed.

Theorem C63_kramer_Rc_from_M50 : forall Hs rho Dn50 M50 x0 max_iter tol sh, missing Dn50 -> filled M50 -> filled rho ->
  common [Hs; rho; M50] sh -> sh <> Some 0 -> 1 <= max_iter ->
  together sh max_iter (Fin tol) (fun _ => PInf)
    (ArrKramerBurcharth2004.calculate_crest_freeboard_Rc Hs rho Dn50 M50 x0 max_iter (Fin tol))
    (fun i n => value (KramerBurcharth2004.calculate_crest_freeboard_Rc (place i Hs) (place i rho) (place i Dn50) (place i M50) x0 n no_tolerance)).
Proof.
  intros * Fd Fm Fr C N M. pose proof C as (S & _). args_tac.
  destruct (stone_size_missing sh Dn50 M50 rho) as (d & Hd); try assumption.
  apply (kramer_freeboard Hs rho Dn50 M50 d [M50; rho]); auto.
  destruct C as (F & X). split; [repeat (constructor; [assumption|]); constructor|]. destruct X as [X|X]; [left; exact X|right].
  rewrite !Exists_cons in X. rewrite !Exists_cons. tauto.
Qed.

(** The wave height has no iterations. *)
#[local] Hint Unfold ArrKramerBurcharth2004.calculate_significant_wave_height_Hs ArrKramerBurcharth2004.check_validity_range : arrays.
#[local] Hint Unfold KramerBurcharth2004.calculate_significant_wave_height_Hs KramerBurcharth2004.check_validity_range : scalars.
Theorem C61_kramer_Hs : forall Rc rho Dn50 M50, filled Dn50 ->
  elementwise [Rc; rho; Dn50] (ArrKramerBurcharth2004.calculate_significant_wave_height_Hs Rc rho Dn50 M50)
    (fun at_ => value (KramerBurcharth2004.calculate_significant_wave_height_Hs (at_ Rc) (at_ rho) (at_ Dn50) (at_ M50))).
Proof. intros. array_tac. Qed.
Theorem C61_kramer_Hs_from_M50 : forall Rc rho Dn50 M50, missing Dn50 -> filled M50 -> filled rho ->
  elementwise [Rc; rho; M50] (ArrKramerBurcharth2004.calculate_significant_wave_height_Hs Rc rho Dn50 M50)
    (fun at_ => value (KramerBurcharth2004.calculate_significant_wave_height_Hs (at_ Rc) (at_ rho) (at_ Dn50) (at_ M50))).
Proof. intros. array_tac. Qed.

(** ** What follows from iterating together *)

Lemma iteration_once step tol x : ngt PInf tol = true -> KramerBurcharth2004.iteration step tol 1 x PInf PInf = step x.
Proof. intros T. cbn [KramerBurcharth2004.iteration]. rewrite T. cbv zeta. destruct (ngt (nabs _) tol); reflexivity. Qed.
#[local] Hint Rewrite ndiv_nan_l nsub_nan_l nmul_nan_r : nanp.

(** One missing wave height: all diameters are those after a single iteration. *)
Theorem C63_kramer_Dn50_missing_wave_height : forall Hs Rc rho Ns0 max_iter tol sh i0,
  common [Hs; Rc; rho] sh -> 1 <= max_iter -> sh <> Some 0 -> inside sh i0 -> place i0 Hs = NaN ->
  exists r, value (ArrKramerBurcharth2004.calculate_nominal_rock_diameter_Dn50 Hs Rc rho Ns0 max_iter (Fin tol)) = Ok r /\ shape r = sh
  /\ forall i, inside sh i ->
     value (KramerBurcharth2004.calculate_nominal_rock_diameter_Dn50 (place i Hs) (place i Rc) (place i rho) Ns0 1 no_tolerance) = Ok (place i r).
Proof.
  intros * C M N I V. pose proof (C63_kramer_Dn50 Hs Rc rho Ns0 max_iter tol sh C N M) as T. apply (together_nan _ _ _ _ _ _ i0 T I).
  cbn [change]. unfold KramerBurcharth2004.calculate_nominal_rock_diameter_Dn50, KramerBurcharth2004.check_validity_range. cbv zeta. mchecks.
  rewrite iteration_once by reflexivity. rewrite V. autorewrite with nanp. reflexivity.
Qed.
Theorem C63_kramer_Rc_missing_wave_height : forall Hs rho Dn50 M50 x0 max_iter tol sh i0, filled Dn50 ->
  common [Hs; rho; Dn50] sh -> 1 <= max_iter -> sh <> Some 0 -> inside sh i0 -> place i0 Hs = NaN ->
  exists r, value (ArrKramerBurcharth2004.calculate_crest_freeboard_Rc Hs rho Dn50 M50 x0 max_iter (Fin tol)) = Ok r /\ shape r = sh
  /\ forall i, inside sh i ->
     value (KramerBurcharth2004.calculate_crest_freeboard_Rc (place i Hs) (place i rho) (place i Dn50) (place i M50) x0 1 no_tolerance) = Ok (place i r).
Proof.
  intros * Fd C M N I V. pose proof (C63_kramer_Rc _ _ _ M50 x0 _ tol _ Fd C N M) as T. apply (together_nan _ _ _ _ _ _ i0 T I).
  pose proof C as (S & _). args_tac.
  cbn [change]. unfold KramerBurcharth2004.calculate_crest_freeboard_Rc, KramerBurcharth2004.check_validity_range. cbv zeta.
  rewrite (proj1 (proj2 (stone_size_given sh Dn50 M50 rho Fd ltac:(assumption))) i0 I), bind_ret_l. mchecks.
  rewrite iteration_once by reflexivity. rewrite V. autorewrite with nanp. reflexivity.
Qed.

(** With an empty array there is no largest change. *)
Theorem C63_kramer_Dn50_empty : forall Hs Rc rho Ns0 max_iter tol,
  common [Hs; Rc; rho] (Some 0) -> 1 <= max_iter ->
  value (ArrKramerBurcharth2004.calculate_nominal_rock_diameter_Dn50 Hs Rc rho Ns0 max_iter (Fin tol)) = Err ValueError.
Proof.
  intros * C M. pose proof C as (F & _). args_tac. set (sh := Some 0) in *.
  name sh (ArrCore.calculate_buoyant_density_Delta rho (lit 1025)) (fun i => CorePhysics.calculate_buoyant_density_Delta (place i rho) (Fin 1025)) [shape rho] Delta.
  name sh (Hs / (Delta * float Ns0))%arr (fun i => (place i Hs / (CorePhysics.calculate_buoyant_density_Delta (place i rho) (Fin 1025) * Ns0))%num) (@nil (option nat)) x0.
  unfold ArrKramerBurcharth2004.calculate_nominal_rock_diameter_Dn50.
  etransitivity; [apply (value_bind_ok _ _ Delta EDelta)|]. cbv beta.
  etransitivity; [apply (value_bind_ok _ _ x0 Ex0)|]. cbv beta.
  apply value_bind_err.
  eapply loop_empty with (L := [shape Hs; shape Rc; shape rho]) (args := [Hs; Rc; rho]); try eassumption; try reflexivity.
  - unfold ArrKramerBurcharth2004.diameter_step. den_tac.
  - intros a S. eexists. reflexivity.
  - unfold ArrKramerBurcharth2004.diameter_step. eapply uses_incl; [uses_tac|].
    intros s I. cbn [In app] in *. intuition auto.
  - apply den_const.
  - intros s I. exact I.
Qed.
Lemma kramer_freeboard_empty : forall Hs rho Dn50 M50 d sizes x0 max_iter tol,
  stone_size (Some 0) Dn50 M50 rho d sizes ->
  common (Hs :: rho :: sizes) (Some 0) -> 1 <= max_iter ->
  value (ArrKramerBurcharth2004.calculate_crest_freeboard_Rc Hs rho Dn50 M50 x0 max_iter (Fin tol)) = Err ValueError.
Proof.
  intros * (Ed & Id & Sd & Ud) C M. pose proof C as (F & _).
  inversion F as [|? ? S1 F1]; subst. inversion F1 as [|? ? S2 F2]; subst. clear F F1 F2. set (sh := Some 0) in *.
  name sh (ArrCore.calculate_buoyant_density_Delta rho (lit 1025)) (fun i => CorePhysics.calculate_buoyant_density_Delta (place i rho) (Fin 1025)) [shape rho] Delta.
  name sh (float x0 * d)%arr (fun i => (x0 * place i d)%num) (@nil (option nat)) Rc0.
  unfold ArrKramerBurcharth2004.calculate_crest_freeboard_Rc.
  etransitivity; [apply (value_bind_ok _ _ d Ed)|]. cbv beta.
  etransitivity; [apply (value_bind_ok _ _ Delta EDelta)|]. cbv beta.
  etransitivity; [apply (value_bind_ok _ _ Rc0 ERc0)|]. cbv beta.
  apply value_bind_err.
  eapply loop_empty with (L := shape Hs :: shape rho :: map shape sizes) (args := Hs :: rho :: sizes); try eassumption; try reflexivity.
  - unfold ArrKramerBurcharth2004.freeboard_step. den_tac.
  - intros a S. eexists. reflexivity.
  - unfold ArrKramerBurcharth2004.freeboard_step. eapply uses_incl; [uses_tac|].
    intros s I. cbn [In app] in *. rewrite !in_app_iff. cbn [In]. intuition auto.
  - apply den_const.
  - intros s I. exact I.
Qed.
Theorem C63_kramer_Rc_empty : forall Hs rho Dn50 M50 x0 max_iter tol, filled Dn50 ->
  common [Hs; rho; Dn50] (Some 0) -> 1 <= max_iter ->
  value (ArrKramerBurcharth2004.calculate_crest_freeboard_Rc Hs rho Dn50 M50 x0 max_iter (Fin tol)) = Err ValueError.
Proof.
  intros * F C M. pose proof C as (S & _). args_tac.
  apply (kramer_freeboard_empty Hs rho Dn50 M50 Dn50 [Dn50]); auto. apply stone_size_given; assumption.
Qed.

(** ** Accuracy in the published range *)
Open Scope R_scope.
Lemma iteration_iter step F (Q : R -> Prop) : (forall u, Q u -> step (Fin u) = Fin (F u)) -> (forall u, Q u -> Q (F u)) ->
  forall m u p d, Q u -> ngt d no_tolerance = true -> p = PInf \/ (exists v, p = Fin v) ->
  KramerBurcharth2004.iteration step no_tolerance m (Fin u) p d = Fin (iter F m u).
Proof.
  intros Stp Qi. induction m; intros u q d Qu D H; cbn [KramerBurcharth2004.iteration]; rewrite D; [reflexivity|].
  cbv zeta. rewrite Stp by exact Qu. rewrite iter_S_r. apply IHm; [auto| |right; eauto].
  destruct H as [->|[v ->]]; [reflexivity|]. apply nabs_above. reflexivity.
Qed.
Lemma together_shrinks sh max_iter tol call x step x0 p k :
  together sh max_iter (Fin tol) (fun _ => PInf) call x -> 0 <= tol -> 0 <= k < 1 ->
  (forall i n, inside sh i -> x i n = Ok (KramerBurcharth2004.iteration (step i) no_tolerance n (Fin (x0 i)) PInf PInf)) ->
  (forall i, inside sh i -> shrinking (step i) (x0 i) (p i) k) ->
  exists r, value call = Ok r /\ shape r = sh /\ forall i, inside sh i ->
    exists y, place i r = Fin y /\ Rabs (y - p i) <= Rmax (k / (1 - k) * tol) (k ^ max_iter * Rabs (x0 i - p i)).
Proof.
  intros (n & r & (L & G & St) & E & Sr & P) Ht Hk Hx Hs. exists r. split; [exact E|]. split; [exact Sr|]. intros i I.
  assert (A : forall j, inside sh j -> forall m, exists y, x j m = Ok (Fin y)).
  { intros j J m. destruct (Hs j J) as (F & Q & Q0 & Stp & Qi & _). exists (iter F m (x0 j)).
    rewrite (Hx j m J), (iteration_iter _ F Q); auto. }
  destruct (Hs i I) as (F & Q & Q0 & Stp & Qi & Sh).
  assert (X : forall m, x i m = Ok (Fin (iter F m (x0 i)))).
  { intros m. rewrite (Hx i m I), (iteration_iter _ F Q); auto. }
  assert (Qn : forall m, Q (iter F m (x0 i))) by (induction m; [exact Q0|rewrite iter_S; auto]).
  assert (K : forall m, Rabs (iter F m (x0 i) - p i) <= k ^ m * Rabs (x0 i - p i)).
  { induction m; [simpl; lra|]. rewrite iter_S. eapply Rle_trans; [apply Sh; apply Qn|]. cbn [pow]. rewrite Rmult_assoc. apply Rmult_le_compat_l; lra. }
  specialize (P i I). rewrite X in P. injection P as P. exists (iter F n (x0 i)). split; [symmetry; exact P|].
  destruct St as [->|St]; [eapply Rle_trans; [apply K|apply Rmax_r]|]. eapply Rle_trans; [|apply Rmax_l].
  assert (D : forall j, inside sh j -> isnan (change (fun _ => PInf) x j n) = false).
  { intros j J. destruct n as [|[|n]]; [reflexivity| |]; cbn [change]; repeat match goal with |- context [x j ?m] => let E := fresh in destruct (A j J m) as (? & E); rewrite E; clear E end; reflexivity. }
  assert (B : ngt (change (fun _ => PInf) x i n) (Fin tol) = false).
  { destruct (ngt _ _) eqn:Gt; [|reflexivity]. exfalso. apply St. split; [exact D|]. exists i. auto. }
  destruct n as [|[|n]]; [lia| |].
  { cbn [change] in B. rewrite X in B. discriminate. }
  change (change (fun _ => PInf) x i (S (S n))) with (apart (x i (S (S n))) (x i (S n))) in B. rewrite !X in B. cbn [apart nabs nsub nadd nneg ngt nlt] in B.
  destruct (Rltb_spec tol (Rabs (iter F (S (S n)) (x0 i) + - iter F (S n) (x0 i)))) as [|Le]; [discriminate|]. apply Rnot_lt_le in Le.
  pose proof (Sh _ (Qn (S n))) as Sn. rewrite iter_S in Le |- *. set (z := iter F (S n) (x0 i)) in *.
  assert (T : Rabs (z - p i) <= Rabs (F z - p i) + tol).
  { replace (z - p i) with ((F z - p i) - (F z + - z)) by ring. eapply Rle_trans; [apply Rabs_sub_le|lra]. }
  assert (T2 : k * Rabs (z - p i) <= k * (Rabs (F z - p i) + tol)) by (apply Rmult_le_compat_l; lra).
  apply (Rmult_le_reg_r (1 - k)); [lra|]. replace (k / (1 - k) * tol * (1 - k)) with (k * tol) by (field; lra). lra.
Qed.

(** Every place has the accuracy of the scalar calls (C47). *)
Theorem C63_kramer_Dn50_accuracy : forall Hs Rc rho max_iter tol sh (D : nat -> R),
  common [Hs; Rc; rho] sh -> sh <> Some 0%nat -> (1 <= max_iter)%nat -> 0 <= tol ->
  (forall i, inside sh i -> exists H c rs, place i Hs = Fin H /\ place i Rc = Fin c /\ place i rho = Fin rs
     /\ 1025 < rs /\ 0 < D i /\ -(3.1) <= c / D i <= 1.5 /\ kramer (rs / 1025 - 1) (D i) c H) ->
  exists r, value (ArrKramerBurcharth2004.calculate_nominal_rock_diameter_Dn50 Hs Rc rho KramerBurcharth2004.Ns_init_default max_iter (Fin tol)) = Ok r
  /\ shape r = sh /\ forall i, inside sh i ->
     exists D', place i r = Fin D' /\ Rabs (D' - D i) <= Rmax tol ((1 / 2) ^ max_iter * D i).
Proof.
  intros * C N M Ht A.
  set (h i := match place i Hs with Fin a => a | _ => 0 end). set (c i := match place i Rc with Fin a => a | _ => 0 end).
  set (rs i := match place i rho with Fin a => a | _ => 0 end).
  assert (B : forall i, inside sh i -> place i Hs = Fin (h i) /\ place i Rc = Fin (c i) /\ place i rho = Fin (rs i)
     /\ 1025 < rs i /\ 0 < D i /\ -(3.1) <= c i / D i <= 1.5 /\ kramer (rs i / 1025 - 1) (D i) (c i) (h i)).
  { intros i I. destruct (A i I) as (H & c' & r' & E1 & E2 & E3 & R). unfold h, c, rs. rewrite E1, E2, E3. tauto. }
  clear A. pose proof (C63_kramer_Dn50 Hs Rc rho KramerBurcharth2004.Ns_init_default max_iter tol sh C N M) as T.
  eapply (together_shrinks _ _ _ _ _ (fun i => dstep_num (Fin (h i)) (Fin (c i)) (Fin (buoyant (rs i) 1025)))
     (fun i => h i / (buoyant (rs i) 1025 * 2)) D (/ 2)) in T; [|exact Ht|lra| |].
  - destruct T as (r & E & S & P). exists r. split; [exact E|]. split; [exact S|]. intros i I. destruct (P i I) as (y & Ey & Ly).
    destruct (B i I) as (E1 & E2 & E3 & H1 & H2 & H3 & H4). exists y. split; [exact Ey|]. eapply Rle_trans; [exact Ly|].
    replace (/ 2 / (1 - / 2) * tol) with tol by field. apply Rle_max_compat_l.
    replace (1 / 2) with (/ 2) by lra. apply Rmult_le_compat_l; [apply pow_le; lra|].
    apply (diameter_shrinking (h i) (c i) (rs i) (D i) H1 H2 H3 H4).
  - intros i n I. destruct (B i I) as (E1 & E2 & E3 & H1 & H2 & H3 & H4). rewrite E1, E2, E3.
    unfold KramerBurcharth2004.Ns_init_default. unfold no_tolerance. rewrite diameter_value by lra. reflexivity.
  - intros i I. destruct (B i I) as (E1 & E2 & E3 & H1 & H2 & H3 & H4). apply (diameter_shrinking (h i) (c i) (rs i) (D i) H1 H2 H3 H4).
Qed.
Theorem C63_kramer_Rc_accuracy : forall Hs rho Dn50 M50 max_iter tol sh (c : nat -> R), filled Dn50 ->
  common [Hs; rho; Dn50] sh -> sh <> Some 0%nat -> (1 <= max_iter)%nat -> 0 <= tol ->
  (forall i, inside sh i -> exists H rs D, place i Hs = Fin H /\ place i rho = Fin rs /\ place i Dn50 = Fin D
     /\ 1025 < rs /\ 0 < D /\ -(3.1) <= c i / D <= 1.5 /\ kramer (rs / 1025 - 1) D (c i) H) ->
  exists r, value (ArrKramerBurcharth2004.calculate_crest_freeboard_Rc Hs rho Dn50 M50 KramerBurcharth2004.Rc_Dn50_init_default max_iter (Fin tol)) = Ok r
  /\ shape r = sh /\ forall i, inside sh i ->
     exists D c', place i Dn50 = Fin D /\ place i r = Fin c' /\ Rabs (c' - c i) <= Rmax (5 * tol) (0.81 ^ max_iter * (2.5 * D)).
Proof.
  intros * Fd C N M Ht A.
  set (h i := match place i Hs with Fin a => a | _ => 0 end). set (D i := match place i Dn50 with Fin a => a | _ => 0 end).
  set (rs i := match place i rho with Fin a => a | _ => 0 end).
  assert (B : forall i, inside sh i -> place i Hs = Fin (h i) /\ place i Dn50 = Fin (D i) /\ place i rho = Fin (rs i)
     /\ 1025 < rs i /\ 0 < D i /\ -(3.1) <= c i / D i <= 1.5 /\ kramer (rs i / 1025 - 1) (D i) (c i) (h i)).
  { intros i I. destruct (A i I) as (H & r' & d' & E1 & E2 & E3 & R). unfold h, D, rs. rewrite E1, E2, E3. tauto. }
  clear A. pose proof (C63_kramer_Rc Hs rho Dn50 M50 KramerBurcharth2004.Rc_Dn50_init_default max_iter tol sh Fd C N M) as T.
  eapply (together_shrinks _ _ _ _ _ (fun i => rstep_num (Fin (h i)) (Fin (D i)) (Fin (buoyant (rs i) 1025)))
     (fun i => - (1) * D i) c 0.81) in T; [|exact Ht|lra| |].
  - destruct T as (r & E & S & P). exists r. split; [exact E|]. split; [exact S|]. intros i I. destruct (P i I) as (y & Ey & Ly).
    destruct (B i I) as (E1 & E2 & E3 & H1 & H2 & H3 & H4). exists (D i), y. split; [exact E2|]. split; [exact Ey|]. eapply Rle_trans; [exact Ly|].
    apply Rmax_case.
    + eapply Rle_trans; [|apply Rmax_l]. apply Rmult_le_compat_r; lra.
    + eapply Rle_trans; [|apply Rmax_r]. apply Rmult_le_compat_l; [apply pow_le; lra|]. apply (freeboard_shrinking (h i) (c i) (rs i) (D i) H1 H2 H3 H4).
  - intros i n I. destruct (B i I) as (E1 & E2 & E3 & H1 & H2 & H3 & H4). rewrite E1, E2, E3.
    unfold KramerBurcharth2004.Rc_Dn50_init_default. unfold no_tolerance. rewrite nneg_fin, freeboard_value by lra. reflexivity.
  - intros i I. destruct (B i I) as (E1 & E2 & E3 & H1 & H2 & H3 & H4). apply (freeboard_shrinking (h i) (c i) (rs i) (D i) H1 H2 H3 H4).
Qed.

(** One missing wave height next to a valid one: with the defaults the diameter for
    the valid wave height is 7% off, alone it is exact to 1e-5. *)
Theorem C63_kramer_Dn50_missing_example : exists r : R,
  value (ArrKramerBurcharth2004.calculate_nominal_rock_diameter_Dn50 (Ar [#1.15; NaN]%num) (Sc #1.5%num) (Sc #2050%num)
    KramerBurcharth2004.Ns_init_default KramerBurcharth2004.max_iter_default KramerBurcharth2004.tolerance_default) = Ok (Ar [Fin r; NaN])
  /\ r < 0.93
  /\ exists D', value (KramerBurcharth2004.calculate_nominal_rock_diameter_Dn50 #1.15 #1.5 #2050
       KramerBurcharth2004.Ns_init_default KramerBurcharth2004.max_iter_default KramerBurcharth2004.tolerance_default) = Ok (Fin D')
     /\ 0.9999 < D'.
Proof.
  destruct (C63_kramer_Dn50_missing_wave_height (Ar [#1.15; NaN]%num) (Sc #1.5%num) (Sc #2050%num) KramerBurcharth2004.Ns_init_default
    KramerBurcharth2004.max_iter_default 0.00001 (Some 2%nat) 1) as (r & E & S & P).
  { split; [apply shapes_ok; reflexivity|right; left; reflexivity]. }
  { unfold KramerBurcharth2004.max_iter_default. lia. }
  { discriminate. } { cbn. lia. } { reflexivity. }
  destruct r as [?|[|r0 [|r1 [|? ?]]]]; try discriminate S.
  pose proof (P 0%nat ltac:(cbn; lia)) as P0. pose proof (P 1%nat ltac:(cbn; lia)) as P1. clear P S.
  cbn [place at_ nth_error] in P0, P1.
  change (value (KramerBurcharth2004.calculate_nominal_rock_diameter_Dn50 #1.15 #1.5 #2050 KramerBurcharth2004.Ns_init_default 1 no_tolerance) = Ok r0) in P0.
  change (value (KramerBurcharth2004.calculate_nominal_rock_diameter_Dn50 NaN #1.5 #2050 KramerBurcharth2004.Ns_init_default 1 no_tolerance) = Ok r1) in P1.
  unfold no_tolerance, KramerBurcharth2004.Ns_init_default in P0. rewrite diameter_value in P0 by lra.
  rewrite iteration_once in P0 by reflexivity.
  assert (B : buoyant 2050 1025 = 1) by (unfold buoyant; lra). rewrite B in P0.
  rewrite dstep_fin in P0 by lra. injection P0 as <-.
  unfold KramerBurcharth2004.calculate_nominal_rock_diameter_Dn50, KramerBurcharth2004.check_validity_range in P1. cbv zeta in P1.
  rewrite !value_bind, value_when_check in P1. rewrite iteration_once in P1 by reflexivity. autorewrite with nanp in P1. injection P1 as <-.
  eexists. split; [exact E|]. split; [unfold dstep; lra|].
  destruct (C47_default_accuracy 1.15 1.5 2050 1 NaN) as ((D' & V & L) & _); [lra|lra|lra| |].
  - unfold kramer. lra.
  - exists D'. split; [exact V|]. assert (- (0.00001) <= D' - 1) by (pose proof (Rle_abs (- (D' - 1))) as U; rewrite Rabs_Ropp in U; lra). lra.
Qed.
Theorem C63_kramer_Dn50_elementwise_refuted : exists Hs Rc rho,
  ~ elementwise [Hs; Rc; rho]
      (ArrKramerBurcharth2004.calculate_nominal_rock_diameter_Dn50 Hs Rc rho
         KramerBurcharth2004.Ns_init_default KramerBurcharth2004.max_iter_default KramerBurcharth2004.tolerance_default)
      (fun at_ => value (KramerBurcharth2004.calculate_nominal_rock_diameter_Dn50 (at_ Hs) (at_ Rc) (at_ rho)
         KramerBurcharth2004.Ns_init_default KramerBurcharth2004.max_iter_default KramerBurcharth2004.tolerance_default)).
Proof.
  exists (Ar [#1.15; NaN]%num), (Sc #1.5%num), (Sc #2050%num). intros (H & _).
  destruct (H (Some 2%nat)) as (r & E & S & P).
  - split; [apply shapes_ok; reflexivity|right; left; reflexivity].
  - exists (Some 2%nat). apply shapes_ok. reflexivity.
  - destruct C63_kramer_Dn50_missing_example as (y & Ey & Ly & D' & ED & LD). rewrite Ey in E. injection E as <-.
    specialize (P 0%nat ltac:(cbn; lia)). cbn [place at_ nth_error] in P.
    assert (Z : Ok (Fin D') = Ok (Fin y)) by (rewrite <- ED; exact P). injection Z as ->. lra.
Qed.

(** Two structures at once, the second twice as large: both diameters are found. *)
Example C63_kramer_example : exists a b,
  value (ArrKramerBurcharth2004.calculate_nominal_rock_diameter_Dn50 (Ar [#1.15; #2.3]%num) (Ar [#1.5; #3]%num) (Sc #2050%num)
    KramerBurcharth2004.Ns_init_default 30 (Fin 0.001)) = Ok (Ar [Fin a; Fin b])
  /\ Rabs (a - 1) <= 0.001 /\ Rabs (b - 2) <= 0.001.
Proof.
  destruct (C63_kramer_Dn50_accuracy (Ar [#1.15; #2.3]%num) (Ar [#1.5; #3]%num) (Sc #2050%num) 30 0.001 (Some 2%nat)
    (fun i => match i with O => 1 | _ => 2 end)) as (r & E & S & P).
  - split; [apply shapes_ok; reflexivity|right; left; reflexivity].
  - discriminate.
  - lia.
  - lra.
  - intros [|[|i]] I; [| |cbn in I; lia]; do 3 eexists; (split; [reflexivity|]; split; [reflexivity|]; split; [reflexivity|]);
      unfold kramer; repeat split; lra.
  - destruct r as [?|[|r0 [|r1 [|? ?]]]]; try discriminate S.
    destruct (P 0%nat ltac:(cbn; lia)) as (a & Ea & La), (P 1%nat ltac:(cbn; lia)) as (b & Eb & Lb).
    cbn [place at_ nth_error] in Ea, Eb. change (r0 = Fin a) in Ea. change (r1 = Fin b) in Eb. subst. exists a, b. split; [exact E|].
    assert (B : (1 / 2) ^ 30 * 2 <= 0.001) by (cbn [pow]; lra). assert (0 <= (1 / 2) ^ 30) by (apply pow_le; lra).
    rewrite !Rmax_left in * by lra. auto.
Qed.
