(** Properties C61 and C63 for the toe formula of Etemad-Shahidi et al. (2021). *)
From Coq Require Import Reals Lra Lia List Bool Arith String.
From Verif.Lib Require Import Num Monad Arr ArrLoop RTac NTac.
From Verif.Spec Require Import Arrays ArrayLoops.
From Verif.Model Require Import CoreUtility.
From Verif.Model Require CorePhysics ArrCore EtemadShahidi2021 ArrEtemadShahidi2021.
From Verif.Proofs Require Import Core CheckTac Arrays ArrayLoops.
Import ListNotations.
Open Scope nat_scope.

#[local] Hint Unfold ArrEtemadShahidi2021.calculate_damage_Nod ArrEtemadShahidi2021.calculate_nominal_diameter_Dn50 : arrays.
#[local] Hint Unfold EtemadShahidi2021.calculate_damage_Nod EtemadShahidi2021.calculate_nominal_diameter_Dn50 EtemadShahidi2021.check_validity_Hs_ht
  EtemadShahidi2021.check_validity : scalars.

Lemma check_runs sh Hs ht : stretches (shape Hs) sh -> stretches (shape ht) sh -> value (ArrEtemadShahidi2021.check_validity_Hs_ht Hs ht) = Ok tt.
Proof.
  intros A B. unfold ArrEtemadShahidi2021.check_validity_Hs_ht, ArrEtemadShahidi2021.check_validity.
  change (ArrCore.given anan) with false. rewrite !andb_false_r. cbn [andb when]. rewrite !bind_ret_l.
  assert (W : widens sh sh) by apply stretches_refl. unfold anan. runs_tac.
Qed.
Ltac check_tac := match goal with S : stretches (shape ?Hs) ?sh |- value (ArrEtemadShahidi2021.check_validity_Hs_ht ?Hs ?ht) = Ok tt => apply (check_runs sh); assumption end.

Theorem C61_etemad2021_Nod : forall Hs Tmm10 h ht Bt m Dn50 rho_rock rho_water g c1 c2 c3 c4 c5 c6 c7,
  elementwise [Hs; Tmm10; h; ht; Bt; m; Dn50; rho_rock; rho_water; g; c1; c2; c3; c4; c5; c6; c7]
    (ArrEtemadShahidi2021.calculate_damage_Nod Hs Tmm10 h ht Bt m Dn50 rho_rock rho_water g c1 c2 c3 c4 c5 c6 c7)
    (fun at_ => value (EtemadShahidi2021.calculate_damage_Nod (at_ Hs) (at_ Tmm10) (at_ h) (at_ ht) (at_ Bt) (at_ m) (at_ Dn50) (at_ rho_rock) (at_ rho_water) (at_ g)
      (at_ c1) (at_ c2) (at_ c3) (at_ c4) (at_ c5) (at_ c6) (at_ c7))).
Proof.
  intros. autounfold with arrays. elementwise_tac; try check_tac.
  autounfold with scalars. change (provided NaN) with false. rewrite !andb_false_r. at_place.
Qed.

Theorem C61_etemad2021_Dn50 : forall Hs Tmm10 h ht Bt Nod m rho_rock rho_water g c1 c2 c3 c4 c5 c6 c7,
  elementwise [Hs; Tmm10; h; ht; Bt; Nod; m; rho_rock; rho_water; g; c1; c2; c3; c4; c5; c6; c7]
    (ArrEtemadShahidi2021.calculate_nominal_diameter_Dn50 Hs Tmm10 h ht Bt Nod m rho_rock rho_water g c1 c2 c3 c4 c5 c6 c7)
    (fun at_ => value (EtemadShahidi2021.calculate_nominal_diameter_Dn50 (at_ Hs) (at_ Tmm10) (at_ h) (at_ ht) (at_ Bt) (at_ Nod) (at_ m) (at_ rho_rock) (at_ rho_water) (at_ g)
      (at_ c1) (at_ c2) (at_ c3) (at_ c4) (at_ c5) (at_ c6) (at_ c7))).
Proof.
  intros. autounfold with arrays. elementwise_tac; try check_tac.
  autounfold with scalars. change (provided NaN) with false. rewrite !andb_false_r. at_place.
Qed.

(** ** The wave height *)

(** The wave height at one place after n iterations, with the steepness that goes with it. *)
Definition toe_next (Delta Dn50 h ht Bt Nod m c1 c2 c3 c4 c5 c6 c7 H s : num) : num :=
  (Delta * Dn50 * (c1 + c2 * npow (ht / h) c3 * npow s c4 * npow Nod c5 * npow (Bt / H) c6 * (#1 - c7 * m)))%num.
Fixpoint toe_iterate (next : num -> num -> num) (T g H0 s0 : num) (n : nat) : num :=
  match n with
  | O => H0
  | S O => next H0 s0
  | S n' => let H := toe_iterate next T g H0 s0 n' in next H (CorePhysics.calculate_wave_steepness_s H T g)
  end.

(** The iterations have no bound: they end at the first number at which they do not go
    on, and when there is none the call does not return, here within [fuel] iterations. *)
Definition together_or_never (sh : option nat) (fuel : nat) (tolerance : num) (before : nat -> num) (call : M nums) (x : nat -> nat -> res num) : Prop :=
  (exists n r, 1 <= n <= fuel /\ (forall m, m < n -> goes_on sh tolerance before x m) /\ ~ goes_on sh tolerance before x n
     /\ value call = Ok r /\ shape r = sh /\ forall i, inside sh i -> x i n = Ok (place i r))
  \/ ((forall m, m <= fuel -> goes_on sh tolerance before x m) /\ value call = Err OutOfFuel).

Section Loop.
Variable sh : option nat.
Hypothesis some_place : sh <> Some 0.
Variables (step : nums -> nums -> M nums) (steep : nums -> M nums).
Variables (sp : nat -> num -> num -> num) (T : nat -> num) (g : num).
Variables K L : list (option nat).
Hypothesis step_den : forall a s v w, stretches (shape a) sh -> stretches (shape s) sh ->
  den sh (value_of a) v -> den sh (value_of s) w -> den sh (step a s) (fun i => sp i (v i) (w i)).
Hypothesis steep_den : forall a v, stretches (shape a) sh -> den sh (value_of a) v -> den sh (steep a) (fun i => CorePhysics.calculate_wave_steepness_s (v i) (T i) g).
Hypothesis step_uses : forall a s, uses (step a s) (shape a :: L).
Variables (H0 : nat -> num) (s0 : num).
Let x i n := toe_iterate (sp i) (T i) g (H0 i) s0 n.
Let s i n := match n with O => s0 | S _ => CorePhysics.calculate_wave_steepness_s (x i n) (T i) g end.
Let goes := goes_on sh (Fin 1e-3) H0 (fun i n => Ok (x i n)).

Lemma x_next i n : x i (S n) = sp i (x i n) (s i n).
Proof. destruct n; reflexivity. Qed.

Lemma toe_loop max_iter fuel : 1 <= max_iter -> forall m Hs prev diff smm,
  den sh (value_of Hs) (fun i => x i m) -> den sh (value_of prev) (fun i => x i m) -> den sh (value_of smm) (fun i => s i m) ->
  den sh (value_of diff) (fun i => change H0 (fun i n => Ok (x i n)) i m) ->
  Forall (fun s => stretches s (shape Hs)) K -> (1 <= m -> Forall (fun s => stretches s (shape Hs)) (K ++ L)) ->
  (exists n r, m <= n <= m + fuel /\ (forall k, m <= k < n -> goes k) /\ ~ goes n
     /\ value (ArrEtemadShahidi2021.Hs_loop fuel step steep 0 max_iter Hs prev diff smm) = Ok r /\ den sh (value_of r) (fun i => x i n)
     /\ (1 <= n -> Forall (fun s => stretches s (shape r)) (K ++ L)))
  \/ ((forall k, m <= k <= m + fuel -> goes k) /\ value (ArrEtemadShahidi2021.Hs_loop fuel step steep 0 max_iter Hs prev diff smm) = Err OutOfFuel).
Proof.
  intros M. replace (0 <? max_iter)%nat with true by (symmetry; apply Nat.ltb_lt; lia).
  induction fuel; intros m Hs prev diff smm DH Dp Ds Dd UK U;
  destruct (greatest_places sh diff _ (Fin 1e-3) some_place Dd) as (mx & Eg & G); cbn [ArrEtemadShahidi2021.Hs_loop];
  rewrite (value_bind_ok _ _ mx Eg), ?(proj2 (Nat.ltb_lt 0 max_iter)) by lia; rewrite andb_true_r; destruct (ngt mx (Fin 1e-3)) eqn:Gt.
  - right. split; [|reflexivity]. intros k Hk. replace k with m by lia. apply G. reflexivity.
  - left. exists m, Hs. split; [lia|]. split; [intros; lia|]. split; [intros Gn; apply G in Gn; discriminate|]. split; [reflexivity|]. split; [exact DH|exact U].
  - assert (Gm : goes m) by (apply G; reflexivity).
    assert (SH : stretches (shape Hs) sh) by (destruct DH as (q & Eq & Sq & _); injection Eq as <-; exact Sq).
    assert (SS : stretches (shape smm) sh) by (destruct Ds as (q & Eq & Sq & _); injection Eq as <-; exact Sq).
    destruct (step_den Hs smm _ _ SH SS DH Ds) as (y1 & Ey & Sy & Vy). change (arr num) with nums in y1.
    assert (Dy : den sh (value_of y1) (fun i => x i (S m))).
    { exists y1. split; [reflexivity|]. split; [exact Sy|]. intros i I. rewrite Vy, x_next by exact I. reflexivity. }
    assert (Dd0 : den sh (aabs (y1 - prev)%arr) (fun i => change H0 (fun i n => Ok (x i n)) i (S m))).
    { eapply den_ext; [unfold aabs, op1, op2; refine (den_lift1 sh nabs _ _ (den_lift2 sh nsub _ _ _ _ Dy Dp))|].
      intros i I. destruct m; reflexivity. }
    destruct Dd0 as (d1 & Ed & Sd & Vd). change (arr num) with nums in d1.
    destruct (steep_den y1 _ Sy Dy) as (s1 & Es & Ss & Vs). change (arr num) with nums in s1.
    destruct (proj1 (Forall_cons_iff _ _ _) (step_uses Hs smm y1 Ey)) as (UH & U1).
    assert (UK1 : Forall (fun s => stretches s (shape y1)) K) by exact (below _ _ _ UK UH).
    rewrite (value_bind_ok _ _ y1 Ey), (value_bind_ok _ _ d1 Ed), (value_bind_ok _ _ s1 Es).
    destruct (IHfuel (S m) y1 y1 d1 s1) as [(n & r & Ln & Go & Ng & E & Dr & Ur)|(Go & E)].
    + exact Dy.
    + exact Dy.
    + exists s1. split; [reflexivity|]. split; [exact Ss|]. intros i I. rewrite Vs by exact I. reflexivity.
    + exists d1. auto.
    + exact UK1.
    + intros _. apply Forall_app. auto.
    + left. exists n, r. split; [lia|]. split; [|auto]. intros k Hk. destruct (Nat.eq_dec k m) as [->|Ne]; [exact Gm|]. apply Go. lia.
    + right. split; [|exact E]. intros k Hk. destruct (Nat.eq_dec k m) as [->|Ne]; [exact Gm|]. apply Go. lia.
  - left. exists m, Hs. split; [lia|]. split; [intros; lia|]. split; [intros Gn; apply G in Gn; discriminate|]. split; [reflexivity|]. split; [exact DH|exact U].
Qed.
End Loop.

Definition toe_start (T g s0 : num) : num := (s0 * npow T #2 * g / (#2 * npi))%num.
Definition toe_places (Tmm10 h ht Bt Nod m Dn50 rho_rock rho_water : nums) (g c1 c2 c3 c4 c5 c6 c7 s0 : num) (i n : nat) : res num :=
  Ok (toe_iterate (toe_next (CorePhysics.calculate_buoyant_density_Delta (place i rho_rock) (place i rho_water)) (place i Dn50) (place i h) (place i ht) (place i Bt)
        (place i Nod) (place i m) c1 c2 c3 c4 c5 c6 c7) (place i Tmm10) g (toe_start (place i Tmm10) g s0) s0 n).

Theorem C63_etemad2021_Hs : forall fuel Tmm10 h ht Bt Nod m Dn50 rho_rock rho_water g c1 c2 c3 c4 c5 c6 c7 smm10_init max_iter sh,
  common [Tmm10; h; ht; Bt; Nod; m; Dn50; rho_rock; rho_water] sh -> sh <> Some 0 -> 1 <= max_iter ->
  together_or_never sh fuel #0.001%num (fun i => toe_start (place i Tmm10) g smm10_init)
    (ArrEtemadShahidi2021.calculate_significant_wave_height_Hs fuel Tmm10 h ht Bt Nod m Dn50 rho_rock rho_water g c1 c2 c3 c4 c5 c6 c7 smm10_init max_iter)
    (toe_places Tmm10 h ht Bt Nod m Dn50 rho_rock rho_water g c1 c2 c3 c4 c5 c6 c7 smm10_init).
Proof.
  intros * C N M. pose proof C as (Q & X). args_tac.
  name sh (ArrCore.calculate_buoyant_density_Delta rho_rock rho_water) (fun i => CorePhysics.calculate_buoyant_density_Delta (place i rho_rock) (place i rho_water)) [shape rho_rock; shape rho_water] Delta.
  name sh (float smm10_init * apow Tmm10 (lit 2) * float g / (lit 2 * api))%arr (fun i => toe_start (place i Tmm10) g smm10_init) [shape Tmm10] Hi.
  assert (E : value (ArrEtemadShahidi2021.calculate_significant_wave_height_Hs fuel Tmm10 h ht Bt Nod m Dn50 rho_rock rho_water g c1 c2 c3 c4 c5 c6 c7 smm10_init max_iter)
    = value (ArrEtemadShahidi2021.Hs_loop fuel (ArrEtemadShahidi2021.Hs_step Delta Dn50 h ht Bt Nod m c1 c2 c3 c4 c5 c6 c7)
      (fun Hs => ArrCore.calculate_wave_steepness_s Hs Tmm10 (float g)) 0 max_iter Hi Hi (Sc PInf) (Sc smm10_init))).
  { unfold ArrEtemadShahidi2021.calculate_significant_wave_height_Hs.
    etransitivity; [apply (value_bind_ok _ _ Delta EDelta)|]. cbv beta. etransitivity; [apply (value_bind_ok _ _ Hi EHi)|]. reflexivity. }
  unfold together_or_never. rewrite E. clear E.
  destruct (toe_loop sh N (ArrEtemadShahidi2021.Hs_step Delta Dn50 h ht Bt Nod m c1 c2 c3 c4 c5 c6 c7) (fun Hs => ArrCore.calculate_wave_steepness_s Hs Tmm10 (float g))
    (fun i => toe_next (CorePhysics.calculate_buoyant_density_Delta (place i rho_rock) (place i rho_water)) (place i Dn50) (place i h) (place i ht) (place i Bt)
        (place i Nod) (place i m) c1 c2 c3 c4 c5 c6 c7)
    (fun i => place i Tmm10) g [shape Tmm10] [shape h; shape ht; shape Bt; shape Nod; shape m; shape Dn50; shape rho_rock; shape rho_water])
    with (H0 := fun i => toe_start (place i Tmm10) g smm10_init) (s0 := smm10_init) (max_iter := max_iter) (fuel := fuel) (m := 0) (Hs := Hi) (prev := Hi) (diff := @Sc num PInf) (smm := @Sc num smm10_init)
    as [(n & r & Ln & Go & Ng & E & Dr & Ur)|(Go & E)].
  - intros a s v w Sa Ss Da Ds. unfold ArrEtemadShahidi2021.Hs_step, float. autounfold with arrays. eapply den_ext; [den_tac|intros; reflexivity].
  - intros a v Sa Da. unfold float. autounfold with arrays. eapply den_ext; [den_tac|intros; reflexivity].
  - intros a s. unfold ArrEtemadShahidi2021.Hs_step, float. autounfold with arrays. eapply uses_incl; [uses_tac|incl_tac].
  - exact M.
  - exact DHi.
  - exact DHi.
  - apply den_const.
  - apply den_const.
  - exact UHi.
  - lia.
  - left. assert (N1 : 1 <= n).
    { destruct n; [|lia]. exfalso. apply Ng. split; [intros; reflexivity|]. exists 0. split; [destruct sh as [[|k]|]; cbn; congruence || lia || exact Logic.I|reflexivity]. }
    exists n, r. split; [lia|]. split; [intros k Hk; apply Go; lia|]. split; [exact Ng|]. split; [exact E|].
    destruct Dr as (q & Eq & Sq & Vq). injection Eq as <-. split.
    + apply stretches_antisym; [exact Sq|]. destruct X as [->|X]; [apply stretches_none|].
      specialize (Ur N1). rewrite Forall_forall in Ur. apply Exists_exists in X as (a & Ia & <-). apply Ur.
      change (In (shape a) (map shape [Tmm10; h; ht; Bt; Nod; m; Dn50; rho_rock; rho_water])). apply in_map. exact Ia.
    + intros i I. unfold toe_places, place. rewrite Vq by exact I. reflexivity.
  - right. split; [|exact E]. intros k Hk. apply Go. lia.
Qed.

(** For scalars it is the scalar function. *)
Lemma loop_scalars fuel step steep Delta Dn50 h ht Bt Nod m T g c1 c2 c3 c4 c5 c6 c7 n_iter max_iter :
  (forall a s, step (Sc a) (Sc s) = value_of (Sc (toe_next Delta Dn50 h ht Bt Nod m c1 c2 c3 c4 c5 c6 c7 a s))) ->
  (forall a, steep (Sc a) = value_of (Sc (CorePhysics.calculate_wave_steepness_s a T g))) ->
  forall H p d s, ArrEtemadShahidi2021.Hs_loop fuel step steep n_iter max_iter (Sc H) (Sc p) (Sc d) (Sc s)
    = ([], match EtemadShahidi2021.Hs_loop fuel Delta Dn50 h ht Bt Nod m T g c1 c2 c3 c4 c5 c6 c7 n_iter max_iter H p d s with Ok r => Ok (Sc r) | Err e => Err e end).
Proof.
  intros S1 S2. induction fuel; intros H p d s; cbn [ArrEtemadShahidi2021.Hs_loop EtemadShahidi2021.Hs_loop];
  change (greatest (Sc d)) with (ret d); rewrite bind_ret_l; destruct (ngt d (Fin 1e-3) && (n_iter <? max_iter))%bool; try reflexivity.
  rewrite S1. unfold value_of at 1. rewrite bind_ret_l.
  change (aabs (value_of (Sc (toe_next Delta Dn50 h ht Bt Nod m c1 c2 c3 c4 c5 c6 c7 H s)) - value_of (Sc p))%arr) with (value_of (Sc (nabs (toe_next Delta Dn50 h ht Bt Nod m c1 c2 c3 c4 c5 c6 c7 H s - p)%num))).
  unfold value_of at 1. rewrite bind_ret_l, S2. unfold value_of at 1. rewrite bind_ret_l. apply IHfuel.
Qed.
Theorem C63_etemad2021_Hs_scalars : forall fuel Tmm10 h ht Bt Nod m Dn50 rho_rock rho_water g c1 c2 c3 c4 c5 c6 c7 smm10_init max_iter,
  value (ArrEtemadShahidi2021.calculate_significant_wave_height_Hs fuel (Sc Tmm10) (Sc h) (Sc ht) (Sc Bt) (Sc Nod) (Sc m) (Sc Dn50) (Sc rho_rock) (Sc rho_water)
    g c1 c2 c3 c4 c5 c6 c7 smm10_init max_iter)
  = match value (EtemadShahidi2021.calculate_significant_wave_height_Hs fuel Tmm10 h ht Bt Nod m Dn50 rho_rock rho_water g c1 c2 c3 c4 c5 c6 c7 smm10_init max_iter) with
    | Ok r => Ok (Sc r) | Err e => Err e end.
Proof.
  intros. unfold ArrEtemadShahidi2021.calculate_significant_wave_height_Hs.
  change (ArrCore.calculate_buoyant_density_Delta (Sc rho_rock) (Sc rho_water)) with (ret (A := nums) (Sc (CorePhysics.calculate_buoyant_density_Delta rho_rock rho_water))).
  rewrite bind_ret_l.
  change ((float smm10_init * apow (value_of (Sc Tmm10)) (lit 2) * float g / (lit 2 * api))%arr) with (ret (A := nums) (Sc (toe_start Tmm10 g smm10_init))).
  rewrite bind_ret_l, (loop_scalars fuel _ _ (CorePhysics.calculate_buoyant_density_Delta rho_rock rho_water) Dn50 h ht Bt Nod m Tmm10 g c1 c2 c3 c4 c5 c6 c7).
  - reflexivity.
  - intros. reflexivity.
  - intros. reflexivity.
Qed.

(** One missing damage number: all wave heights are those after a single iteration. *)
Theorem C63_etemad2021_Hs_missing_damage : forall fuel Tmm10 h ht Bt Nod m Dn50 rho_rock rho_water g c1 c2 c3 c4 c5 c6 c7 smm10_init max_iter sh i0,
  common [Tmm10; h; ht; Bt; Nod; m; Dn50; rho_rock; rho_water] sh -> sh <> Some 0 -> 1 <= max_iter -> 1 <= fuel ->
  inside sh i0 -> place i0 Nod = NaN -> (0 < c5)%R ->
  exists r, value (ArrEtemadShahidi2021.calculate_significant_wave_height_Hs fuel Tmm10 h ht Bt Nod m Dn50 rho_rock rho_water g c1 c2 c3 c4 (Fin c5) c6 c7 smm10_init max_iter) = Ok r
  /\ shape r = sh
  /\ forall i, inside sh i -> toe_places Tmm10 h ht Bt Nod m Dn50 rho_rock rho_water g c1 c2 c3 c4 (Fin c5) c6 c7 smm10_init i 1 = Ok (place i r).
Proof.
  intros * C N M Fu I Z P.
  assert (Nan : isnan (change (fun i => toe_start (place i Tmm10) g smm10_init) (toe_places Tmm10 h ht Bt Nod m Dn50 rho_rock rho_water g c1 c2 c3 c4 (Fin c5) c6 c7 smm10_init) i0 1) = true).
  { cbn [change apart toe_places toe_iterate]. unfold toe_next. rewrite Z, (npow_nan_l c5) by lra.
    rewrite nmul_nan_r, !nmul_nan_l, nadd_nan_r, nmul_nan_r, nsub_nan_l. reflexivity. }
  assert (G1 : ~ goes_on sh #0.001%num (fun i => toe_start (place i Tmm10) g smm10_init) (toe_places Tmm10 h ht Bt Nod m Dn50 rho_rock rho_water g c1 c2 c3 c4 (Fin c5) c6 c7 smm10_init) 1).
  { intros (F & _). rewrite F in Nan by exact I. discriminate. }
  destruct (C63_etemad2021_Hs fuel Tmm10 h ht Bt Nod m Dn50 rho_rock rho_water g c1 c2 c3 c4 (Fin c5) c6 c7 smm10_init max_iter sh C N M) as [(n & r & Ln & Go & Ng & E & S & Pl)|(Go & _)].
  - exists r. split; [exact E|]. split; [exact S|]. destruct n as [|[|n]]; [lia|exact Pl|]. exfalso. apply G1. apply Go. lia.
  - exfalso. apply G1. apply Go. exact Fu.
Qed.

(** Two places, the damage number of the second one is missing *)
Example C63_etemad2021_example : exists r,
  value (ArrEtemadShahidi2021.calculate_significant_wave_height_Hs 5 (lit 9) (lit 8) (lit 5) (lit 3) (Ar [Fin 1; NaN]) (lit 0.03) (lit 0.6) (lit 2650) (lit 1025) (Fin 9.81)
    (Fin 1.2) (Fin 11.2) (Fin 1.75) (Fin (1/6)) (Fin 0.4) (Fin (-0.1)) (Fin 3.7) (Fin 0.03) 1000) = Ok (Ar r) /\ List.length r = 2.
Proof.
  destruct (C63_etemad2021_Hs_missing_damage 5 (lit 9) (lit 8) (lit 5) (lit 3) (Ar [Fin 1; NaN]) (lit 0.03) (lit 0.6) (lit 2650) (lit 1025) (Fin 9.81)
    (Fin 1.2) (Fin 11.2) (Fin 1.75) (Fin (1/6)) 0.4 (Fin (-0.1)) (Fin 3.7) (Fin 0.03) 1000 (Some 2) 1) as (r & E & S & _).
  - split; [apply shapes_ok; reflexivity|right]. do 4 apply Exists_cons_tl. apply Exists_cons_hd. reflexivity.
  - discriminate.
  - lia.
  - lia.
  - cbn. lia.
  - reflexivity.
  - lra.
  - destruct r as [|r]; [discriminate|]. exists r. split; [exact E|]. injection S as S. exact S.
Qed.
