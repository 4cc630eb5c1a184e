(** Property C63 for the rock stability formulas of Jumelet et al. (2024) and
    Etemad-Shahidi et al. (2020). *)
From Coq Require Import Reals Lra Lia List Bool Arith String.
From Verif.Lib Require Import Num Monad Arr ArrLoop RTac NTac.
From Verif.Spec Require Import Waves Arrays ArrayLoops.
From Verif.Model Require Import CoreUtility.
From Verif.Model Require CorePhysics ArrCore EtemadShahidi2020 ArrEtemadShahidi2020 Jumelet2024 ArrJumelet2024.
From Verif.Proofs Require Import Core CheckTac Arrays ArrayLoops.
Import ListNotations.
Open Scope nat_scope.

(** ** Jumelet et al. *)

(** The wave height of the initial steepness *)
Definition initial_height (T g s : num) : num := (s * npow T #2 * g / (#2 * npi))%num.

Lemma jumelet_until1 step T cot tol n : forall p d ksi cur,
  Jumelet2024.wave_height_loop step T cot tol n p d ksi cur
  = until1 step (fun H => CorePhysics.calculate_Iribarren_number_ksi H T cot) tol n ksi p d cur.
Proof.
  induction n; intros p d ksi cur; cbn [until1 Jumelet2024.wave_height_loop]; destruct (ngt d tol); try reflexivity.
  cbv zeta. apply IHn.
Qed.

Lemma jumelet_wave_height : forall Tmm10 N_waves cot_alpha rho Sd Dn50 M50 d sizes c_pl g s0 max_iter tol sh,
  stone_size sh Dn50 M50 rho d sizes ->
  common (Tmm10 :: N_waves :: cot_alpha :: rho :: Sd :: sizes) sh -> sh <> Some 0 -> 1 <= max_iter ->
  together sh max_iter (Fin tol) (fun i => initial_height (place i Tmm10) g s0)
    (ArrJumelet2024.calculate_significant_wave_height_Hs Tmm10 N_waves cot_alpha rho Sd Dn50 M50 c_pl g s0 max_iter (Fin tol))
    (fun i n => value (Jumelet2024.calculate_significant_wave_height_Hs (place i Tmm10) (place i N_waves) (place i cot_alpha) (place i rho) (place i Sd)
       (place i Dn50) (place i M50) c_pl g s0 n no_tolerance)).
Proof.
  intros * (Ed & Id & Sz & Ud) C N M. pose proof C as (F & _).
  do 5 (apply Forall_cons_iff in F as (? & F)). clear F.
  name sh (float s0 * apow Tmm10 (lit 2) * float g / (lit 2 * api))%arr (fun i => initial_height (place i Tmm10) g s0) (@nil (option nat)) Hi.
  name sh (ArrCore.calculate_Iribarren_number_ksi Hi Tmm10 cot_alpha) (fun i => CorePhysics.calculate_Iribarren_number_ksi (initial_height (place i Tmm10) g s0) (place i Tmm10) (place i cot_alpha)) (@nil (option nat)) ksi.
  name sh (ArrCore.calculate_buoyant_density_Delta rho (lit 1025)) (fun i => CorePhysics.calculate_buoyant_density_Delta (place i rho) (Fin 1025)) [shape rho] Delta.
  eapply together_loop with
    (next := ArrJumelet2024.wave_height_step Tmm10 N_waves cot_alpha Sd Delta d (float c_pl) (float g))
    (feed := fun H => ArrCore.calculate_Iribarren_number_ksi H Tmm10 cot_alpha)
    (L := shape Tmm10 :: shape N_waves :: shape cot_alpha :: shape rho :: shape Sd :: map shape sizes)
    (nx := fun i k => npow (c_pl * npow (place i Sd) #0.2 * npow (nround (Jumelet2024.calculate_fraction_plunging_waves_Fp k * place i N_waves)) (- #0.1) * place i cot_alpha
       * nsqrt ((#2 * npi / g) * npow (place i Tmm10) (- #2)) * CorePhysics.calculate_buoyant_density_Delta (place i rho) #1025 * place i d)%num #2)
    (fd := fun i H => CorePhysics.calculate_Iribarren_number_ksi H (place i Tmm10) (place i cot_alpha))
    (d0 := fun _ => PInf) (state := ksi) (prev := Hi) (diff := Sc PInf) (cur := None); try eassumption.
  - intros a v Sa Da. unfold ArrJumelet2024.wave_height_step, ArrJumelet2024.calculate_fraction_plunging_waves_Fp, float. autounfold with arrays. eapply den_ext; [den_tac|intros; reflexivity].
  - intros a v Sa Da. autounfold with arrays. eapply den_ext; [den_tac|intros; reflexivity].
  - intros a. unfold ArrJumelet2024.wave_height_step, ArrJumelet2024.calculate_fraction_plunging_waves_Fp, float. autounfold with arrays. eapply uses_incl; [uses_tac|].
    intros s I. cbn [In app] in *. rewrite !in_app_iff. cbn [In]. intuition auto.
  - reflexivity.
  - intros i n I Ln Hn. unfold Jumelet2024.calculate_significant_wave_height_Hs, Jumelet2024.check_validity_range. cbv zeta.
    rewrite (Id i I), bind_ret_l, jumelet_until1. unfold no_tolerance.
    match goal with |- context [until1 ?a ?b _ ?n ?s ?p ?d ?c] => pose proof (until1_runs a b s p d n c eq_refl Hn) as E end.
    rewrite E. destruct n as [|n]; [lia|]. rewrite bind_ret_l. mchecks.
    replace (S n - 1) with n by lia. reflexivity.
  - reflexivity.
  - intros s I. exact I.
  - apply den_const.
  - intros r E Sr. unfold ArrJumelet2024.calculate_significant_wave_height_Hs.
    etransitivity; [apply (value_bind_ok _ _ d Ed)|]. cbv beta.
    etransitivity; [apply (value_bind_ok _ _ Hi EHi)|]. cbv beta.
    etransitivity; [apply (value_bind_ok _ _ ksi Eksi)|]. cbv beta.
    etransitivity; [apply (value_bind_ok _ _ Delta EDelta)|]. cbv beta.
    etransitivity; [apply (value_bind_ok _ _ (Some r) E)|]. cbv beta. cbn [bound]. rewrite bind_ret_l.
    assert (W : widens sh sh) by apply stretches_refl.
    rewrite value_bind. unfold ArrJumelet2024.check_validity_range. autounfold with arrays.
    match goal with |- context [value ?m] => assert (Z : value m = Ok tt) by runs_tac; rewrite Z end. reflexivity.
Qed.

Theorem C63_jumelet_Hs : forall Tmm10 N_waves cot_alpha rho_armour Sd Dn50 M50 c_pl g smm10_init max_iter tol sh, filled Dn50 ->
  common [Tmm10; N_waves; cot_alpha; rho_armour; Sd; Dn50] sh -> sh <> Some 0 -> 1 <= max_iter ->
  together sh max_iter (Fin tol) (fun i => initial_height (place i Tmm10) g smm10_init)
    (ArrJumelet2024.calculate_significant_wave_height_Hs Tmm10 N_waves cot_alpha rho_armour Sd Dn50 M50 c_pl g smm10_init max_iter (Fin tol))
    (fun i n => value (Jumelet2024.calculate_significant_wave_height_Hs (place i Tmm10) (place i N_waves) (place i cot_alpha) (place i rho_armour) (place i Sd)
       (place i Dn50) (place i M50) c_pl g smm10_init n no_tolerance)).
Proof.
  intros * F C N M. pose proof C as (S & _). args_tac.
  apply (jumelet_wave_height Tmm10 N_waves cot_alpha rho_armour Sd Dn50 M50 Dn50 [Dn50]); auto. apply stone_size_given; assumption.
Qed.
Theorem C63_jumelet_Hs_from_M50 : forall Tmm10 N_waves cot_alpha rho_armour Sd Dn50 M50 c_pl g smm10_init max_iter tol sh,
  missing Dn50 -> filled M50 -> filled rho_armour ->
  common [Tmm10; N_waves; cot_alpha; rho_armour; Sd; M50] sh -> sh <> Some 0 -> 1 <= max_iter ->
  together sh max_iter (Fin tol) (fun i => initial_height (place i Tmm10) g smm10_init)
    (ArrJumelet2024.calculate_significant_wave_height_Hs Tmm10 N_waves cot_alpha rho_armour Sd Dn50 M50 c_pl g smm10_init max_iter (Fin tol))
    (fun i n => value (Jumelet2024.calculate_significant_wave_height_Hs (place i Tmm10) (place i N_waves) (place i cot_alpha) (place i rho_armour) (place i Sd)
       (place i Dn50) (place i M50) c_pl g smm10_init n no_tolerance)).
Proof.
  intros * Fd Fm Fr C N M. pose proof C as (S & _). args_tac.
  destruct (stone_size_missing sh Dn50 M50 rho_armour) as (d & Hd); try assumption.
  apply (jumelet_wave_height Tmm10 N_waves cot_alpha rho_armour Sd Dn50 M50 d [M50; rho_armour]); auto.
  destruct C as (F & X). split; [repeat (constructor; [assumption|]); constructor|]. destruct X as [X|X]; [left; exact X|right].
  rewrite !Exists_cons in X. rewrite !Exists_cons. tauto.
Qed.

(** One missing damage number: all wave heights are those after a single iteration. *)
Theorem C63_jumelet_Hs_missing_damage : forall Tmm10 N_waves cot_alpha rho_armour Sd Dn50 M50 c_pl g smm10_init max_iter tol sh i0, filled Dn50 ->
  common [Tmm10; N_waves; cot_alpha; rho_armour; Sd; Dn50] sh -> 1 <= max_iter -> sh <> Some 0 -> inside sh i0 -> place i0 Sd = NaN ->
  exists r, value (ArrJumelet2024.calculate_significant_wave_height_Hs Tmm10 N_waves cot_alpha rho_armour Sd Dn50 M50 c_pl g smm10_init max_iter (Fin tol)) = Ok r /\ shape r = sh
  /\ forall i, inside sh i ->
     value (Jumelet2024.calculate_significant_wave_height_Hs (place i Tmm10) (place i N_waves) (place i cot_alpha) (place i rho_armour) (place i Sd)
       (place i Dn50) (place i M50) c_pl g smm10_init 1 no_tolerance) = Ok (place i r).
Proof.
  intros * Fd C M N I V. pose proof (C63_jumelet_Hs _ _ _ _ _ _ M50 c_pl g smm10_init _ tol _ Fd C N M) as T. apply (together_nan _ _ _ _ _ _ i0 T I).
  pose proof C as (S & _). args_tac.
  cbn [change]. unfold Jumelet2024.calculate_significant_wave_height_Hs, Jumelet2024.check_validity_range. cbv zeta.
  rewrite (proj1 (proj2 (stone_size_given sh Dn50 M50 rho_armour Fd ltac:(assumption))) i0 I), bind_ret_l.
  cbn [Jumelet2024.wave_height_loop]. change (ngt PInf no_tolerance) with true. cbv iota zeta.
  rewrite V. rewrite (npow_nan_l 0.2) by lra. rewrite nmul_nan_r, !nmul_nan_l, (npow_nan_l 2) by lra.
  rewrite nsub_nan_l, NTac.nabs_nan, ngt_nan_l. rewrite bind_ret_l. mchecks. reflexivity.
Qed.

(** ** Etemad-Shahidi et al. *)

(** The diameter after n iterations of one of the two relations at one place; [c] and
    [e] are its coefficient and the exponent of the Iribarren number. *)
Definition etemad_next (c e H Delta N Sd ksi infl Cp : num) : num :=
  ((H / Delta) * (#1 / c) * (#1 / Cp) * npow N (#1 / #10) * npow Sd (- #1 / #6) * npow ksi e * npow infl (- #1))%num.
Fixpoint etemad_iterate (next : num -> num) (core Cp_init : num) (n : nat) : num :=
  match n with
  | O => NaN
  | S O => next Cp_init
  | S n' => next (EtemadShahidi2020.calculate_permeability_coefficient_Cp (etemad_iterate next core Cp_init n') core)
  end.
Lemma etemad_ys next core Cp0 m :
  ys next (fun D => EtemadShahidi2020.calculate_permeability_coefficient_Cp D core) Cp0 m = etemad_iterate next core Cp0 (S m).
Proof. induction m; [reflexivity|]. cbn [ys]. rewrite IHm. reflexivity. Qed.

Lemma etemad_until1 formula core tol n : forall p d Cp cur,
  EtemadShahidi2020.diameter_loop formula core tol n p d Cp cur
  = until1 formula (fun D => EtemadShahidi2020.calculate_permeability_coefficient_Cp D core) tol n Cp p d cur.
Proof.
  induction n; intros p d ksi cur; cbn [until1 EtemadShahidi2020.diameter_loop]; destruct (ngt d tol); try reflexivity.
  cbv zeta. apply IHn.
Qed.
Lemma until1_bound next feed tol n : forall s p d cur, cur <> None -> until1 next feed tol n s p d cur <> None.
Proof. induction n; intros s p d cur H; cbn [until1]; destruct (ngt d tol); auto. cbv zeta. apply IHn. discriminate. Qed.
Lemma until1_some next feed tol n s p : ngt PInf tol = true -> 1 <= n -> exists y, until1 next feed tol n s p PInf None = Some y.
Proof.
  intros T L. destruct n; [lia|]. cbn [until1]. rewrite T. cbv zeta.
  destruct (until1 _ _ _ _ _ _ _ _) as [y|] eqn:E; [eauto|]. exfalso. revert E. apply until1_bound. discriminate.
Qed.

(** [w] is the reduction for depth-limited waves; it depends on the arguments [args]. *)
Definition reduction (sh : option nat) (use : bool) (m w : nums) (args : list nums) : Prop :=
  value (ArrEtemadShahidi2020.influence_depth use m) = Ok w
  /\ (forall i, inside sh i -> EtemadShahidi2020.influence_depth use (place i m) = ret (place i w))
  /\ stretches (shape w) sh /\ Forall (fun s => stretches s (shape w)) (map shape args).

Section Etemad.
Variables (Hs Tmm10 N_waves cot_alpha rho Sd Dn50_core M50_core rho_core m : nums) (use : bool) (Cp_init : num).
(** The number the relation is applied to at place i *)
Definition reduction_at (i : nat) : num := if use then (#1 - #3 * place i m)%num else (#1)%num.
Definition core_at (i : nat) : num :=
  if isnan (place i Dn50_core) then CorePhysics.calculate_Dn50_from_M50 (place i M50_core) (place i rho_core) else place i Dn50_core.
Definition ksi_at (i : nat) : num := CorePhysics.calculate_Iribarren_number_ksi (place i Hs) (place i Tmm10) (place i cot_alpha).
Definition etemad_at (c e : num) (i n : nat) : num :=
  etemad_iterate (etemad_next c e (place i Hs) (CorePhysics.calculate_buoyant_density_Delta (place i rho) #1025) (place i N_waves) (place i Sd) (ksi_at i) (reduction_at i))
    (core_at i) Cp_init n.
Definition surging_at := etemad_at #3.9 (#1 / #3)%num.
Definition plunging_at := etemad_at #4.5 (#7 / #12)%num.

(** The two relations are iterated one after the other, each for all places together;
    each place then takes its diameter from the relation that holds for it. *)
Definition together_in_two (sh : option nat) (max_iter : nat) (tolerance : num) (others : list nums) : Prop :=
  exists n_s n_pl r,
    settles sh max_iter tolerance (fun _ => PInf) (fun i n => Ok (surging_at i n)) n_s
  /\ settles sh max_iter tolerance (fun _ => PInf) (fun i n => Ok (plunging_at i n)) n_pl
  /\ value (ArrEtemadShahidi2020.calculate_nominal_rock_diameter_Dn50 Hs Tmm10 N_waves cot_alpha rho Sd Dn50_core M50_core rho_core m use Cp_init max_iter tolerance) = Ok r
  /\ stretches (shape r) sh /\ (common others sh -> shape r = sh)
  /\ forall i, inside sh i ->
     value (EtemadShahidi2020.calculate_nominal_rock_diameter_Dn50 (place i Hs) (place i Tmm10) (place i N_waves) (place i cot_alpha) (place i rho) (place i Sd)
        (place i Dn50_core) (place i M50_core) (place i rho_core) (place i m) use Cp_init (if nge (ksi_at i) #1.8 then n_s else n_pl) no_tolerance)
     = Ok (place i r)
     /\ place i r = if nge (ksi_at i) #1.8 then surging_at i n_s else plunging_at i n_pl.

Lemma etemad_diameter w ms d sizes max_iter tol sh :
  reduction sh use m w ms -> (forall i, inside sh i -> place i w = reduction_at i) ->
  stone_size sh Dn50_core M50_core rho_core d sizes -> (forall i, inside sh i -> place i d = core_at i) ->
  Forall (fun a => stretches (shape a) sh) (Hs :: Tmm10 :: N_waves :: cot_alpha :: rho :: Sd :: sizes ++ ms) -> sh <> Some 0 -> 1 <= max_iter ->
  together_in_two sh max_iter (Fin tol) (Hs :: Tmm10 :: N_waves :: cot_alpha :: rho :: Sd :: ms).
Proof.
  intros (Ew & Iw & Sw & Uw) Vw (Ed & Id & Sz & Ud) Vd F N M.
  do 6 (apply Forall_cons_iff in F as (? & F)). clear F.
  name sh (ArrCore.calculate_Iribarren_number_ksi Hs Tmm10 cot_alpha) ksi_at [shape Hs; shape Tmm10; shape cot_alpha] ksi.
  name sh (ArrCore.calculate_buoyant_density_Delta rho (lit 1025)) (fun i => CorePhysics.calculate_buoyant_density_Delta (place i rho) (Fin 1025)) [shape rho] Delta.
  set (L := shape Hs :: shape rho :: shape N_waves :: shape Sd :: shape Tmm10 :: shape cot_alpha :: map shape ms).
  set (feed := fun D => ArrEtemadShahidi2020.calculate_permeability_coefficient_Cp D d).
  set (fd := fun i D => EtemadShahidi2020.calculate_permeability_coefficient_Cp D (core_at i)).
  set (nx := fun (c e : num) i Cp => etemad_next c e (place i Hs) (CorePhysics.calculate_buoyant_density_Delta (place i rho) #1025) (place i N_waves) (place i Sd) (ksi_at i) (reduction_at i) Cp).
  assert (Df : forall (a : nums) v, stretches (shape a) sh -> den sh (value_of a) v -> den sh (feed a) (fun i => fd i (v i))).
  { intros a v Sa Da. unfold feed, ArrEtemadShahidi2020.calculate_permeability_coefficient_Cp. autounfold with arrays.
    eapply den_ext; [den_tac|]. intros i I. cbv beta. rewrite Vd by exact I. reflexivity. }
  assert (Ds : forall (a : nums) v, stretches (shape a) sh -> den sh (value_of a) v ->
     den sh (ArrEtemadShahidi2020.formula_s Hs Delta N_waves Sd ksi w a) (fun i => nx (#3.9)%num (#1 / #3)%num i (v i))).
  { intros a v Sa Da. unfold ArrEtemadShahidi2020.formula_s. autounfold with arrays.
    eapply den_ext; [den_tac|]. intros i I. cbv beta. rewrite Vw by exact I. reflexivity. }
  assert (Dp : forall (a : nums) v, stretches (shape a) sh -> den sh (value_of a) v ->
     den sh (ArrEtemadShahidi2020.formula_pl Hs Delta N_waves Sd ksi w a) (fun i => nx (#4.5)%num (#7 / #12)%num i (v i))).
  { intros a v Sa Da. unfold ArrEtemadShahidi2020.formula_pl. autounfold with arrays.
    eapply den_ext; [den_tac|]. intros i I. cbv beta. rewrite Vw by exact I. reflexivity. }
  assert (Us : forall a, uses (ArrEtemadShahidi2020.formula_s Hs Delta N_waves Sd ksi w a) L).
  { intros a. unfold ArrEtemadShahidi2020.formula_s. autounfold with arrays. eapply uses_incl; [uses_tac|].
    intros s I. cbn [In app L] in *. rewrite !in_app_iff. cbn [In]. intuition auto. }
  assert (Up : forall a, uses (ArrEtemadShahidi2020.formula_pl Hs Delta N_waves Sd ksi w a) L).
  { intros a. unfold ArrEtemadShahidi2020.formula_pl. autounfold with arrays. eapply uses_incl; [uses_tac|].
    intros s I. cbn [In app L] in *. rewrite !in_app_iff. cbn [In]. intuition auto. }
  assert (DC : den sh (value_of (float Cp_init)) (fun _ => Cp_init)) by apply den_const.
  assert (DI : den sh (value_of (Sc PInf)) (fun _ => PInf)) by apply den_const.
  assert (Sc1 : forall c e, forall i n, inside sh i -> 1 <= n -> (forall k, k < n -> isnan (df (nx c e i) (fd i) Cp_init PInf PInf k) = false) ->
     Ok (etemad_at c e i n) = Ok (ys (nx c e i) (fd i) Cp_init (n - 1))).
  { intros c e i n I Ln _. destruct n; [lia|]. replace (S n - 1) with n by lia. unfold nx, fd. rewrite etemad_ys. reflexivity. }
  edestruct (fun s2 => loop_settles sh N _ feed _ fd L Ds Df Us (Fin tol) (fun _ => Cp_init) (fun _ => PInf) (fun _ => PInf) (fun i n => Ok (surging_at i n)) s2 (Sc1 _ _)
    max_iter (float Cp_init) (Sc PInf) (Sc PInf) None M eq_refl DC DI DI) as (n_s & r_s & St_s & E_s & D_s & U_s & N_s); [reflexivity|].
  edestruct (fun s2 => loop_settles sh N _ feed _ fd L Dp Df Up (Fin tol) (fun _ => Cp_init) (fun _ => PInf) (fun _ => PInf) (fun i n => Ok (plunging_at i n)) s2 (Sc1 _ _)
    max_iter (float Cp_init) (Sc PInf) (Sc PInf) None M eq_refl DC DI DI) as (n_p & r_p & St_p & E_p & D_p & U_p & N_p); [reflexivity|].
  assert (S_s : stretches (shape r_s) sh) by (destruct D_s as (q & Eq & Sq & _); injection Eq as <-; exact Sq).
  assert (S_p : stretches (shape r_p) sh) by (destruct D_p as (q & Eq & Sq & _); injection Eq as <-; exact Sq).
  destruct (den_name sh (where_ (cmp nge ksi (lit 1.8)) r_s r_p)
    (fun i => if nge (ksi_at i) (#1.8)%num then surging_at i n_s else plunging_at i n_p) L) as (r & Er & Sr & Dr & Ur).
  { unfold where_, cmp. eapply den_ext; [den_tac|]. intros i I. cbv beta. cbn [fst snd].
    destruct (nge (ksi_at i) (#1.8)%num).
    - pose proof (Sc1 (#3.9)%num (#1 / #3)%num i n_s I (proj1 (proj1 St_s)) (fun k K => N_s i k I K)) as E. injection E as E. symmetry. exact E.
    - pose proof (Sc1 (#4.5)%num (#7 / #12)%num i n_p I (proj1 (proj1 St_p)) (fun k K => N_p i k I K)) as E. injection E as E. symmetry. exact E. }
  { unfold where_, cmp. eapply uses_incl; [uses_tac|]. intros s I. rewrite !in_app_iff. tauto. }
  exists n_s, n_p, r. split; [exact St_s|]. split; [exact St_p|]. split; [|split; [exact Sr|split]].
  - unfold ArrEtemadShahidi2020.calculate_nominal_rock_diameter_Dn50.
    etransitivity; [apply (value_bind_ok _ _ w Ew)|]. cbv beta.
    etransitivity; [apply (value_bind_ok _ _ d Ed)|]. cbv beta.
    etransitivity; [apply (value_bind_ok _ _ ksi Eksi)|]. cbv beta.
    etransitivity; [apply (value_bind_ok _ _ Delta EDelta)|]. cbv beta.
    etransitivity; [apply (value_bind_ok _ _ (Some r_s) E_s)|]. cbv beta.
    etransitivity; [apply (value_bind_ok _ _ (Some r_p) E_p)|]. cbv beta. cbn [bound]. rewrite !bind_ret_l.
    etransitivity; [apply (value_bind_ok _ _ r Er)|]. cbv beta.
    assert (W : widens sh sh) by apply stretches_refl.
    rewrite value_bind. unfold ArrEtemadShahidi2020.check_validity_range. autounfold with arrays.
    match goal with |- context [value ?m] => assert (Z : value m = Ok tt) by runs_tac; rewrite Z end. reflexivity.
  - intros (_ & X). apply stretches_antisym; [exact Sr|]. destruct X as [->|X]; [apply stretches_none|].
    apply Exists_exists in X as (a & I & <-). rewrite Forall_forall in Ur. apply Ur. unfold L.
    cbn [In map] in I |- *. intuition (subst; auto). do 6 right. apply in_map. assumption.
  - intros i I. assert (V : place i r = if nge (ksi_at i) (#1.8)%num then surging_at i n_s else plunging_at i n_p) by exact (place_den _ _ _ _ Dr I).
    split; [|exact V]. rewrite V. clear V.
    unfold EtemadShahidi2020.calculate_nominal_rock_diameter_Dn50, EtemadShahidi2020.check_validity_range. cbv zeta.
    rewrite (Iw i I), bind_ret_l, (Id i I), bind_ret_l, !etemad_until1. rewrite (Vw i I), (Vd i I).
    fold (ksi_at i). destruct (nge (ksi_at i) (#1.8)%num) eqn:K.
    + assert (Ln : 1 <= n_s) by apply St_s.
      match goal with |- context [until1 ?a ?b ?t n_s ?s ?p ?d ?c] =>
        assert (E : until1 a b t n_s s p d c = Some (surging_at i n_s)) end.
      { etransitivity; [exact (until1_runs (nx (#3.9)%num (#1 / #3)%num i) (fd i) Cp_init PInf PInf n_s None eq_refl (fun k => N_s i k I))|].
        destruct n_s; [lia|]. f_equal. unfold nx, fd. rewrite etemad_ys. reflexivity. }
      rewrite E. cbn [EtemadShahidi2020.bound]. rewrite bind_ret_l.
      match goal with |- context [until1 ?a ?b ?t n_s ?s ?p ?d ?c] =>
        destruct (until1_some a b t n_s s p eq_refl Ln) as (y & ->) end.
      cbn [EtemadShahidi2020.bound]. rewrite bind_ret_l. mchecks.
      repeat (match goal with |- context [value (when ?b ?m)] => rewrite (value_when b m) by (mchecks; reflexivity) end; mchecks). reflexivity.
    + assert (Ln : 1 <= n_p) by apply St_p.
      match goal with |- context [until1 ?a ?b ?t n_p ?s ?p ?d ?c] =>
        destruct (until1_some a b t n_p s p eq_refl Ln) as (y & ->) end.
      cbn [EtemadShahidi2020.bound]. rewrite bind_ret_l.
      match goal with |- context [until1 ?a ?b ?t n_p ?s ?p ?d ?c] =>
        assert (E : until1 a b t n_p s p d c = Some (plunging_at i n_p)) end.
      { etransitivity; [exact (until1_runs (nx (#4.5)%num (#7 / #12)%num i) (fd i) Cp_init PInf PInf n_p None eq_refl (fun k => N_p i k I))|].
        destruct n_p; [lia|]. f_equal. unfold nx, fd. rewrite etemad_ys. reflexivity. }
      rewrite E. cbn [EtemadShahidi2020.bound]. rewrite bind_ret_l. mchecks.
      repeat (match goal with |- context [value (when ?b ?m)] => rewrite (value_when b m) by (mchecks; reflexivity) end; mchecks). reflexivity.
Qed.
End Etemad.

Ltac all_stretch := try (cbn [app]; repeat (apply Forall_cons; [assumption|]); apply Forall_nil).
Lemma reduction_none sh m : reduction sh false m (lit 1) [].
Proof. split; [reflexivity|]. split; [intros; reflexivity|]. split; [apply stretches_none|constructor]. Qed.
Lemma reduction_given sh m : filled m -> stretches (shape m) sh ->
  exists w, reduction sh true m w [m] /\ forall i, inside sh i -> place i w = (#1 - #3 * place i m)%num.
Proof.
  intros F Sm.
  destruct (den_name sh (lit 1 - lit 3 * m)%arr (fun i => (#1 - #3 * place i m)%num) (map shape [m])) as (w & E & S & D & U).
  - eapply den_ext; [den_tac|intros; reflexivity].
  - eapply uses_incl; [uses_tac|incl_tac].
  - exists w. split; [|intros i I; exact (place_den _ _ _ _ D I)]. split; [|split; [|split; [exact S|exact U]]].
    + apply filled_given in F. unfold ArrCore.given in F. unfold ArrEtemadShahidi2020.influence_depth.
      destruct (any_nan m); [discriminate|exact E].
    + intros i I. unfold EtemadShahidi2020.influence_depth. rewrite (filled_place _ _ _ F Sm I), (place_den _ _ _ _ D I). reflexivity.
Qed.
Lemma core_given Dn50_core M50_core rho_core sh i : filled Dn50_core -> stretches (shape Dn50_core) sh -> inside sh i ->
  place i Dn50_core = core_at Dn50_core M50_core rho_core i.
Proof. intros F S I. unfold core_at. rewrite (filled_place _ _ _ F S I). reflexivity. Qed.
Lemma core_missing Dn50_core M50_core rho_core d sizes sh i : stone_size sh Dn50_core M50_core rho_core d sizes ->
  missing Dn50_core -> filled M50_core -> filled rho_core -> stretches (shape M50_core) sh -> stretches (shape rho_core) sh -> inside sh i ->
  place i d = core_at Dn50_core M50_core rho_core i.
Proof.
  intros (_ & H & _) F K L S T I. specialize (H i I). rewrite (usage_missing_at _ _ _ _ _ F K L S T I) in H.
  unfold core_at. rewrite (missing_place _ i F). injection H as H. symmetry. exact H.
Qed.

Theorem C63_etemad_Dn50 : forall Hs Tmm10 N_waves cot_alpha rho_armour Sd Dn50_core M50_core rho_core m Cp_init max_iter tol sh,
  filled Dn50_core -> Forall (fun a => stretches (shape a) sh) [Hs; Tmm10; N_waves; cot_alpha; rho_armour; Sd; Dn50_core] -> sh <> Some 0 -> 1 <= max_iter ->
  together_in_two Hs Tmm10 N_waves cot_alpha rho_armour Sd Dn50_core M50_core rho_core m false Cp_init sh max_iter (Fin tol)
    [Hs; Tmm10; N_waves; cot_alpha; rho_armour; Sd].
Proof.
  intros * Fc F N M. pose proof F as S. args_tac.
  apply (etemad_diameter Hs Tmm10 N_waves cot_alpha rho_armour Sd Dn50_core M50_core rho_core m false Cp_init (lit 1) [] Dn50_core [Dn50_core]); auto; all_stretch.
  - apply reduction_none.
  - apply stone_size_given; assumption.
  - intros i I. eapply core_given; eassumption.
Qed.
Theorem C63_etemad_Dn50_from_M50_core : forall Hs Tmm10 N_waves cot_alpha rho_armour Sd Dn50_core M50_core rho_core m Cp_init max_iter tol sh,
  missing Dn50_core -> filled M50_core -> filled rho_core ->
  Forall (fun a => stretches (shape a) sh) [Hs; Tmm10; N_waves; cot_alpha; rho_armour; Sd; M50_core; rho_core] -> sh <> Some 0 -> 1 <= max_iter ->
  together_in_two Hs Tmm10 N_waves cot_alpha rho_armour Sd Dn50_core M50_core rho_core m false Cp_init sh max_iter (Fin tol)
    [Hs; Tmm10; N_waves; cot_alpha; rho_armour; Sd].
Proof.
  intros * Fd Fm Fr F N M. pose proof F as S. args_tac.
  destruct (stone_size_missing sh Dn50_core M50_core rho_core) as (d & Hd); try assumption.
  apply (etemad_diameter Hs Tmm10 N_waves cot_alpha rho_armour Sd Dn50_core M50_core rho_core m false Cp_init (lit 1) [] d [M50_core; rho_core]); auto; all_stretch.
  - apply reduction_none.
  - intros i I. eapply core_missing; eassumption.
Qed.
Theorem C63_etemad_Dn50_depth_limited : forall Hs Tmm10 N_waves cot_alpha rho_armour Sd Dn50_core M50_core rho_core m Cp_init max_iter tol sh,
  filled m -> filled Dn50_core -> Forall (fun a => stretches (shape a) sh) [Hs; Tmm10; N_waves; cot_alpha; rho_armour; Sd; Dn50_core; m] -> sh <> Some 0 -> 1 <= max_iter ->
  together_in_two Hs Tmm10 N_waves cot_alpha rho_armour Sd Dn50_core M50_core rho_core m true Cp_init sh max_iter (Fin tol)
    [Hs; Tmm10; N_waves; cot_alpha; rho_armour; Sd; m].
Proof.
  intros * Fw Fc F N M. pose proof F as S. args_tac.
  destruct (reduction_given sh m) as (w & Hw & Vw); try assumption.
  apply (etemad_diameter Hs Tmm10 N_waves cot_alpha rho_armour Sd Dn50_core M50_core rho_core m true Cp_init w [m] Dn50_core [Dn50_core]); auto; all_stretch.
  - apply stone_size_given; assumption.
  - intros i I. eapply core_given; eassumption.
Qed.
Theorem C63_etemad_Dn50_depth_limited_from_M50_core : forall Hs Tmm10 N_waves cot_alpha rho_armour Sd Dn50_core M50_core rho_core m Cp_init max_iter tol sh,
  filled m -> missing Dn50_core -> filled M50_core -> filled rho_core ->
  Forall (fun a => stretches (shape a) sh) [Hs; Tmm10; N_waves; cot_alpha; rho_armour; Sd; M50_core; rho_core; m] -> sh <> Some 0 -> 1 <= max_iter ->
  together_in_two Hs Tmm10 N_waves cot_alpha rho_armour Sd Dn50_core M50_core rho_core m true Cp_init sh max_iter (Fin tol)
    [Hs; Tmm10; N_waves; cot_alpha; rho_armour; Sd; m].
Proof.
  intros * Fw Fd Fm Fr F N M. pose proof F as S. args_tac.
  destruct (reduction_given sh m) as (w & Hw & Vw); try assumption.
  destruct (stone_size_missing sh Dn50_core M50_core rho_core) as (d & Hd); try assumption.
  apply (etemad_diameter Hs Tmm10 N_waves cot_alpha rho_armour Sd Dn50_core M50_core rho_core m true Cp_init w [m] d [M50_core; rho_core]); auto; all_stretch.
  intros i I. eapply core_missing; eassumption.
Qed.

(** A short and a long wave: the first diameter is that of the plunging relation, the
    second that of the surging relation. *)
Example C63_etemad_example : exists n_s n_pl a b,
  value (ArrEtemadShahidi2020.calculate_nominal_rock_diameter_Dn50 (Sc #1%num) (Ar [#2; #10]%num) (Sc #1000%num) (Sc #2%num) (Sc #2650%num) (Sc #2%num) (Sc #0.3%num)
    (Sc NaN) (Sc NaN) (Sc NaN) false #0.5 1000 #0.00001) = Ok (Ar [a; b])
  /\ value (EtemadShahidi2020.calculate_nominal_rock_diameter_Dn50 #1 #2 #1000 #2 #2650 #2 #0.3 NaN NaN NaN false #0.5 n_pl no_tolerance) = Ok a
  /\ value (EtemadShahidi2020.calculate_nominal_rock_diameter_Dn50 #1 #10 #1000 #2 #2650 #2 #0.3 NaN NaN NaN false #0.5 n_s no_tolerance) = Ok b.
Proof.
  destruct (C63_etemad_Dn50 (Sc #1%num) (Ar [#2; #10]%num) (Sc #1000%num) (Sc #2%num) (Sc #2650%num) (Sc #2%num) (Sc #0.3%num) (Sc NaN) (Sc NaN) (Sc NaN) #0.5 1000 0.00001 (Some 2))
    as (n_s & n_pl & r & _ & _ & E & _ & S & P).
  - split; [discriminate|repeat constructor].
  - apply shapes_ok. reflexivity.
  - discriminate.
  - lia.
  - specialize (S ltac:(split; [apply shapes_ok; reflexivity|right; right; left; reflexivity])).
    destruct r as [?|[|a [|b [|? ?]]]]; try discriminate S. exists n_s, n_pl, a, b. split; [exact E|].
    destruct (P 0 ltac:(cbn; auto)) as (P0 & _), (P 1 ltac:(cbn; auto)) as (P1 & _). clear P.
    assert (K0 : nge (ksi_at (Sc #1%num) (Ar [#2; #10]%num) (Sc #2%num) 0) #1.8 = false).
    { change (ksi_at (Sc #1%num) (Ar [#2; #10]%num) (Sc #2%num) 0) with (CorePhysics.calculate_Iribarren_number_ksi #1 #2 #2).
      rewrite iribarren_fin by lra. rewrite nge_fin. apply Rleb_false. unfold iribarren, steepness, g0.
      pose proof PI2_3_2. assert (L : (0.38 < sqrt (2 * PI * 1 / (9.81 * 2 ^ 2)))%R).
      { apply Rsqr_incrst_0; [|lra|apply sqrt_pos]. rewrite Rsqr_sqrt by lra. unfold Rsqr. lra. }
      apply (Rmult_lt_reg_r (sqrt (2 * PI * 1 / (9.81 * 2 ^ 2)))); [lra|]. set (q := sqrt _) in *. replace (1 / 2 / q * q)%R with (1 / 2)%R by (field; lra). lra. }
    assert (K1 : nge (ksi_at (Sc #1%num) (Ar [#2; #10]%num) (Sc #2%num) 1) #1.8 = true).
    { change (ksi_at (Sc #1%num) (Ar [#2; #10]%num) (Sc #2%num) 1) with (CorePhysics.calculate_Iribarren_number_ksi #1 #10 #2).
      rewrite iribarren_fin by lra. rewrite nge_fin. apply Rleb_true. unfold iribarren, steepness, g0.
      pose proof PI2_3_2. pose proof PI_4. assert (L : (0 < sqrt (2 * PI * 1 / (9.81 * 10 ^ 2)) < 0.1)%R).
      { split; [apply sqrt_lt_R0; lra|]. apply Rsqr_incrst_0; [|apply sqrt_pos|lra]. rewrite Rsqr_sqrt by lra. unfold Rsqr. lra. }
      apply (Rmult_le_reg_r (sqrt (2 * PI * 1 / (9.81 * 10 ^ 2)))); [lra|]. set (q := sqrt _) in *. replace (1 / 2 / q * q)%R with (1 / 2)%R by (field; lra). lra. }
    rewrite K0 in P0. rewrite K1 in P1. split; [exact P0|exact P1].
Qed.
