(** Property C63 for the rear-side formulas of Van Gent (2007) and Van Gent & Pozueta
    (2004). *)
From Coq Require Import Reals Lra Lia List Bool Arith String.
From Verif.Lib Require Import Num Monad Arr ArrLoop RTac NTac.
From Verif.Spec Require Import Arrays ArrayLoops.
From Verif.Model Require Import CoreUtility.
From Verif.Model Require CorePhysics ArrCore VanGent2001 ArrVanGent2001 VanGent2002Velocity ArrVanGent2002Velocity
  RearVanGent2007 ArrRearVanGent2007 RearVanGentPozueta2004 ArrRearVanGentPozueta2004.
From Verif.Proofs Require Import Core CheckTac Arrays ArrayLoops ArraySearch.
Import ListNotations.
Open Scope nat_scope.

#[local] Hint Unfold ArrRearVanGent2007.check_validity_range ArrRearVanGent2007.invert_for_z1p ArrVanGent2001.invert_for_Hs
  ArrRearVanGentPozueta2004.check_validity_range ArrRearVanGentPozueta2004.invert_for_u1p ArrVanGent2002Velocity.invert_for_zXp : arrays.

Ltac fold_wordless := match goal with |- said ?m = false => change (wordless m) end.

(** What the search does when one of the starting values is not finite: the change is
    NaN before the first iteration, and run-up has no value. *)
Lemma search_undefined sh z_of H_of tol todo (start prev : nums) v w i0 : sh <> Some 0 -> inside sh i0 ->
  den sh (value_of start) v -> den sh (value_of prev) w -> isnan (nabs (v i0 - w i0)%num) = true ->
  value (ArrRearVanGent2007.search z_of H_of tol todo start prev None) = Ok (todo, start, None).
Proof.
  intros N I Ds Dp H. destruct todo; [reflexivity|]. cbn [ArrRearVanGent2007.search].
  assert (Dd : den sh (aabs (start - prev)%arr) (fun i => nabs (v i - w i)%num)).
  { unfold aabs, op1, op2. exact (den_lift1 sh nabs _ _ (den_lift2 sh nsub _ _ _ _ Ds Dp)). }
  destruct Dd as (d1 & Ed & Sd & Vd). change (arr num) with nums in d1.
  destruct (greatest_places sh d1 (fun i => nabs (v i - w i)%num) tol N) as (g & Eg & G); [exists d1; auto|].
  etransitivity; [apply (value_bind_ok _ _ d1 Ed)|]. cbv beta.
  etransitivity; [apply (value_bind_ok _ _ g Eg)|]. cbv beta.
  destruct (ngt g tol) eqn:Gt; [|reflexivity]. destruct (proj1 G eq_refl) as (F & _). rewrite F in H by exact I. discriminate.
Qed.
(** With an empty array there is no greatest change. *)
Lemma search_empty z_of H_of tol todo (start prev : nums) v w z : 1 <= todo ->
  shape start = Some 0 -> den (Some 0) (value_of start) v -> den (Some 0) (value_of prev) w ->
  value (ArrRearVanGent2007.search z_of H_of tol todo start prev z) = Err ValueError.
Proof.
  intros L Z Ds Dp. destruct todo; [lia|]. cbn [ArrRearVanGent2007.search].
  destruct (den_lift1 _ nabs _ _ (den_lift2 _ nsub _ _ _ _ Ds Dp)) as (d & Ed & Sd & _). change (arr num) with nums in d.
  assert (Ud : uses (aabs (start - prev)%arr) [shape start]).
  { unfold aabs, op1, op2. eapply uses_incl; [uses_tac|]. intros s [<-|[]]. cbn. auto. }
  specialize (Ud d Ed). inversion Ud as [|? ? Hd _]; subst. rewrite Z in Hd.
  pose proof (stretches_antisym _ _ Sd Hd) as Zd.
  etransitivity; [apply (value_bind_ok _ _ d Ed)|]. cbv beta.
  destruct d as [?|[|? ?]]; try discriminate. reflexivity.
Qed.

(** The warning of the calls that used all iterations *)
Definition used_up : warning := WText "Maximum number of iterations reached, convergence not achieved".

(** ** Van Gent (2007) *)

Lemma rear2007_loop : forall cot_alpha cot_phi gamma Sd Tmm10 Rc Rc2_front Rc2_rear N_waves Dn50 M50 rho_rock d sizes max_iter tol sh,
  stone_size sh Dn50 M50 rho_rock d sizes ->
  common (cot_alpha :: cot_phi :: gamma :: Sd :: Tmm10 :: Rc :: Rc2_front :: Rc2_rear :: N_waves :: sizes) sh -> sh <> Some 0 -> 1 <= max_iter ->
  (forall i, inside sh i -> exists h, place i Rc2_front = Fin h) ->
  exists n r,
    settles sh max_iter (Fin tol) (fun i => place i Rc2_front)
      (fun i n => value (RearVanGent2007.calculate_maximum_significant_wave_height_Hs (place i cot_alpha) (place i cot_phi) (place i gamma) (place i Sd) (place i Tmm10) (place i Rc) (place i Rc2_front) (place i Rc2_rear) (place i N_waves) (place i Dn50) (place i M50) (place i rho_rock) no_tolerance n)) n
    /\ value (ArrRearVanGent2007.calculate_maximum_significant_wave_height_Hs cot_alpha cot_phi gamma Sd Tmm10 Rc Rc2_front Rc2_rear N_waves Dn50 M50 rho_rock (Fin tol) max_iter) = Ok r
    /\ shape r = sh
    /\ (forall i, inside sh i -> value (RearVanGent2007.calculate_maximum_significant_wave_height_Hs (place i cot_alpha) (place i cot_phi) (place i gamma) (place i Sd) (place i Tmm10) (place i Rc) (place i Rc2_front) (place i Rc2_rear) (place i N_waves) (place i Dn50) (place i M50) (place i rho_rock) no_tolerance n) = Ok (place i r))
    /\ said (ArrRearVanGent2007.calculate_maximum_significant_wave_height_Hs cot_alpha cot_phi gamma Sd Tmm10 Rc Rc2_front Rc2_rear N_waves Dn50 M50 rho_rock (Fin tol) max_iter) = Nat.eqb (max_iter - n) 0.
Proof.
  intros * (Ed & Id & Sz & Ud) C N M Fs. pose proof C as (F & _).
  do 9 (apply Forall_cons_iff in F as (? & F)). clear F.
  name sh (Rc2_front + float PInf)%arr (fun i => (place i Rc2_front + PInf)%num) (@nil (option nat)) Hp.
  destruct (search_settles sh N
    (fun Hs_i0 => ArrRearVanGent2007.invert_for_z1p cot_phi Sd d Hs_i0 Rc Rc2_front Rc2_rear N_waves)
    (fun Hs_i0 z1p => ArrVanGent2001.invert_for_Hs Hs_i0 z1p Tmm10 gamma cot_alpha (lit 1.45) (lit 5.1))
    (fun i s => RearVanGent2007.invert_for_z1p (place i cot_phi) (place i Sd) (place i d) s (place i Rc) (place i Rc2_front) (place i Rc2_rear) (place i N_waves))
    (fun i s z => VanGent2001.invert_for_Hs s z (place i Tmm10) (place i gamma) (place i cot_alpha) VanGent2001.invert_c0 VanGent2001.invert_c1)
    (shape cot_alpha :: shape cot_phi :: shape gamma :: shape Sd :: shape Tmm10 :: shape Rc :: shape Rc2_front :: shape Rc2_rear :: shape N_waves :: map shape sizes))
    with (tol := Fin tol) (s0 := (fun i => place i Rc2_front)) (max_iter := max_iter)
      (args := cot_alpha :: cot_phi :: gamma :: Sd :: Tmm10 :: Rc :: Rc2_front :: Rc2_rear :: N_waves :: sizes)
      (start := Rc2_front) (prev := Hp)
      (x := fun i n => value (RearVanGent2007.calculate_maximum_significant_wave_height_Hs (place i cot_alpha) (place i cot_phi) (place i gamma) (place i Sd) (place i Tmm10) (place i Rc) (place i Rc2_front) (place i Rc2_rear) (place i N_waves) (place i Dn50) (place i M50) (place i rho_rock) no_tolerance n)) as (n & r & z & St & E & Sr & Szz & P).
  - intros a v Sa Da. cbv beta; autounfold with arrays. eapply den_ext; [den_tac|intros; reflexivity].
  - intros a z v w Sa Sz' Da Dz. cbv beta; autounfold with arrays. eapply den_ext; [den_tac|intros; reflexivity].
  - intros a. cbv beta. autounfold with arrays. eapply uses_incl; [uses_tac|]. intros s I. cbn [In app] in *. repeat (progress (rewrite ?in_app_iff; cbn [In])). tauto.
  - intros i n I Ln Hn. unfold RearVanGent2007.calculate_maximum_significant_wave_height_Hs, RearVanGent2007.check_validity_range. cbv zeta.
    rewrite (Id i I), bind_ret_l. unfold no_tolerance. destruct (Fs i I) as (h & Eh).
    destruct (search_runs (fun Hs_i0 => RearVanGent2007.invert_for_z1p (place i cot_phi) (place i Sd) (place i d) Hs_i0 (place i Rc) (place i Rc2_front) (place i Rc2_rear) (place i N_waves))
      (fun Hs_i0 z1p => VanGent2001.invert_for_Hs Hs_i0 z1p (place i Tmm10) (place i gamma) (place i cot_alpha) VanGent2001.invert_c0 VanGent2001.invert_c1)
      (place i Rc2_front) (place i Rc2_front + PInf)%num n) as (z & Ez); [rewrite Eh; reflexivity|exact Ln|exact Hn|].
    rewrite Ez. mchecks. reflexivity.
  - exact M.
  - reflexivity.
  - exact C.
  - intros s I. exact I.
  - apply den_leaf. assumption.
  - eapply den_ext; [unfold aabs, op1, op2; refine (den_lift1 sh nabs _ _ (den_lift2 sh nsub _ _ _ _ _ DHp)); apply den_leaf; assumption|].
    intros i I. destruct (Fs i I) as (h & ->). reflexivity.
  - exists n, r. split; [exact St|].
    assert (V : value (ArrRearVanGent2007.check_validity_range Rc Rc2_front Rc2_rear anan d anan anan r anan z Sd N_waves) = Ok tt).
    { assert (W : widens sh sh) by apply stretches_refl. assert (Sr' : stretches (shape r) sh) by (rewrite Sr; apply stretches_refl).
      autounfold with arrays. runs_tac. }
    split; [|split; [exact Sr|split; [exact P|]]].
    + unfold ArrRearVanGent2007.calculate_maximum_significant_wave_height_Hs.
      etransitivity; [apply (value_bind_ok _ _ d Ed)|]. cbv beta.
      etransitivity; [apply (value_bind_ok _ _ Hp EHp)|]. cbv beta.
      etransitivity; [apply (value_bind_ok _ _ (max_iter - n, r, Some z) E)|]. cbv beta iota.
      rewrite value_bind, value_when by reflexivity. cbn [bound]. rewrite bind_ret_l, value_bind, V. reflexivity.
    + unfold ArrRearVanGent2007.calculate_maximum_significant_wave_height_Hs.
      rewrite (said_bind _ _ d Ed). cbv beta.
      rewrite (said_bind _ _ Hp EHp). cbv beta.
      rewrite (said_bind _ _ (max_iter - n, r, Some z) E). cbv beta iota.
      rewrite wordless_search by (intros; cbv beta; autounfold with arrays; wordless_tac).
      rewrite (said_bind _ _ tt) by (destruct (Nat.eqb _ _); reflexivity). cbn [bound]. rewrite bind_ret_l.
      rewrite (said_bind _ _ tt V). replace (said (ret r)) with false by reflexivity.
      assert (W : wordless (ArrRearVanGent2007.check_validity_range Rc Rc2_front Rc2_rear anan d anan anan r anan z Sd N_waves)) by (autounfold with arrays; wordless_tac).
      rewrite W, wordless_usage.
      replace (said (Rc2_front + float PInf)%arr) with false by (symmetry; fold_wordless; unfold float; wordless_tac).
      cbn [orb]. rewrite !orb_false_r. destruct (Nat.eqb _ _); reflexivity.
Qed.

Theorem C63_rear2007_Hs : forall cot_alpha cot_phi gamma Sd Tmm10 Rc Rc2_front Rc2_rear N_waves Dn50 M50 rho_rock max_iter tol sh,
  filled Dn50 ->
  common [cot_alpha; cot_phi; gamma; Sd; Tmm10; Rc; Rc2_front; Rc2_rear; N_waves; Dn50] sh -> sh <> Some 0 -> 1 <= max_iter ->
  (forall i, inside sh i -> exists h, place i Rc2_front = Fin h) ->
  together sh max_iter (Fin tol) (fun i => place i Rc2_front)
    (ArrRearVanGent2007.calculate_maximum_significant_wave_height_Hs cot_alpha cot_phi gamma Sd Tmm10 Rc Rc2_front Rc2_rear N_waves Dn50 M50 rho_rock (Fin tol) max_iter)
    (fun i n => value (RearVanGent2007.calculate_maximum_significant_wave_height_Hs (place i cot_alpha) (place i cot_phi) (place i gamma) (place i Sd) (place i Tmm10) (place i Rc) (place i Rc2_front) (place i Rc2_rear) (place i N_waves) (place i Dn50) (place i M50) (place i rho_rock) no_tolerance n)).
Proof.
  intros * F C N M Fs. pose proof C as (Q & _). args_tac.
  destruct (rear2007_loop cot_alpha cot_phi gamma Sd Tmm10 Rc Rc2_front Rc2_rear N_waves Dn50 M50 rho_rock Dn50 [Dn50] max_iter tol sh) as (n & r & K1 & K2 & K3 & K4 & K5); try assumption; [apply stone_size_given; assumption|].
  exists n, r. auto.
Qed.

Theorem C63_rear2007_Hs_from_M50 : forall cot_alpha cot_phi gamma Sd Tmm10 Rc Rc2_front Rc2_rear N_waves Dn50 M50 rho_rock max_iter tol sh,
  missing Dn50 ->
  filled M50 ->
  filled rho_rock ->
  common [cot_alpha; cot_phi; gamma; Sd; Tmm10; Rc; Rc2_front; Rc2_rear; N_waves; M50; rho_rock] sh -> sh <> Some 0 -> 1 <= max_iter ->
  (forall i, inside sh i -> exists h, place i Rc2_front = Fin h) ->
  together sh max_iter (Fin tol) (fun i => place i Rc2_front)
    (ArrRearVanGent2007.calculate_maximum_significant_wave_height_Hs cot_alpha cot_phi gamma Sd Tmm10 Rc Rc2_front Rc2_rear N_waves Dn50 M50 rho_rock (Fin tol) max_iter)
    (fun i n => value (RearVanGent2007.calculate_maximum_significant_wave_height_Hs (place i cot_alpha) (place i cot_phi) (place i gamma) (place i Sd) (place i Tmm10) (place i Rc) (place i Rc2_front) (place i Rc2_rear) (place i N_waves) (place i Dn50) (place i M50) (place i rho_rock) no_tolerance n)).
Proof.
  intros * Fd Fm Fr C N M Fs. pose proof C as (Q & _). args_tac.
  destruct (stone_size_missing sh Dn50 M50 rho_rock) as (d & Hd); try assumption.
  destruct (rear2007_loop cot_alpha cot_phi gamma Sd Tmm10 Rc Rc2_front Rc2_rear N_waves Dn50 M50 rho_rock d [M50; rho_rock] max_iter tol sh) as (n & r & K1 & K2 & K3 & K4 & K5); try assumption.
  try solve [destruct C as (F & X); split; [repeat (constructor; [assumption|]); constructor|]; destruct X as [X|X]; [left; exact X|right];
    rewrite !Exists_cons in X; rewrite !Exists_cons; tauto].
  exists n, r. auto.
Qed.

(** The warning is given for all places together. *)
Theorem C63_rear2007_Hs_warning : forall cot_alpha cot_phi gamma Sd Tmm10 Rc Rc2_front Rc2_rear N_waves Dn50 M50 rho_rock max_iter tol sh,
  filled Dn50 ->
  common [cot_alpha; cot_phi; gamma; Sd; Tmm10; Rc; Rc2_front; Rc2_rear; N_waves; Dn50] sh -> sh <> Some 0 -> 1 <= max_iter ->
  (forall i, inside sh i -> exists h, place i Rc2_front = Fin h) ->
  forall n, settles sh max_iter (Fin tol) (fun i => place i Rc2_front)
      (fun i n => value (RearVanGent2007.calculate_maximum_significant_wave_height_Hs (place i cot_alpha) (place i cot_phi) (place i gamma) (place i Sd) (place i Tmm10) (place i Rc) (place i Rc2_front) (place i Rc2_rear) (place i N_waves) (place i Dn50) (place i M50) (place i rho_rock) no_tolerance n)) n ->
  (In used_up (warns (ArrRearVanGent2007.calculate_maximum_significant_wave_height_Hs cot_alpha cot_phi gamma Sd Tmm10 Rc Rc2_front Rc2_rear N_waves Dn50 M50 rho_rock (Fin tol) max_iter)) <-> n = max_iter).
Proof.
  intros * F C N M Fs. pose proof C as (Q & _). args_tac.
  destruct (rear2007_loop cot_alpha cot_phi gamma Sd Tmm10 Rc Rc2_front Rc2_rear N_waves Dn50 M50 rho_rock Dn50 [Dn50] max_iter tol sh) as (n & r & K1 & K2 & K3 & K4 & K5); try assumption; [apply stone_size_given; assumption|].
  intros n' Hn'. rewrite (settles_unique _ _ _ _ _ _ _ Hn' K1).
  change used_up with too_many. rewrite said_spec, K5, Nat.eqb_eq. destruct K1 as (L & _). lia.
Qed.

Theorem C63_rear2007_Hs_from_M50_warning : forall cot_alpha cot_phi gamma Sd Tmm10 Rc Rc2_front Rc2_rear N_waves Dn50 M50 rho_rock max_iter tol sh,
  missing Dn50 ->
  filled M50 ->
  filled rho_rock ->
  common [cot_alpha; cot_phi; gamma; Sd; Tmm10; Rc; Rc2_front; Rc2_rear; N_waves; M50; rho_rock] sh -> sh <> Some 0 -> 1 <= max_iter ->
  (forall i, inside sh i -> exists h, place i Rc2_front = Fin h) ->
  forall n, settles sh max_iter (Fin tol) (fun i => place i Rc2_front)
      (fun i n => value (RearVanGent2007.calculate_maximum_significant_wave_height_Hs (place i cot_alpha) (place i cot_phi) (place i gamma) (place i Sd) (place i Tmm10) (place i Rc) (place i Rc2_front) (place i Rc2_rear) (place i N_waves) (place i Dn50) (place i M50) (place i rho_rock) no_tolerance n)) n ->
  (In used_up (warns (ArrRearVanGent2007.calculate_maximum_significant_wave_height_Hs cot_alpha cot_phi gamma Sd Tmm10 Rc Rc2_front Rc2_rear N_waves Dn50 M50 rho_rock (Fin tol) max_iter)) <-> n = max_iter).
Proof.
  intros * Fd Fm Fr C N M Fs. pose proof C as (Q & _). args_tac.
  destruct (stone_size_missing sh Dn50 M50 rho_rock) as (d & Hd); try assumption.
  destruct (rear2007_loop cot_alpha cot_phi gamma Sd Tmm10 Rc Rc2_front Rc2_rear N_waves Dn50 M50 rho_rock d [M50; rho_rock] max_iter tol sh) as (n & r & K1 & K2 & K3 & K4 & K5); try assumption.
  try solve [destruct C as (F & X); split; [repeat (constructor; [assumption|]); constructor|]; destruct X as [X|X]; [left; exact X|right];
    rewrite !Exists_cons in X; rewrite !Exists_cons; tauto].
  intros n' Hn'. rewrite (settles_unique _ _ _ _ _ _ _ Hn' K1).
  change used_up with too_many. rewrite said_spec, K5, Nat.eqb_eq. destruct K1 as (L & _). lia.
Qed.

(** One starting value that is not finite. *)
Theorem C63_rear2007_Hs_undefined : forall cot_alpha cot_phi gamma Sd Tmm10 Rc Rc2_front Rc2_rear N_waves Dn50 M50 rho_rock max_iter tol sh i0,
  filled Dn50 ->
  common [cot_alpha; cot_phi; gamma; Sd; Tmm10; Rc; Rc2_front; Rc2_rear; N_waves; Dn50] sh -> sh <> Some 0 -> 1 <= max_iter ->
  inside sh i0 -> (forall h, place i0 Rc2_front <> Fin h) ->
  value (ArrRearVanGent2007.calculate_maximum_significant_wave_height_Hs cot_alpha cot_phi gamma Sd Tmm10 Rc Rc2_front Rc2_rear N_waves Dn50 M50 rho_rock (Fin tol) max_iter) = Err UnboundLocalError.
Proof.
  intros * F C N M I Nf. pose proof C as (Q & _). args_tac.
  destruct (stone_size_given sh Dn50 M50 rho_rock F ltac:(assumption)) as (Ed & Id & Sz & Ud).
  name sh (Rc2_front + float PInf)%arr (fun i => (place i Rc2_front + PInf)%num) (@nil (option nat)) Hp.
  unfold ArrRearVanGent2007.calculate_maximum_significant_wave_height_Hs.
  etransitivity; [apply (value_bind_ok _ _ Dn50 Ed)|]. cbv beta.
  etransitivity; [apply (value_bind_ok _ _ Hp EHp)|]. cbv beta.
  etransitivity; [eapply value_bind_ok; apply (search_undefined sh _ _ _ _ _ _ (fun i => place i Rc2_front) (fun i => (place i Rc2_front + PInf)%num) i0)|].
  - exact N.
  - exact I.
  - apply den_leaf. assumption.
  - exact DHp.
  - destruct (place i0 Rc2_front) as [h| | |]; try reflexivity. exfalso. apply (Nf h). reflexivity.
  - cbv beta iota. rewrite value_bind, value_when by reflexivity. reflexivity.
Qed.

(** Empty arrays *)
Theorem C63_rear2007_Hs_empty : forall cot_alpha cot_phi gamma Sd Tmm10 Rc Rc2_front Rc2_rear N_waves Dn50 M50 rho_rock max_iter tol,
  filled Dn50 ->
  common [cot_alpha; cot_phi; gamma; Sd; Tmm10; Rc; Rc2_front; Rc2_rear; N_waves; Dn50] (Some 0) -> shape Rc2_front = Some 0 -> 1 <= max_iter ->
  value (ArrRearVanGent2007.calculate_maximum_significant_wave_height_Hs cot_alpha cot_phi gamma Sd Tmm10 Rc Rc2_front Rc2_rear N_waves Dn50 M50 rho_rock (Fin tol) max_iter) = Err ValueError.
Proof.
  intros * F C Z M. pose proof C as (Q & _). args_tac.
  destruct (stone_size_given (Some 0) Dn50 M50 rho_rock F ltac:(assumption)) as (Ed & Id & Sz & Ud).
  name (Some 0) (Rc2_front + float PInf)%arr (fun i => (place i Rc2_front + PInf)%num) (@nil (option nat)) Hp.
  unfold ArrRearVanGent2007.calculate_maximum_significant_wave_height_Hs.
  etransitivity; [apply (value_bind_ok _ _ Dn50 Ed)|]. cbv beta.
  etransitivity; [apply (value_bind_ok _ _ Hp EHp)|]. cbv beta.
  apply value_bind_err. apply (search_empty _ _ _ _ _ _ (fun i => place i Rc2_front) (fun i => (place i Rc2_front + PInf)%num)).
  - exact M.
  - exact Z.
  - apply den_leaf. assumption.
  - exact DHp.
Qed.

(** The wave height the iterations start with *)
Definition first_height (Rc gamma_f : num) : num := ((Rc + #0.5) / (#2.552 * gamma_f))%num.

(** ** Van Gent & Pozueta (2004) *)

Lemma pozueta_loop : forall cot_alpha cot_phi gamma_f gamma_f_Crest Sd Tmm10 Rc Rc_rear Bc N_waves Dn50 M50 rho_rock rho_water cs d sizes max_iter tol sh,
  stone_size sh Dn50 M50 rho_rock d sizes ->
  common (cot_alpha :: cot_phi :: gamma_f :: gamma_f_Crest :: Sd :: Tmm10 :: Rc :: Rc_rear :: Bc :: N_waves :: rho_rock :: rho_water :: cs :: sizes) sh -> sh <> Some 0 -> 1 <= max_iter ->
  (forall i, inside sh i -> exists h, first_height (place i Rc) (place i gamma_f) = Fin h) ->
  exists n r,
    settles sh max_iter (Fin tol) (fun i => first_height (place i Rc) (place i gamma_f))
      (fun i n => value (RearVanGentPozueta2004.calculate_maximum_significant_wave_height_Hs (place i cot_alpha) (place i cot_phi) (place i gamma_f) (place i gamma_f_Crest) (place i Sd) (place i Tmm10) (place i Rc) (place i Rc_rear) (place i Bc) (place i N_waves) (place i Dn50) (place i M50) (place i rho_rock) (place i rho_water) (place i cs) no_tolerance n)) n
    /\ value (ArrRearVanGentPozueta2004.calculate_maximum_significant_wave_height_Hs cot_alpha cot_phi gamma_f gamma_f_Crest Sd Tmm10 Rc Rc_rear Bc N_waves Dn50 M50 rho_rock rho_water cs (Fin tol) max_iter) = Ok r
    /\ shape r = sh
    /\ (forall i, inside sh i -> value (RearVanGentPozueta2004.calculate_maximum_significant_wave_height_Hs (place i cot_alpha) (place i cot_phi) (place i gamma_f) (place i gamma_f_Crest) (place i Sd) (place i Tmm10) (place i Rc) (place i Rc_rear) (place i Bc) (place i N_waves) (place i Dn50) (place i M50) (place i rho_rock) (place i rho_water) (place i cs) no_tolerance n) = Ok (place i r))
    /\ said (ArrRearVanGentPozueta2004.calculate_maximum_significant_wave_height_Hs cot_alpha cot_phi gamma_f gamma_f_Crest Sd Tmm10 Rc Rc_rear Bc N_waves Dn50 M50 rho_rock rho_water cs (Fin tol) max_iter) = Nat.eqb (max_iter - n) 0.
Proof.
  intros * (Ed & Id & Sz & Ud) C N M Fs. pose proof C as (F & _).
  do 13 (apply Forall_cons_iff in F as (? & F)). clear F.
  name sh (ArrCore.calculate_buoyant_density_Delta rho_rock rho_water) (fun i => CorePhysics.calculate_buoyant_density_Delta (place i rho_rock) (place i rho_water)) [shape rho_rock; shape rho_water] Delta.
  name sh ((Rc + lit 0.5) / (lit 2.552 * gamma_f))%arr (fun i => first_height (place i Rc) (place i gamma_f)) [shape Rc; shape gamma_f] Hi.
  name sh (Hi + float PInf)%arr (fun i => (first_height (place i Rc) (place i gamma_f) + PInf)%num) (@nil (option nat)) Hp.
  destruct (search_settles sh N
    (fun Hs_i0 => u1p <- ArrRearVanGentPozueta2004.invert_for_u1p cot_phi Sd Hs_i0 Tmm10 Rc_rear N_waves d Delta cs ;; ArrVanGent2002Velocity.invert_for_zXp Hs_i0 u1p Rc Bc gamma_f gamma_f_Crest (lit 1.7) (lit 0.1) (lit 9.81))
    (fun Hs_i0 z1p => ArrVanGent2001.invert_for_Hs Hs_i0 z1p Tmm10 gamma_f cot_alpha (lit 1.45) (lit 5.1))
    (fun i s => VanGent2002Velocity.invert_for_zXp s (RearVanGentPozueta2004.invert_for_u1p (place i cot_phi) (place i Sd) s (place i Tmm10) (place i Rc_rear) (place i N_waves) (place i d) (CorePhysics.calculate_buoyant_density_Delta (place i rho_rock) (place i rho_water)) (place i cs)) (place i Rc) (place i Bc) (place i gamma_f) (place i gamma_f_Crest) VanGent2002Velocity.cu1_default VanGent2002Velocity.cu2_default CorePhysics.g_default)
    (fun i s z => VanGent2001.invert_for_Hs s z (place i Tmm10) (place i gamma_f) (place i cot_alpha) VanGent2001.invert_c0 VanGent2001.invert_c1)
    (shape cot_alpha :: shape cot_phi :: shape gamma_f :: shape gamma_f_Crest :: shape Sd :: shape Tmm10 :: shape Rc :: shape Rc_rear :: shape Bc :: shape N_waves :: shape rho_rock :: shape rho_water :: shape cs :: map shape sizes))
    with (tol := Fin tol) (s0 := (fun i => first_height (place i Rc) (place i gamma_f))) (max_iter := max_iter)
      (args := cot_alpha :: cot_phi :: gamma_f :: gamma_f_Crest :: Sd :: Tmm10 :: Rc :: Rc_rear :: Bc :: N_waves :: rho_rock :: rho_water :: cs :: sizes)
      (start := Hi) (prev := Hp)
      (x := fun i n => value (RearVanGentPozueta2004.calculate_maximum_significant_wave_height_Hs (place i cot_alpha) (place i cot_phi) (place i gamma_f) (place i gamma_f_Crest) (place i Sd) (place i Tmm10) (place i Rc) (place i Rc_rear) (place i Bc) (place i N_waves) (place i Dn50) (place i M50) (place i rho_rock) (place i rho_water) (place i cs) no_tolerance n)) as (n & r & z & St & E & Sr & Szz & P).
  - intros a v Sa Da. cbv beta; autounfold with arrays. eapply den_ext; [den_tac|intros; reflexivity].
  - intros a z v w Sa Sz' Da Dz. cbv beta; autounfold with arrays. eapply den_ext; [den_tac|intros; reflexivity].
  - intros a. cbv beta. autounfold with arrays. eapply uses_incl; [uses_tac|]. intros s I. cbn [In app] in *. repeat (progress (rewrite ?in_app_iff; cbn [In])). tauto.
  - intros i n I Ln Hn. unfold RearVanGentPozueta2004.calculate_maximum_significant_wave_height_Hs, RearVanGentPozueta2004.check_validity_range. cbv zeta.
    rewrite (Id i I), bind_ret_l. unfold no_tolerance. destruct (Fs i I) as (h & Eh).
    destruct (search_runs (fun Hs_i0 => VanGent2002Velocity.invert_for_zXp Hs_i0 (RearVanGentPozueta2004.invert_for_u1p (place i cot_phi) (place i Sd) Hs_i0 (place i Tmm10) (place i Rc_rear) (place i N_waves) (place i d) (CorePhysics.calculate_buoyant_density_Delta (place i rho_rock) (place i rho_water)) (place i cs)) (place i Rc) (place i Bc) (place i gamma_f) (place i gamma_f_Crest) VanGent2002Velocity.cu1_default VanGent2002Velocity.cu2_default CorePhysics.g_default)
      (fun Hs_i0 z1p => VanGent2001.invert_for_Hs Hs_i0 z1p (place i Tmm10) (place i gamma_f) (place i cot_alpha) VanGent2001.invert_c0 VanGent2001.invert_c1)
      (first_height (place i Rc) (place i gamma_f)) (first_height (place i Rc) (place i gamma_f) + PInf)%num n) as (z & Ez); [rewrite Eh; reflexivity|exact Ln|exact Hn|].
    unfold first_height in Ez. rewrite Ez. mchecks. reflexivity.
  - exact M.
  - reflexivity.
  - exact C.
  - intros s I. exact I.
  - exact DHi.
  - eapply den_ext; [unfold aabs, op1, op2; refine (den_lift1 sh nabs _ _ (den_lift2 sh nsub _ _ _ _ _ DHp)); exact DHi|].
    intros i I. destruct (Fs i I) as (h & ->). reflexivity.
  - exists n, r. split; [exact St|].
    assert (V : value (ArrRearVanGentPozueta2004.check_validity_range Rc Rc_rear cot_phi gamma_f d rho_rock rho_water Bc r Tmm10 z Sd N_waves) = Ok tt).
    { assert (W : widens sh sh) by apply stretches_refl. assert (Sr' : stretches (shape r) sh) by (rewrite Sr; apply stretches_refl).
      autounfold with arrays. runs_tac. }
    split; [|split; [exact Sr|split; [exact P|]]].
    + unfold ArrRearVanGentPozueta2004.calculate_maximum_significant_wave_height_Hs.
      etransitivity; [apply (value_bind_ok _ _ Delta EDelta)|]. cbv beta.
      etransitivity; [apply (value_bind_ok _ _ d Ed)|]. cbv beta.
      etransitivity; [apply (value_bind_ok _ _ Hi EHi)|]. cbv beta.
      etransitivity; [apply (value_bind_ok _ _ Hp EHp)|]. cbv beta.
      etransitivity; [apply (value_bind_ok _ _ (max_iter - n, r, Some z) E)|]. cbv beta iota.
      rewrite value_bind, value_when by reflexivity. cbn [bound]. rewrite bind_ret_l, value_bind, V. reflexivity.
    + unfold ArrRearVanGentPozueta2004.calculate_maximum_significant_wave_height_Hs.
      rewrite (said_bind _ _ Delta EDelta). cbv beta.
      rewrite (said_bind _ _ d Ed). cbv beta.
      rewrite (said_bind _ _ Hi EHi). cbv beta.
      rewrite (said_bind _ _ Hp EHp). cbv beta.
      rewrite (said_bind _ _ (max_iter - n, r, Some z) E). cbv beta iota.
      rewrite wordless_search by (intros; cbv beta; autounfold with arrays; wordless_tac).
      rewrite (said_bind _ _ tt) by (destruct (Nat.eqb _ _); reflexivity). cbn [bound]. rewrite bind_ret_l.
      rewrite (said_bind _ _ tt V). replace (said (ret r)) with false by reflexivity.
      assert (W : wordless (ArrRearVanGentPozueta2004.check_validity_range Rc Rc_rear cot_phi gamma_f d rho_rock rho_water Bc r Tmm10 z Sd N_waves)) by (autounfold with arrays; wordless_tac).
      rewrite W, wordless_usage.
      replace (said (ArrCore.calculate_buoyant_density_Delta rho_rock rho_water)) with false by (symmetry; fold_wordless; autounfold with arrays; wordless_tac).
      replace (said ((Rc + lit 0.5) / (lit 2.552 * gamma_f))%arr) with false by (symmetry; fold_wordless; wordless_tac).
      replace (said (Hi + float PInf)%arr) with false by (symmetry; fold_wordless; unfold float; wordless_tac).
      cbn [orb]. rewrite !orb_false_r. destruct (Nat.eqb _ _); reflexivity.
Qed.

Theorem C63_pozueta_Hs : forall cot_alpha cot_phi gamma_f gamma_f_Crest Sd Tmm10 Rc Rc_rear Bc N_waves Dn50 M50 rho_rock rho_water cs max_iter tol sh,
  filled Dn50 ->
  common [cot_alpha; cot_phi; gamma_f; gamma_f_Crest; Sd; Tmm10; Rc; Rc_rear; Bc; N_waves; rho_rock; rho_water; cs; Dn50] sh -> sh <> Some 0 -> 1 <= max_iter ->
  (forall i, inside sh i -> exists h, first_height (place i Rc) (place i gamma_f) = Fin h) ->
  together sh max_iter (Fin tol) (fun i => first_height (place i Rc) (place i gamma_f))
    (ArrRearVanGentPozueta2004.calculate_maximum_significant_wave_height_Hs cot_alpha cot_phi gamma_f gamma_f_Crest Sd Tmm10 Rc Rc_rear Bc N_waves Dn50 M50 rho_rock rho_water cs (Fin tol) max_iter)
    (fun i n => value (RearVanGentPozueta2004.calculate_maximum_significant_wave_height_Hs (place i cot_alpha) (place i cot_phi) (place i gamma_f) (place i gamma_f_Crest) (place i Sd) (place i Tmm10) (place i Rc) (place i Rc_rear) (place i Bc) (place i N_waves) (place i Dn50) (place i M50) (place i rho_rock) (place i rho_water) (place i cs) no_tolerance n)).
Proof.
  intros * F C N M Fs. pose proof C as (Q & _). args_tac.
  destruct (pozueta_loop cot_alpha cot_phi gamma_f gamma_f_Crest Sd Tmm10 Rc Rc_rear Bc N_waves Dn50 M50 rho_rock rho_water cs Dn50 [Dn50] max_iter tol sh) as (n & r & K1 & K2 & K3 & K4 & K5); try assumption; [apply stone_size_given; assumption|].
  exists n, r. auto.
Qed.

Theorem C63_pozueta_Hs_from_M50 : forall cot_alpha cot_phi gamma_f gamma_f_Crest Sd Tmm10 Rc Rc_rear Bc N_waves Dn50 M50 rho_rock rho_water cs max_iter tol sh,
  missing Dn50 ->
  filled M50 ->
  filled rho_rock ->
  common [cot_alpha; cot_phi; gamma_f; gamma_f_Crest; Sd; Tmm10; Rc; Rc_rear; Bc; N_waves; rho_rock; rho_water; cs; M50] sh -> sh <> Some 0 -> 1 <= max_iter ->
  (forall i, inside sh i -> exists h, first_height (place i Rc) (place i gamma_f) = Fin h) ->
  together sh max_iter (Fin tol) (fun i => first_height (place i Rc) (place i gamma_f))
    (ArrRearVanGentPozueta2004.calculate_maximum_significant_wave_height_Hs cot_alpha cot_phi gamma_f gamma_f_Crest Sd Tmm10 Rc Rc_rear Bc N_waves Dn50 M50 rho_rock rho_water cs (Fin tol) max_iter)
    (fun i n => value (RearVanGentPozueta2004.calculate_maximum_significant_wave_height_Hs (place i cot_alpha) (place i cot_phi) (place i gamma_f) (place i gamma_f_Crest) (place i Sd) (place i Tmm10) (place i Rc) (place i Rc_rear) (place i Bc) (place i N_waves) (place i Dn50) (place i M50) (place i rho_rock) (place i rho_water) (place i cs) no_tolerance n)).
Proof.
  intros * Fd Fm Fr C N M Fs. pose proof C as (Q & _). args_tac.
  destruct (stone_size_missing sh Dn50 M50 rho_rock) as (d & Hd); try assumption.
  destruct (pozueta_loop cot_alpha cot_phi gamma_f gamma_f_Crest Sd Tmm10 Rc Rc_rear Bc N_waves Dn50 M50 rho_rock rho_water cs d [M50; rho_rock] max_iter tol sh) as (n & r & K1 & K2 & K3 & K4 & K5); try assumption.
  try solve [destruct C as (F & X); split; [repeat (constructor; [assumption|]); constructor|]; destruct X as [X|X]; [left; exact X|right];
    rewrite !Exists_cons in X; rewrite !Exists_cons; tauto].
  exists n, r. auto.
Qed.

(** The warning is given for all places together. *)
Theorem C63_pozueta_Hs_warning : forall cot_alpha cot_phi gamma_f gamma_f_Crest Sd Tmm10 Rc Rc_rear Bc N_waves Dn50 M50 rho_rock rho_water cs max_iter tol sh,
  filled Dn50 ->
  common [cot_alpha; cot_phi; gamma_f; gamma_f_Crest; Sd; Tmm10; Rc; Rc_rear; Bc; N_waves; rho_rock; rho_water; cs; Dn50] sh -> sh <> Some 0 -> 1 <= max_iter ->
  (forall i, inside sh i -> exists h, first_height (place i Rc) (place i gamma_f) = Fin h) ->
  forall n, settles sh max_iter (Fin tol) (fun i => first_height (place i Rc) (place i gamma_f))
      (fun i n => value (RearVanGentPozueta2004.calculate_maximum_significant_wave_height_Hs (place i cot_alpha) (place i cot_phi) (place i gamma_f) (place i gamma_f_Crest) (place i Sd) (place i Tmm10) (place i Rc) (place i Rc_rear) (place i Bc) (place i N_waves) (place i Dn50) (place i M50) (place i rho_rock) (place i rho_water) (place i cs) no_tolerance n)) n ->
  (In used_up (warns (ArrRearVanGentPozueta2004.calculate_maximum_significant_wave_height_Hs cot_alpha cot_phi gamma_f gamma_f_Crest Sd Tmm10 Rc Rc_rear Bc N_waves Dn50 M50 rho_rock rho_water cs (Fin tol) max_iter)) <-> n = max_iter).
Proof.
  intros * F C N M Fs. pose proof C as (Q & _). args_tac.
  destruct (pozueta_loop cot_alpha cot_phi gamma_f gamma_f_Crest Sd Tmm10 Rc Rc_rear Bc N_waves Dn50 M50 rho_rock rho_water cs Dn50 [Dn50] max_iter tol sh) as (n & r & K1 & K2 & K3 & K4 & K5); try assumption; [apply stone_size_given; assumption|].
  intros n' Hn'. rewrite (settles_unique _ _ _ _ _ _ _ Hn' K1).
  change used_up with too_many. rewrite said_spec, K5, Nat.eqb_eq. destruct K1 as (L & _). lia.
Qed.

Theorem C63_pozueta_Hs_from_M50_warning : forall cot_alpha cot_phi gamma_f gamma_f_Crest Sd Tmm10 Rc Rc_rear Bc N_waves Dn50 M50 rho_rock rho_water cs max_iter tol sh,
  missing Dn50 ->
  filled M50 ->
  filled rho_rock ->
  common [cot_alpha; cot_phi; gamma_f; gamma_f_Crest; Sd; Tmm10; Rc; Rc_rear; Bc; N_waves; rho_rock; rho_water; cs; M50] sh -> sh <> Some 0 -> 1 <= max_iter ->
  (forall i, inside sh i -> exists h, first_height (place i Rc) (place i gamma_f) = Fin h) ->
  forall n, settles sh max_iter (Fin tol) (fun i => first_height (place i Rc) (place i gamma_f))
      (fun i n => value (RearVanGentPozueta2004.calculate_maximum_significant_wave_height_Hs (place i cot_alpha) (place i cot_phi) (place i gamma_f) (place i gamma_f_Crest) (place i Sd) (place i Tmm10) (place i Rc) (place i Rc_rear) (place i Bc) (place i N_waves) (place i Dn50) (place i M50) (place i rho_rock) (place i rho_water) (place i cs) no_tolerance n)) n ->
  (In used_up (warns (ArrRearVanGentPozueta2004.calculate_maximum_significant_wave_height_Hs cot_alpha cot_phi gamma_f gamma_f_Crest Sd Tmm10 Rc Rc_rear Bc N_waves Dn50 M50 rho_rock rho_water cs (Fin tol) max_iter)) <-> n = max_iter).
Proof.
  intros * Fd Fm Fr C N M Fs. pose proof C as (Q & _). args_tac.
  destruct (stone_size_missing sh Dn50 M50 rho_rock) as (d & Hd); try assumption.
  destruct (pozueta_loop cot_alpha cot_phi gamma_f gamma_f_Crest Sd Tmm10 Rc Rc_rear Bc N_waves Dn50 M50 rho_rock rho_water cs d [M50; rho_rock] max_iter tol sh) as (n & r & K1 & K2 & K3 & K4 & K5); try assumption.
  try solve [destruct C as (F & X); split; [repeat (constructor; [assumption|]); constructor|]; destruct X as [X|X]; [left; exact X|right];
    rewrite !Exists_cons in X; rewrite !Exists_cons; tauto].
  intros n' Hn'. rewrite (settles_unique _ _ _ _ _ _ _ Hn' K1).
  change used_up with too_many. rewrite said_spec, K5, Nat.eqb_eq. destruct K1 as (L & _). lia.
Qed.

(** One starting value that is not finite. *)
Theorem C63_pozueta_Hs_undefined : forall cot_alpha cot_phi gamma_f gamma_f_Crest Sd Tmm10 Rc Rc_rear Bc N_waves Dn50 M50 rho_rock rho_water cs max_iter tol sh i0,
  filled Dn50 ->
  common [cot_alpha; cot_phi; gamma_f; gamma_f_Crest; Sd; Tmm10; Rc; Rc_rear; Bc; N_waves; rho_rock; rho_water; cs; Dn50] sh -> sh <> Some 0 -> 1 <= max_iter ->
  inside sh i0 -> (forall h, first_height (place i0 Rc) (place i0 gamma_f) <> Fin h) ->
  value (ArrRearVanGentPozueta2004.calculate_maximum_significant_wave_height_Hs cot_alpha cot_phi gamma_f gamma_f_Crest Sd Tmm10 Rc Rc_rear Bc N_waves Dn50 M50 rho_rock rho_water cs (Fin tol) max_iter) = Err UnboundLocalError.
Proof.
  intros * F C N M I Nf. pose proof C as (Q & _). args_tac.
  destruct (stone_size_given sh Dn50 M50 rho_rock F ltac:(assumption)) as (Ed & Id & Sz & Ud).
  name sh (ArrCore.calculate_buoyant_density_Delta rho_rock rho_water) (fun i => CorePhysics.calculate_buoyant_density_Delta (place i rho_rock) (place i rho_water)) [shape rho_rock; shape rho_water] Delta.
  name sh ((Rc + lit 0.5) / (lit 2.552 * gamma_f))%arr (fun i => first_height (place i Rc) (place i gamma_f)) [shape Rc; shape gamma_f] Hi.
  name sh (Hi + float PInf)%arr (fun i => (first_height (place i Rc) (place i gamma_f) + PInf)%num) (@nil (option nat)) Hp.
  unfold ArrRearVanGentPozueta2004.calculate_maximum_significant_wave_height_Hs.
  etransitivity; [apply (value_bind_ok _ _ Delta EDelta)|]. cbv beta.
  etransitivity; [apply (value_bind_ok _ _ Dn50 Ed)|]. cbv beta.
  etransitivity; [apply (value_bind_ok _ _ Hi EHi)|]. cbv beta.
  etransitivity; [apply (value_bind_ok _ _ Hp EHp)|]. cbv beta.
  etransitivity; [eapply value_bind_ok; apply (search_undefined sh _ _ _ _ _ _ (fun i => first_height (place i Rc) (place i gamma_f)) (fun i => (first_height (place i Rc) (place i gamma_f) + PInf)%num) i0)|].
  - exact N.
  - exact I.
  - exact DHi.
  - exact DHp.
  - destruct (first_height (place i0 Rc) (place i0 gamma_f)) as [h| | |]; try reflexivity. exfalso. apply (Nf h). reflexivity.
  - cbv beta iota. rewrite value_bind, value_when by reflexivity. reflexivity.
Qed.

(** Empty arrays *)
Theorem C63_pozueta_Hs_empty : forall cot_alpha cot_phi gamma_f gamma_f_Crest Sd Tmm10 Rc Rc_rear Bc N_waves Dn50 M50 rho_rock rho_water cs max_iter tol,
  filled Dn50 ->
  common [cot_alpha; cot_phi; gamma_f; gamma_f_Crest; Sd; Tmm10; Rc; Rc_rear; Bc; N_waves; rho_rock; rho_water; cs; Dn50] (Some 0) -> (shape Rc = Some 0 \/ shape gamma_f = Some 0) -> 1 <= max_iter ->
  value (ArrRearVanGentPozueta2004.calculate_maximum_significant_wave_height_Hs cot_alpha cot_phi gamma_f gamma_f_Crest Sd Tmm10 Rc Rc_rear Bc N_waves Dn50 M50 rho_rock rho_water cs (Fin tol) max_iter) = Err ValueError.
Proof.
  intros * F C Z M. pose proof C as (Q & _). args_tac.
  destruct (stone_size_given (Some 0) Dn50 M50 rho_rock F ltac:(assumption)) as (Ed & Id & Sz & Ud).
  name (Some 0) (ArrCore.calculate_buoyant_density_Delta rho_rock rho_water) (fun i => CorePhysics.calculate_buoyant_density_Delta (place i rho_rock) (place i rho_water)) [shape rho_rock; shape rho_water] Delta.
  name (Some 0) ((Rc + lit 0.5) / (lit 2.552 * gamma_f))%arr (fun i => first_height (place i Rc) (place i gamma_f)) [shape Rc; shape gamma_f] Hi.
  name (Some 0) (Hi + float PInf)%arr (fun i => (first_height (place i Rc) (place i gamma_f) + PInf)%num) (@nil (option nat)) Hp.
  unfold ArrRearVanGentPozueta2004.calculate_maximum_significant_wave_height_Hs.
  etransitivity; [apply (value_bind_ok _ _ Delta EDelta)|]. cbv beta.
  etransitivity; [apply (value_bind_ok _ _ Dn50 Ed)|]. cbv beta.
  etransitivity; [apply (value_bind_ok _ _ Hi EHi)|]. cbv beta.
  etransitivity; [apply (value_bind_ok _ _ Hp EHp)|]. cbv beta.
  apply value_bind_err. apply (search_empty _ _ _ _ _ _ (fun i => first_height (place i Rc) (place i gamma_f)) (fun i => (first_height (place i Rc) (place i gamma_f) + PInf)%num)).
  - exact M.
  - apply stretches_antisym; [exact SHi|]. rewrite !Forall_cons_iff in UHi. destruct UHi as (U1 & U2 & _). destruct Z as [<-|<-]; assumption.
  - exact DHi.
  - exact DHp.
Qed.

(** ** Examples *)

Definition rear_example : M nums :=
  ArrRearVanGent2007.calculate_maximum_significant_wave_height_Hs (lit 2) (lit 2) (lit 0.45) (lit 5) (lit 12) (lit 4) (Ar [Fin 1; Fin 1]) (lit 2) (lit 3000)
    (Ar [Fin 0.5; Fin 0.6]) anan anan (Fin 0.0001) 3.
Example C63_rear2007_example : exists n r, 1 <= n <= 3 /\ value rear_example = Ok r /\ shape r = Some 2.
Proof.
  assert (F : filled (Ar [Fin 0.5; Fin 0.6])) by (split; [discriminate|repeat constructor]).
  destruct (C63_rear2007_Hs (lit 2) (lit 2) (lit 0.45) (lit 5) (lit 12) (lit 4) (Ar [Fin 1; Fin 1]) (lit 2) (lit 3000) _ anan anan 3 0.0001 (Some 2) F) as (n & r & (L & _) & V & S & _).
  - split; [apply shapes_ok; reflexivity|right]. do 6 apply Exists_cons_tl. apply Exists_cons_hd. reflexivity.
  - discriminate.
  - lia.
  - intros [|[|i]] I; [exists 1%R; reflexivity|exists 1%R; reflexivity|cbn in I; lia].
  - exists n, r. auto.
Qed.

(** A crest-wall level that is missing at one of two places *)
Example C63_rear2007_undefined_example :
  value (ArrRearVanGent2007.calculate_maximum_significant_wave_height_Hs (lit 2) (lit 2) (lit 0.45) (lit 5) (lit 12) (lit 4) (Ar [Fin 1; NaN]) (lit 2) (lit 3000)
    (lit 0.5) anan anan (Fin 0.0001) 100) = Err UnboundLocalError.
Proof.
  apply (C63_rear2007_Hs_undefined _ _ _ _ _ _ _ _ _ _ _ _ _ _ (Some 2) 1).
  - split; [discriminate|repeat constructor].
  - split; [apply shapes_ok; reflexivity|right]. do 6 apply Exists_cons_tl. apply Exists_cons_hd. reflexivity.
  - discriminate.
  - lia.
  - cbn. lia.
  - discriminate.
Qed.
